(** * mu_bisync_encode / mu_bisync_decode with source and destination in ONE object.

    mu_bisync.h does not say the two buffers must differ and the pointers are not
    [restrict], so a call with overlapping buffers is defined C.  [m] is the object,
    [d] the index of dst (encoded), [e] the index of encoded (src).  Same statements as
    BisyncModel, function by function; every write goes to the object being read. *)
From Verif Require Import CSem BisyncModel.

(** mu_bisync.c:43-50, 134-141: the writer is (object, capacity, index), wbuf = &m[d] *)
Definition aput (d : Z) (w : buffer) (byte : Z) : res (bool * buffer) :=
  if bcap w <=? bidx w then Ok (false, w)
  else
    let* b := st (wbuf w) (d + bidx w) byte in
    let* i := iadd (bidx w) 1 in
    Ok (true, MkBuf b (bcap w) i).

Section model.
Context (p : plat).

(** mu_bisync.c:78-89 *)
Fixpoint aencode_loop (fuel : nat) (d e : Z) (src_len i : Z) (w : buffer) : res (bool * buffer) :=
  if to_size p i <? src_len then
    match fuel with
    | O => NoFuel
    | S f =>
      let* b := ld (wbuf w) (e + i) in
      let* '(ok, w) :=
        (if (b =? BISYNC_EOT) || (b =? BISYNC_SOH) || (b =? BISYNC_DLE)
         then aput d w BISYNC_DLE else Ok (true, w)) in
      if negb ok then Ok (false, w) else
      let* '(ok, w) := aput d w b in
      if negb ok then Ok (false, w) else
      let* i := iadd i 1 in
      aencode_loop f d e src_len i w
    end
  else Ok (true, w).

(** mu_bisync.c:70-94 *)
Definition aencode (m : list Z) (d encoded_capacity e src_len : Z) : res (Z * list Z) :=
  let w := MkBuf m (to_int encoded_capacity) 0 in
  let* '(ok, w) := aput d w BISYNC_SOH in
  if negb ok then Ok (MU_BISYNC_ERR_OFLOW, wbuf w) else
  let* '(ok, w) := aencode_loop (Z.to_nat src_len) d e src_len 0 w in
  if negb ok then Ok (MU_BISYNC_ERR_OFLOW, wbuf w) else
  let* '(ok, w) := aput d w BISYNC_EOT in
  if negb ok then Ok (MU_BISYNC_ERR_OFLOW, wbuf w) else
  Ok (bidx w, wbuf w).

(** mu_bisync.c:106-122 *)
Fixpoint adecode_loop (fuel : nat) (d e : Z) (encoded_len i : Z) (b : option Z) (escaping : bool)
    (w : buffer) : res (bool * option Z * buffer) :=
  if to_size p i <? encoded_len then
    match fuel with
    | O => NoFuel
    | S f =>
      let* c := ld (wbuf w) (e + i) in
      if escaping then
        let* '(ok, w) := aput d w c in
        if negb ok then Ok (false, Some c, w) else
        let* i := iadd i 1 in
        adecode_loop f d e encoded_len i (Some c) false w
      else if c =? BISYNC_DLE then
        let* i := iadd i 1 in
        adecode_loop f d e encoded_len i (Some c) true w
      else if c =? BISYNC_EOT then Ok (true, Some c, w)
      else
        let* '(ok, w) := aput d w c in
        if negb ok then Ok (false, Some c, w) else
        let* i := iadd i 1 in
        adecode_loop f d e encoded_len i (Some c) false w
    end
  else Ok (true, b, w).

(** mu_bisync.c:96-129 *)
Definition adecode (m : list Z) (d dst_capacity e encoded_len : Z) : res (Z * list Z) :=
  let w := MkBuf m (to_int dst_capacity) 0 in
  let* bad := (if encoded_len <? 1 then Ok true
               else let* c := ld m (e + 0) in Ok (negb (c =? BISYNC_SOH))) in
  if bad : bool then Ok (MU_BISYNC_ERR_FORMAT, m) else
  let* '(ok, b, w) := adecode_loop (Z.to_nat encoded_len) d e encoded_len 0 None false w in
  if negb ok then Ok (MU_BISYNC_ERR_OFLOW, wbuf w) else
  match b with
  | None => UB
  | Some b => if negb (b =? BISYNC_EOT) then Ok (MU_BISYNC_ERR_FORMAT, wbuf w)
              else Ok (bidx w, wbuf w)
  end.
End model.
