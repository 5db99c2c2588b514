(** * Model of mulib/mu_bisync.c (all functions).

    [encoded], [dst] and [src] are distinct C objects (lists of bytes, at least as
    long as the lengths/capacities passed).  A call returns its result and the final
    contents of the object it writes. *)
From Verif Require Import CSem.

(** mu_bisync.h:56-63 *)
Definition BISYNC_SOH : Z := 1.
Definition BISYNC_EOT : Z := 4.
Definition BISYNC_DLE : Z := 16.
Definition MU_BISYNC_ERR_OFLOW : Z := -1.
Definition MU_BISYNC_ERR_FORMAT : Z := -2.

(** mu_bisync.c:43-50: buffer_t { uint8_t *wbuf; int capacity; int index; } *)
Record buffer := MkBuf { wbuf : list Z; bcap : Z; bidx : Z }.

(** mu_bisync.c:134-141 *)
Definition buffer_put (w : buffer) (byte : Z) : res (bool * buffer) :=
  if bcap w <=? bidx w then Ok (false, w)
  else
    let* b := st (wbuf w) (bidx w) byte in
    let* i := iadd (bidx w) 1 in
    Ok (true, MkBuf b (bcap w) i).

Section model.
Context (p : plat).

(** mu_bisync.c:78-89, the loop of mu_bisync_encode; [i < src_len] compares as
    [size_t].  The first component of the result is false on overflow. *)
Fixpoint encode_loop (fuel : nat) (src : list Z) (src_len i : Z) (w : buffer) : res (bool * buffer) :=
  if to_size p i <? src_len then
    match fuel with
    | O => NoFuel
    | S f =>
      let* b := ld src i in
      let* '(ok, w) :=
        (if (b =? BISYNC_EOT) || (b =? BISYNC_SOH) || (b =? BISYNC_DLE)
         then buffer_put w BISYNC_DLE else Ok (true, w)) in
      if negb ok then Ok (false, w) else
      let* '(ok, w) := buffer_put w b in
      if negb ok then Ok (false, w) else
      let* i := iadd i 1 in
      encode_loop f src src_len i w
    end
  else Ok (true, w).

(** mu_bisync.c:70-94 *)
Definition mu_bisync_encode (encoded : list Z) (encoded_capacity : Z) (src : list Z) (src_len : Z)
  : res (Z * list Z) :=
  let w := MkBuf encoded (to_int encoded_capacity) 0 in
  let* '(ok, w) := buffer_put w BISYNC_SOH in
  if negb ok then Ok (MU_BISYNC_ERR_OFLOW, wbuf w) else
  let* '(ok, w) := encode_loop (Z.to_nat src_len) src src_len 0 w in
  if negb ok then Ok (MU_BISYNC_ERR_OFLOW, wbuf w) else
  let* '(ok, w) := buffer_put w BISYNC_EOT in
  if negb ok then Ok (MU_BISYNC_ERR_OFLOW, wbuf w) else
  Ok (bidx w, wbuf w).

(** mu_bisync.c:106-122, the loop of mu_bisync_decode.  [b] is the C variable [b]
    ([None] = not yet assigned). *)
Fixpoint decode_loop (fuel : nat) (encoded : list Z) (encoded_len i : Z) (b : option Z) (escaping : bool)
    (w : buffer) : res (bool * option Z * buffer) :=
  if to_size p i <? encoded_len then
    match fuel with
    | O => NoFuel
    | S f =>
      let* c := ld encoded i in
      if escaping then
        let* '(ok, w) := buffer_put w c in
        if negb ok then Ok (false, Some c, w) else
        let* i := iadd i 1 in
        decode_loop f encoded encoded_len i (Some c) false w
      else if c =? BISYNC_DLE then
        let* i := iadd i 1 in
        decode_loop f encoded encoded_len i (Some c) true w
      else if c =? BISYNC_EOT then Ok (true, Some c, w)
      else
        let* '(ok, w) := buffer_put w c in
        if negb ok then Ok (false, Some c, w) else
        let* i := iadd i 1 in
        decode_loop f encoded encoded_len i (Some c) false w
    end
  else Ok (true, b, w).

(** mu_bisync.c:96-129; reading the unassigned [b] would be undefined *)
Definition mu_bisync_decode (dst : list Z) (dst_capacity : Z) (encoded : list Z) (encoded_len : Z)
  : res (Z * list Z) :=
  let w := MkBuf dst (to_int dst_capacity) 0 in
  let* bad := (if encoded_len <? 1 then Ok true
               else let* c := ld encoded 0 in Ok (negb (c =? BISYNC_SOH))) in
  if bad : bool then Ok (MU_BISYNC_ERR_FORMAT, dst) else
  let* '(ok, b, w) := decode_loop (Z.to_nat encoded_len) encoded encoded_len 0 None false w in
  if negb ok then Ok (MU_BISYNC_ERR_OFLOW, wbuf w) else
  match b with
  | None => UB
  | Some b => if negb (b =? BISYNC_EOT) then Ok (MU_BISYNC_ERR_FORMAT, wbuf w)
              else Ok (bidx w, wbuf w)
  end.
End model.
