(** * Model of mulib/mu_bvec.c (all functions), on top of the model of mu_bbuf.c. *)
From Verif Require Import CSem BbufModel.

(** mu_bvec.h:49-52 *)
Record bvec := MkBvec { vbuf : bbuf; vcount : Z }.

Section model.
Context (p : plat).

(** mu_bvec.c:62-65 *)
Definition mu_bvec_reset (v : bvec) : bvec := MkBvec (vbuf v) 0.
(** mu_bvec.c:47-50.  Simplification: the source struct is passed by value (the copy
    of the two fields cannot alias the embedded struct's own fields). *)
Definition mu_bvec_init (v : bvec) (b : bbuf) : bvec :=
  mu_bvec_reset (MkBvec (MkBbuf (bytes b) (capacity b)) (vcount v)).
(** mu_bvec.c:52-60 mu_bvec_init_ro / mu_bvec_init_rw *)
Definition mu_bvec_init_ro (v : bvec) (byts : ptr) (cap : Z) : bvec :=
  mu_bvec_reset (MkBvec (MkBbuf byts cap) (vcount v)).
Definition mu_bvec_init_rw (v : bvec) (byts : ptr) (cap : Z) : bvec :=
  mu_bvec_reset (MkBvec (MkBbuf byts cap) (vcount v)).
(** mu_bvec.c:67-81 *)
Definition mu_bvec_get_bbuf (v : bvec) : bbuf := vbuf v.
Definition mu_bvec_get_capacity (v : bvec) : Z := mu_bbuf_capacity (vbuf v).
Definition mu_bvec_get_count (v : bvec) : Z := vcount v.
Definition mu_bvec_set_count (v : bvec) (count : Z) : bvec := MkBvec (vbuf v) count.
(** mu_bvec.c:83-90 *)
Definition mu_bvec_get_available (v : bvec) : Z :=
  let cap := mu_bbuf_capacity (vbuf v) in
  if cap <? vcount v then 0 else to_size p (cap - vcount v).
(** mu_bvec.c:92-98 mu_bvec_ref_ro / mu_bvec_ref_rw; [None] is NULL *)
Definition mu_bvec_ref (m : memory) (v : bvec) (index : Z) : res (option ptr) :=
  mu_bbuf_ref m (vbuf v) index.
(** [bvec->count++]: the old value and the struct with the new one *)
Definition count_post_inc (v : bvec) : Z * bvec := (vcount v, MkBvec (vbuf v) (to_size p (vcount v + 1))).
(** mu_bvec.c:100-108; returns the flag, the byte stored through the out-pointer and the struct *)
Definition mu_bvec_read_byte (m : memory) (v : bvec) : res (bool * option Z * bvec) :=
  let '(i, v) := count_post_inc v in
  let* q := mu_bvec_ref m v i in
  match q with
  | None => Ok (false, None, v)
  | Some q => let* x := rd m q 0 in Ok (true, Some x, v)
  end.
(** mu_bvec.c:110-118 *)
Definition mu_bvec_write_byte (m : memory) (v : bvec) (byte : Z) : res (bool * bvec * memory) :=
  let '(i, v) := count_post_inc v in
  let* q := mu_bvec_ref m v i in
  match q with
  | None => Ok (false, v, m)
  | Some q => let* m := wr m q 0 byte in Ok (true, v, m)
  end.
End model.
