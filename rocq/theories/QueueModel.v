(** * Model of mulib/mu_queue.c (all functions) *)
From Verif Require Import CSem.

(** mu_queue.h: mu_queue_t { void **storage; size_t capacity, count, index; } *)
Record mqueue := MkQ { q_store : list Z; q_cap : Z; q_cnt : Z; q_index : Z }.

Section model.
Context (p : plat).

(** mu_queue.c:63-67 *)
Definition mu_queue_reset (q : mqueue) : mqueue := MkQ (q_store q) (q_cap q) 0 0.
(** mu_queue.c:56-61 *)
Definition mu_queue_init (storage : list Z) (capacity : Z) : mqueue :=
  mu_queue_reset (MkQ storage capacity 0 0).
(** mu_queue.c:69 *)
Definition mu_queue_capacity (q : mqueue) : Z := q_cap q.
(** mu_queue.c:71 *)
Definition mu_queue_count (q : mqueue) : Z := q_cnt q.
(** mu_queue.c:73 *)
Definition mu_queue_is_empty (q : mqueue) : bool := q_cnt q =? 0.
(** mu_queue.c:75-77 *)
Definition mu_queue_is_full (q : mqueue) : bool := q_cnt q =? q_cap q.

(** [size_t] remainder; division by zero is undefined *)
Definition umod (x y : Z) : res Z := if y =? 0 then UB else Ok (x mod y).

(** mu_queue.c:79-88 *)
Definition mu_queue_put (q : mqueue) (element : Z) : res (bool * mqueue) :=
  if negb (mu_queue_is_full q) then
    let* s := st (q_store q) (q_index q) element in
    let* i := umod (to_size p (q_index q + 1)) (q_cap q) in
    Ok (true, MkQ s (q_cap q) (to_size p (q_cnt q + 1)) i)
  else Ok (false, q).

(** mu_queue.c:101-117; the middle component is what is stored in [*element] *)
Definition access_queue (q : mqueue) (fetch : bool) : res (bool * Z * mqueue) :=
  if negb (mu_queue_is_empty q) then
    let idx := to_size p (to_size p (q_cap q + q_index q) - q_cnt q) in
    let idx := if q_cap q <=? idx then to_size p (idx - q_cap q) else idx in
    let* e := ld (q_store q) idx in
    Ok (true, e,
        if fetch then MkQ (q_store q) (q_cap q) (to_size p (q_cnt q - 1)) (q_index q) else q)
  else Ok (false, 0, q).

(** mu_queue.c:90-92 *)
Definition mu_queue_get (q : mqueue) : res (bool * Z * mqueue) := access_queue q true.
(** mu_queue.c:94-96 *)
Definition mu_queue_peek (q : mqueue) : res (bool * Z * mqueue) := access_queue q false.
End model.
