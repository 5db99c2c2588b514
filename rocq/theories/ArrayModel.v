(** * Model of mulib/mu_array.c (all functions).

    Simplifications: the caller's comparison function is a pure function
    [Z -> Z -> Z] (its [int] result); items are [Z].  [a_store] is the caller's
    storage object. *)
From Verif Require Import CSem.

(** mu_array.h:46 (MU_ARRAY_NOT_FOUND = SIZE_MAX) *)
Definition MU_ARRAY_NOT_FOUND (p : plat) : Z := size_max p.

(** mu_array.h: mu_array_t { void **storage; size_t capacity; size_t count; } *)
Record marray := MkA { a_store : list Z; a_cap : Z; a_cnt : Z }.

Section model.
Context (p : plat).

(** mu_array.c:63-66 *)
Definition mu_array_reset (a : marray) : marray := MkA (a_store a) (a_cap a) 0.

(** mu_array.c:57-61 *)
Definition mu_array_init (storage : list Z) (capacity : Z) : marray :=
  mu_array_reset (MkA storage capacity 0).

(** mu_array.c:68 *)
Definition mu_array_capacity (a : marray) : Z := a_cap a.
(** mu_array.c:70 *)
Definition mu_array_count (a : marray) : Z := a_cnt a.
(** mu_array.c:72 *)
Definition mu_array_is_empty (a : marray) : bool := a_cnt a =? 0.
(** mu_array.c:74-76 *)
Definition mu_array_is_full (a : marray) : bool := a_cnt a =? a_cap a.

(** mu_array.c:78-85 *)
Definition mu_array_push (a : marray) (item : Z) : res (bool * marray) :=
  if negb (mu_array_is_full a) then
    let* s := st (a_store a) (a_cnt a) item in
    Ok (true, MkA s (a_cap a) (to_size p (a_cnt a + 1)))
  else Ok (false, a).

(** mu_array.c:87-94; the [option] is what is written to [*item] *)
Definition mu_array_pop (a : marray) : res (bool * option Z * marray) :=
  if negb (mu_array_is_empty a) then
    let c := to_size p (a_cnt a - 1) in
    let* v := ld (a_store a) c in
    Ok (true, Some v, MkA (a_store a) (a_cap a) c)
  else Ok (false, None, a).

(** mu_array.c:96-103 *)
Definition mu_array_peek (a : marray) : res (bool * option Z) :=
  if negb (mu_array_is_empty a) then
    let* v := ld (a_store a) (to_size p (a_cnt a - 1)) in
    Ok (true, Some v)
  else Ok (false, None).

(** mu_array.c:105-112 *)
Definition mu_array_ref (a : marray) (index : Z) : res (bool * option Z) :=
  if index <? a_cnt a then
    let* v := ld (a_store a) index in
    Ok (true, Some v)
  else Ok (false, None).

(** [to_move * sizeof(void * )] with [int to_move] (mu_array.c:123-126, 144-147),
    in elements: [int] is converted to [size_t], the product wraps. *)
Definition move_elems (to_move : Z) : Z :=
  to_size p (to_size p to_move * ptr_bytes p) / ptr_bytes p.

(** mu_array.c:114-132 *)
Definition mu_array_insert (a : marray) (item : Z) (index : Z) : res (bool * marray) :=
  if mu_array_is_full a || (a_cnt a <? index) then Ok (false, a)
  else if index =? a_cnt a then
    let* s := st (a_store a) (a_cnt a) item in
    Ok (true, MkA s (a_cap a) (to_size p (a_cnt a + 1)))
  else
    let to_move := to_int (to_size p (a_cnt a - index)) in
    let* s := memmove (a_store a) (to_size p (index + 1)) index (move_elems to_move) in
    let* s := st s index item in
    Ok (true, MkA s (a_cap a) (to_size p (a_cnt a + 1))).

(** mu_array.c:134-151 *)
Definition mu_array_delete (a : marray) (index : Z) : res (bool * option Z * marray) :=
  if mu_array_is_empty a || (a_cnt a <=? index) then Ok (false, None, a)
  else if index =? to_size p (a_cnt a - 1) then
    let c := to_size p (a_cnt a - 1) in
    let* v := ld (a_store a) c in
    Ok (true, Some v, MkA (a_store a) (a_cap a) c)
  else
    let* v := ld (a_store a) index in
    let to_move := to_int (to_size p (a_cnt a - index)) in
    let* s := memmove (a_store a) index (to_size p (index + 1)) (move_elems to_move) in
    Ok (true, Some v, MkA s (a_cap a) (a_cnt a)).

(** mu_array.c:154-158, the loop of mu_array_index *)
Fixpoint index_loop (fuel : nat) (s : list Z) (cnt item index : Z) : res Z :=
  if index <? cnt then
    match fuel with
    | O => NoFuel
    | S f =>
      let* v := ld s index in
      if v =? item then Ok index
      else index_loop f s cnt item (to_size p (index + 1))
    end
  else Ok (MU_ARRAY_NOT_FOUND p).

(** mu_array.c:153-160 *)
Definition mu_array_index (a : marray) (item : Z) : res Z :=
  index_loop (Z.to_nat (a_cnt a)) (a_store a) (a_cnt a) item 0.

(** mu_array.c:163-167, the loop of mu_array_rindex *)
Fixpoint rindex_loop (fuel : nat) (s : list Z) (item index : Z) : res Z :=
  if negb (index =? MU_ARRAY_NOT_FOUND p) then
    match fuel with
    | O => NoFuel
    | S f =>
      let* v := ld s index in
      if v =? item then Ok index
      else rindex_loop f s item (to_size p (index - 1))
    end
  else Ok (MU_ARRAY_NOT_FOUND p).

(** mu_array.c:162-169 *)
Definition mu_array_rindex (a : marray) (item : Z) : res Z :=
  rindex_loop (Z.to_nat (a_cnt a)) (a_store a) item (to_size p (a_cnt a - 1)).

Section cmp.
Context (cmp : Z -> Z -> Z).

(** mu_array.c:248-252 *)
Definition swap (items : list Z) (a b : Z) : res (list Z) :=
  let* temp := ld items a in
  let* y := ld items b in
  let* items := st items a y in
  st items b temp.

(** mu_array.c:231-245, the loop of sift_down; [fuel] bounds the iterations *)
Fixpoint sift_loop (fuel : nat) (items : list Z) (root end_ : Z) : res (list Z) :=
  let* r2 := imul root 2 in
  let* lc := iadd r2 1 in
  if lc <=? end_ then
    match fuel with
    | O => NoFuel
    | S f =>
      let* c1 := iadd lc 1 in
      let* child :=
        (if c1 <=? end_ then
           let* x := ld items lc in
           let* y := ld items c1 in
           if cmp x y <? 0 then iadd lc 1 else Ok lc
         else Ok lc) in
      let* x := ld items root in
      let* y := ld items child in
      if cmp x y <? 0 then
        let* items := swap items root child in
        sift_loop f items child end_
      else Ok items
    end
  else Ok items.

(** mu_array.c:228-246 *)
Definition sift_down (items : list Z) (start end_ : Z) : res (list Z) :=
  sift_loop (Z.to_nat (end_ - start)) items start end_.

(** mu_array.c:222-225, the loop of heapify *)
Fixpoint heapify_loop (fuel : nat) (items : list Z) (start end_ : Z) : res (list Z) :=
  if 0 <=? start then
    match fuel with
    | O => NoFuel
    | S f =>
      let* items := sift_down items start end_ in
      let* start := isub start 1 in
      heapify_loop f items start end_
    end
  else Ok items.

(** mu_array.c:219-226; [(count - 2) / 2] is [size_t] arithmetic converted to
    [int]; the argument [count - 1] is converted to [int] *)
Definition heapify (items : list Z) (count : Z) : res (list Z) :=
  let start := to_int (to_size p (count - 2) / 2) in
  heapify_loop (Z.to_nat (start + 1)) items start (to_int (to_size p (count - 1))).

(** mu_array.c:180-184, the loop of mu_array_sort *)
Fixpoint sort_loop (fuel : nat) (items : list Z) (end_ : Z) : res (list Z) :=
  if 0 <? end_ then
    match fuel with
    | O => NoFuel
    | S f =>
      let* items := swap items (to_int end_) 0 in
      let end_ := to_size p (end_ - 1) in
      let* items := sift_down items 0 (to_int end_) in
      sort_loop f items end_
    end
  else Ok items.

(** mu_array.c:171-187 *)
Definition mu_array_sort (a : marray) : res marray :=
  let count := a_cnt a in
  if 0 <? count then
    let end_ := to_size p (count - 1) in
    let* items := heapify (a_store a) count in
    let* items := sort_loop (Z.to_nat end_) items end_ in
    Ok (MkA items (a_cap a) (a_cnt a))
  else Ok a.

(** mu_array.c:208-215, the loop of find_insertion_index *)
Fixpoint find_loop (fuel : nat) (s : list Z) (item low high : Z) : res Z :=
  if low <=? high then
    match fuel with
    | O => NoFuel
    | S f =>
      let* sum := iadd low high in
      let mid := Z.quot sum 2 in
      let* v := ld s mid in
      if 0 <? cmp v item then
        let* h := isub mid 1 in find_loop f s item low h
      else
        let* l := iadd mid 1 in find_loop f s item l high
    end
  else Ok low.

(** mu_array.c:204-217 *)
Definition find_insertion_index (a : marray) (item : Z) : res Z :=
  let* low := find_loop (Z.to_nat (a_cnt a)) (a_store a) item 0
                (to_int (to_size p (a_cnt a - 1))) in
  Ok (to_size p low).

(** mu_array.c:189-197 *)
Definition mu_array_insert_sorted (a : marray) (item : Z) : res (bool * marray) :=
  if mu_array_count a =? 0 then mu_array_push a item
  else
    let* i := find_insertion_index a item in
    let index := to_int i in
    mu_array_insert a item (to_size p index).

End cmp.
End model.
