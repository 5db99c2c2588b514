(** * Specification of mu_array: a mathematical list bounded by a capacity.
    Nothing here refers to the model. *)
From stdpp Require Import base list numbers sorting.
From Coq Require Import ZArith.
Open Scope Z_scope.

(** The calls of the API (indices are the caller's size_t arguments). *)
Inductive aop :=
| APush (x : Z) | APop | APeek | ARef (i : Z) | AInsert (x : Z) (i : Z) | ADelete (i : Z)
| AIndex (x : Z) | ARindex (x : Z) | AReset | ACount | ACapacity | AIsEmpty | AIsFull
| ASort (cmp : Z -> Z -> Z) | AInsertSorted (cmp : Z -> Z -> Z) (x : Z).

(** What the caller observes of a call. *)
Inductive aobs :=
| OBool (b : bool)
| OItem (b : bool) (written : option Z)  (* returned flag, what was stored via the out-pointer *)
| ONum (n : Z)
| OIdx (i : option Z)                    (* None = NOT_FOUND *)
| OUnit.

(** [cmp] is a three-way comparison of a total preorder. *)
Record total_preorder (cmp : Z -> Z -> Z) : Prop := {
  tp_total : forall x y, cmp x y <= 0 \/ cmp y x <= 0;
  tp_trans : forall x y z, cmp x y <= 0 -> cmp y z <= 0 -> cmp x z <= 0;
  tp_sign  : forall x y, cmp x y < 0 <-> 0 < cmp y x }.

(** non-decreasing for [cmp] *)
Definition sorted (cmp : Z -> Z -> Z) (l : list Z) : Prop :=
  forall i j x y, (i < j)%nat -> l !! i = Some x -> l !! j = Some y -> cmp x y <= 0.

(** [i] is the least / greatest index of [x] in [l] *)
Definition first_index (l : list Z) (x : Z) (i : nat) : Prop :=
  l !! i = Some x /\ forall j, (j < i)%nat -> l !! j <> Some x.
Definition last_index (l : list Z) (x : Z) (i : nat) : Prop :=
  l !! i = Some x /\ forall j, (i < j)%nat -> l !! j <> Some x.

Definition len (l : list Z) : Z := Z.of_nat (length l).

(** One call on a list bounded by [cap]: [astep cap l op o l'] *)
Inductive astep (cap : Z) (l : list Z) : aop -> aobs -> list Z -> Prop :=
| s_push x : len l < cap -> astep cap l (APush x) (OBool true) (l ++ [x])
| s_push_full x : len l = cap -> astep cap l (APush x) (OBool false) l
| s_pop l' x : l = l' ++ [x] -> astep cap l APop (OItem true (Some x)) l'
| s_pop_empty : l = [] -> astep cap l APop (OItem false None) l
| s_peek l' x : l = l' ++ [x] -> astep cap l APeek (OItem true (Some x)) l
| s_peek_empty : l = [] -> astep cap l APeek (OItem false None) l
| s_ref i x : 0 <= i -> l !! Z.to_nat i = Some x -> astep cap l (ARef i) (OItem true (Some x)) l
| s_ref_out i : len l <= i -> astep cap l (ARef i) (OItem false None) l
| s_insert x i l1 l2 : len l < cap -> l = l1 ++ l2 -> len l1 = i ->
    astep cap l (AInsert x i) (OBool true) (l1 ++ x :: l2)
| s_insert_fail x i : len l = cap \/ len l < i -> astep cap l (AInsert x i) (OBool false) l
| s_delete i l1 x l2 : l = l1 ++ x :: l2 -> len l1 = i ->
    astep cap l (ADelete i) (OItem true (Some x)) (l1 ++ l2)
| s_delete_fail i : len l <= i -> astep cap l (ADelete i) (OItem false None) l
| s_index x i : first_index l x i -> astep cap l (AIndex x) (OIdx (Some (Z.of_nat i))) l
| s_index_none x : ~ In x l -> astep cap l (AIndex x) (OIdx None) l
| s_rindex x i : last_index l x i -> astep cap l (ARindex x) (OIdx (Some (Z.of_nat i))) l
| s_rindex_none x : ~ In x l -> astep cap l (ARindex x) (OIdx None) l
| s_reset : astep cap l AReset OUnit []
| s_count : astep cap l ACount (ONum (len l)) l
| s_capacity : astep cap l ACapacity (ONum cap) l
| s_is_empty : astep cap l AIsEmpty (OBool (bool_decide (l = []))) l
| s_is_full : astep cap l AIsFull (OBool (bool_decide (len l = cap))) l
| s_sort cmp l' : Permutation l l' -> (total_preorder cmp -> sorted cmp l') ->
    astep cap l (ASort cmp) OUnit l'
| s_insert_sorted cmp x l1 l2 : len l < cap -> l = l1 ++ l2 ->
    (total_preorder cmp -> sorted cmp l ->
       (forall y, In y l1 -> cmp y x <= 0) /\ (forall y, In y l2 -> 0 < cmp y x)) ->
    astep cap l (AInsertSorted cmp x) (OBool true) (l1 ++ x :: l2)
| s_insert_sorted_full cmp x : len l = cap -> astep cap l (AInsertSorted cmp x) (OBool false) l.

(** A history of calls. *)
Inductive asteps (cap : Z) : list Z -> list aop -> list aobs -> list Z -> Prop :=
| as_nil l : asteps cap l [] [] l
| as_cons l op o l' ops os l'' : astep cap l op o l' -> asteps cap l' ops os l'' ->
    asteps cap l (op :: ops) (o :: os) l''.
