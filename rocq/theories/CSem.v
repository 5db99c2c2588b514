(** * C semantics kit shared by all models.

    This file models no function of mulib; it fixes the meaning of the C
    constructs the transcriptions use: outcomes, integer types, conversions,
    checked signed arithmetic, array loads/stores and memmove.  [Ok] is a normal
    result, [UB] is C undefined behaviour, [NoFuel] means that a loop did not
    finish within the given fuel. *)
From stdpp Require Export base option list numbers sorting.
From Coq Require Export ZArith Lia.
Open Scope Z_scope.

Inductive res (A : Type) : Type :=
| Ok (a : A)
| UB
| NoFuel.
Arguments Ok {A} a.
Arguments UB {A}.
Arguments NoFuel {A}.

Definition bind {A B} (m : res A) (f : A -> res B) : res B :=
  match m with Ok a => f a | UB => UB | NoFuel => NoFuel end.

Declare Scope c_scope.
Delimit Scope c_scope with c.
Notation "'let*' x ':=' m 'in' k" := (bind m (fun x => k))
  (at level 200, x name, m at level 100, k at level 200, right associativity).
Notation "'let*' ' p ':=' m 'in' k" := (bind m (fun p => k))
  (at level 200, p strict pattern, m at level 100, k at level 200, right associativity).

(** ** Platforms: the width of [size_t] (and of pointers).  [int] is 32 bits. *)
Inductive plat := P32 | P64.

Definition size_bits (p : plat) : Z := match p with P32 => 32 | P64 => 64 end.
Definition size_mod (p : plat) : Z := match p with P32 => 4294967296 | P64 => 18446744073709551616 end.
Definition size_max (p : plat) : Z := size_mod p - 1.
Definition ptr_bytes (p : plat) : Z := match p with P32 => 4 | P64 => 8 end.

Definition int_max : Z := 2147483647.
Definition int_min : Z := -2147483648.

(** Conversion to [size_t]: reduction modulo 2^bits. *)
Definition to_size (p : plat) (x : Z) : Z := x mod size_mod p.

(** Two's complement reading of the low [w] bits, [m] = 2^w. *)
Definition wrap_signed (m : Z) (x : Z) : Z :=
  let y := x mod m in if y <? m / 2 then y else y - m.

(** Conversion of any integer to [int] (implementation-defined when out of
    range; gcc and clang reduce modulo 2^32). *)
Definition to_int (x : Z) : Z := wrap_signed 4294967296 x.

(** Checked signed arithmetic in a type with range [lo, hi]. *)
Definition in_range (lo hi x : Z) : bool := (lo <=? x) && (x <=? hi).
Definition chk (lo hi x : Z) : res Z := if in_range lo hi x then Ok x else UB.
Definition ichk (x : Z) : res Z := chk int_min int_max x.
Definition iadd (x y : Z) : res Z := ichk (x + y).
Definition isub (x y : Z) : res Z := ichk (x - y).
Definition imul (x y : Z) : res Z := ichk (x * y).

(** ** Arrays: a list is the whole C object, index out of range is UB. *)
Definition ld {A} (l : list A) (i : Z) : res A :=
  if i <? 0 then UB
  else match l !! Z.to_nat i with Some x => Ok x | None => UB end.

Definition st {A} (l : list A) (i : Z) (v : A) : res (list A) :=
  if (0 <=? i) && (i <? Z.of_nat (length l))
  then Ok (<[Z.to_nat i := v]> l) else UB.

(** [memmove] of [n] elements from index [src] to index [dst] of one object:
    both ranges must lie inside the object (bytes are counted in elements, which
    is exact because all callers use multiples of the element size). *)
Definition memmove {A} (l : list A) (dst src n : Z) : res (list A) :=
  if (0 <=? n) && (0 <=? dst) && (0 <=? src)
     && (dst + n <=? Z.of_nat (length l)) && (src + n <=? Z.of_nat (length l))
  then Ok (take (Z.to_nat dst) l
           ++ take (Z.to_nat n) (drop (Z.to_nat src) l)
           ++ drop (Z.to_nat (dst + n)) l)
  else UB.

(** A [void *] array object of [cap] elements must fit in the address space. *)
Definition valid_cap (p : plat) (cap : Z) : Prop :=
  0 <= cap /\ cap * ptr_bytes p <= size_max p.

(** ** Basic lemmas *)
Lemma bind_Ok {A B} (m : res A) (f : A -> res B) b :
  bind m f = Ok b -> exists a, m = Ok a /\ f a = Ok b.
Proof. destruct m; simpl; intros H; try discriminate; eauto. Qed.

Lemma size_mod_pos p : 0 < size_mod p.
Proof. destruct p; reflexivity. Qed.

Lemma size_mod_big p : 4294967296 <= size_mod p.
Proof. destruct p; simpl; lia. Qed.

Lemma to_size_range p x : 0 <= to_size p x < size_mod p.
Proof. apply Z.mod_pos_bound, size_mod_pos. Qed.

Lemma to_size_id p x : 0 <= x < size_mod p -> to_size p x = x.
Proof. intros. apply Z.mod_small; lia. Qed.

Lemma to_size_neg1 p : to_size p (-1) = size_max p.
Proof. destruct p; reflexivity. Qed.

Lemma wrap_signed_id m x : 0 < m -> m mod 2 = 0 -> - (m / 2) <= x < m / 2 -> wrap_signed m x = x.
Proof.
  intros Hm He Hx. unfold wrap_signed.
  pose proof (Z.div_mod m 2 ltac:(lia)) as Hd.
  destruct (Z.ltb_spec (x mod m) (m / 2)) as [Hlt|Hge].
  - destruct (Z.le_gt_cases 0 x).
    + apply Z.mod_small; lia.
    + exfalso.
      assert (x mod m = x + m).
      { symmetry. apply Z.mod_unique with (q := -1); lia. }
      lia.
  - destruct (Z.le_gt_cases 0 x).
    + rewrite Z.mod_small in Hge; lia.
    + assert (x mod m = x + m).
      { symmetry. apply Z.mod_unique with (q := -1); lia. }
      lia.
Qed.

Lemma to_int_id x : int_min <= x <= int_max -> to_int x = x.
Proof.
  intros H. apply wrap_signed_id; [reflexivity|reflexivity|].
  unfold int_min, int_max in H. change (4294967296 / 2) with 2147483648. lia.
Qed.

Lemma wrap_signed_range m x : 0 < m -> m mod 2 = 0 -> - (m/2) <= wrap_signed m x < m / 2.
Proof.
  intros Hm He. unfold wrap_signed.
  pose proof (Z.div_mod m 2 ltac:(lia)) as Hd.
  pose proof (Z.mod_pos_bound x m Hm).
  destruct (Z.ltb_spec (x mod m) (m / 2)); lia.
Qed.

Lemma ichk_ok x : int_min <= x <= int_max -> ichk x = Ok x.
Proof.
  intros H. unfold ichk, chk, in_range.
  destruct (Z.leb_spec int_min x), (Z.leb_spec x int_max); simpl; try reflexivity; lia.
Qed.

Lemma ichk_ub x : x < int_min \/ int_max < x -> ichk x = UB.
Proof.
  intros H. unfold ichk, chk, in_range.
  destruct (Z.leb_spec int_min x), (Z.leb_spec x int_max); simpl; try reflexivity; lia.
Qed.

Lemma ld_ok {A} (l : list A) (i : nat) x : l !! i = Some x -> ld l (Z.of_nat i) = Ok x.
Proof.
  intros H. unfold ld. destruct (Z.ltb_spec (Z.of_nat i) 0); [lia|].
  rewrite Nat2Z.id, H. reflexivity.
Qed.

Lemma ld_okZ {A} (l : list A) (i : Z) x : 0 <= i -> l !! Z.to_nat i = Some x -> ld l i = Ok x.
Proof.
  intros Hi H. unfold ld. destruct (Z.ltb_spec i 0); [lia|]. rewrite H. reflexivity.
Qed.

Lemma ld_ex {A} (l : list A) (i : Z) : 0 <= i < Z.of_nat (length l) ->
  exists x, l !! Z.to_nat i = Some x /\ ld l i = Ok x.
Proof.
  intros Hi. destruct (lookup_lt_is_Some_2 l (Z.to_nat i)) as [x Hx]; [lia|].
  exists x. split; [done|]. apply ld_okZ; [lia|done].
Qed.

Lemma ld_ub {A} (l : list A) (i : Z) : i < 0 \/ Z.of_nat (length l) <= i -> ld l i = UB.
Proof.
  intros H. unfold ld. destruct (Z.ltb_spec i 0); [done|].
  rewrite lookup_ge_None_2; [done|lia].
Qed.

Lemma st_ok {A} (l : list A) (i : Z) v : 0 <= i < Z.of_nat (length l) ->
  st l i v = Ok (<[Z.to_nat i := v]> l).
Proof.
  intros H. unfold st.
  destruct (Z.leb_spec 0 i), (Z.ltb_spec i (Z.of_nat (length l))); simpl; try lia. done.
Qed.

Lemma st_ub {A} (l : list A) (i : Z) v : i < 0 \/ Z.of_nat (length l) <= i -> st l i v = UB.
Proof.
  intros H. unfold st.
  destruct (Z.leb_spec 0 i), (Z.ltb_spec i (Z.of_nat (length l))); simpl; try lia; done.
Qed.

Lemma memmove_ok {A} (l : list A) dst src n :
  0 <= n -> 0 <= dst -> 0 <= src ->
  dst + n <= Z.of_nat (length l) -> src + n <= Z.of_nat (length l) ->
  memmove l dst src n = Ok (take (Z.to_nat dst) l
           ++ take (Z.to_nat n) (drop (Z.to_nat src) l)
           ++ drop (Z.to_nat (dst + n)) l).
Proof.
  intros. unfold memmove.
  repeat match goal with |- context [Z.leb ?a ?b] => destruct (Z.leb_spec a b); [|lia] end.
  done.
Qed.

Lemma memmove_ub {A} (l : list A) dst src n :
  n < 0 \/ Z.of_nat (length l) < src + n \/ Z.of_nat (length l) < dst + n ->
  memmove l dst src n = UB.
Proof.
  intros. unfold memmove.
  repeat match goal with |- context [Z.leb ?a ?b] => destruct (Z.leb_spec a b) end; simpl; try done; lia.
Qed.

Lemma valid_cap_size p cap : valid_cap p cap -> 4 * cap < size_mod p /\ 0 <= cap.
Proof. intros [H1 H2]. unfold size_max in *. destruct p; simpl in *; lia. Qed.

Ltac zb := repeat match goal with
  | |- context [Z.leb ?a ?b] => destruct (Z.leb_spec a b)
  | |- context [Z.ltb ?a ?b] => destruct (Z.ltb_spec a b)
  | |- context [Z.eqb ?a ?b] => destruct (Z.eqb_spec a b)
  end.
