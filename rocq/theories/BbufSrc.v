(** * mu_bbuf: the translated source does what the model says, function by function.
    Each lemma: when the model's function returns a result, the C function, run by CLang.v, returns the same. *)
From Verif Require Import BbufModel.
From Verif Require Import CSym SrcBvec.
Open Scope string_scope. Open Scope Z_scope.
Notation length := List.length.

Lemma loop_S n c b st s : loop (S n) c b st s =
  let* '(t, s) := c s in
  if t then let* '(o, s) := b s in
    match o with
    | Next | Continued => let* '(_, s) := st s in loop n c b st s
    | Broke => Ok (Next, s)
    | Returned v t => Ok (Returned v t, s)
    end
  else Ok (Next, s).
Proof. done. Qed.

(** ** The C library and the user's predicates *)
Fixpoint cstrlen (l : list val) : res Z :=
  match l with
  | VI 0 :: _ => Ok 0
  | VI _ :: l => let* n := cstrlen l in Ok (n + 1)
  | _ => UB
  end.
(** strlen, memset; the cells of a byte object hold the bytes as numbers 0 to 255 *)
Definition libc (p : plat) (x : string) (vs : list val) (m : mem) : res (val * ty * mem) :=
  if String.eqb x "strlen" then
    match vs with
    | [VP b o] =>
      let* c := ofopt (heap m !! b) in
      if (0 <=? o) && (o <=? Z.of_nat (length c)) then let* n := cstrlen (drop (Z.to_nat o) c) in Ok (VI n, Tsize, m) else UB
    | _ => UB
    end
  else if String.eqb x "memset" then
    match vs with
    | [VP b o; VI v; VI n] =>
      let n := to_size p n in
      let* c := ofopt (heap m !! b) in
      if (0 <=? o) && (o + n <=? Z.of_nat (length c)) then
        Ok (VP b o, Tptr Tvoid,
          MkMem (<[b := (take (Z.to_nat o) c ++ replicate (Z.to_nat n) (VI (v mod 256)) ++ drop (Z.to_nat (o + n)) c)%list]> (heap m)) (next m))
      else UB
    | _ => UB
    end
  else UB.
(** the predicate [f] is called with a byte and the user's argument *)
Definition user_pred (pr : val -> val -> Z -> bool) (f : val) (vs : list val) (m : mem) : res (val * ty * mem) :=
  match vs with [VI c; a] => Ok (truth (pr f a c), Tbool, m) | _ => UB end.

(** ** How the data are laid out: block k of the model's byte memory is object base + k *)
Definition ptrval (base : nat) (q : ptr) : val := VP (base + blk q) (off q).
Definition mrep (base : nat) (M : mem) (m : memory) : Prop :=
  forall k d, m !! k = Some d -> heap M !! (base + k)%nat = Some (VI <$> d) /\ Forall (fun x => 0 <= x < 256) d.
(** a mu_bbuf_t at object s, possibly followed by other members of an enclosing struct *)
Definition isb (base : nat) (M : mem) (s : nat) (b : bbuf) : Prop :=
  exists rest, heap M !! s = Some (ptrval base (bytes b) :: VI (capacity b) :: rest).
(** a place for one *)
Definition slot (M : mem) (s : nat) : Prop := exists x y rest, heap M !! s = Some (x :: y :: rest).

Section bbuf.
Context (p : plat) (fuel : nat) (base : nat) (pr : val -> val -> Z -> bool).
Notation call d := (CLang.call p bvec_prog fuel (libc p) (user_pred pr) d).
Notation pv := (ptrval base).
Notation mrep := (mrep base).
Notation isb := (isb base).
Notation T := (Tptr (Tstruct "mu_bbuf_t")).
Notation U8 := (Tint false W8).
(** capacities are size_t, and the loops have steps enough *)
Definition fits (b : bbuf) : Prop := 0 <= capacity b < size_mod p /\ (Z.to_nat (capacity b) + 2 < fuel)%nat.
Implicit Types (M : mem) (m : memory).

Lemma rd_inv M m q i x : mrep M m -> rd m q i = Ok x -> exists d, heap M !! (base + blk q)%nat = Some (VI <$> d) /\ ld d (off q + i) = Ok x /\
  0 <= off q + i < Z.of_nat (length d) /\ 0 <= x < 256.
Proof.
  intros H. unfold rd. destruct (m !! blk q) as [d|] eqn:E; [|done]. intros Hl. destruct (H _ _ E) as [H1 H2]. exists d.
  pose proof (ld_bounds _ _ _ Hl) as Hb. repeat (split; [done|]). unfold ld in Hl. destruct (_ <? _); [done|]. destruct (d !! _) eqn:El; [|done]. injection Hl as ->.
  rewrite Forall_lookup in H2. exact (H2 _ _ El).
Qed.
Lemma rd0_inv M m q x : mrep M m -> rd m q 0 = Ok x -> exists d, heap M !! (base + blk q)%nat = Some (VI <$> d) /\ ld d (off q) = Ok x /\
  0 <= off q < Z.of_nat (length d) /\ 0 <= x < 256.
Proof. intros H E. pose proof (rd_inv M m q 0 x H E) as Hx. rewrite Z.add_0_r in Hx. done. Qed.
Lemma padd_inv M m q i q' : mrep M m -> padd m q i = Ok q' -> exists d, heap M !! (base + blk q)%nat = Some (VI <$> d) /\ q' = Ptr (blk q) (off q + i) /\
  0 <= off q + i <= Z.of_nat (length d).
Proof.
  intros H. unfold padd. destruct (m !! blk q) as [d|] eqn:E; [|done]. destruct (Z.leb_spec 0 (off q + i)), (Z.leb_spec (off q + i) (Z.of_nat (length d))); cbn [andb]; try done.
  intros [= <-]. exists d. split; [exact (proj1 (H _ _ E))|]. split; [done|lia].
Qed.
Lemma iadd_inv x y z : iadd x y = Ok z -> z = x + y /\ int_min <= x + y <= int_max.
Proof. unfold iadd, ichk, chk, in_range. destruct (Z.leb_spec int_min (x + y)), (Z.leb_spec (x + y) int_max); cbn [andb]; try done. intros [= <-]. done. Qed.
Lemma isub_inv x y z : isub x y = Ok z -> z = x - y /\ int_min <= x - y <= int_max.
Proof. unfold isub, ichk, chk, in_range. destruct (Z.leb_spec int_min (x - y)), (Z.leb_spec (x - y) int_max); cbn [andb]; try done. intros [= <-]. done. Qed.
Lemma ichk_inv x z : ichk x = Ok z -> z = x /\ int_min <= x <= int_max.
Proof. unfold ichk, chk, in_range. destruct (Z.leb_spec int_min x), (Z.leb_spec x int_max); cbn [andb]; try done. intros [= <-]. done. Qed.
Lemma to_int_r x : int_min <= to_int x <= int_max.
Proof. unfold to_int. pose proof (wrap_signed_range 4294967296 x ltac:(lia) ltac:(reflexivity)) as H. change (4294967296 / 2) with 2147483648 in H. unfold int_min, int_max. lia. Qed.
Lemma to_int_le x : 0 <= x -> to_int x <= x.
Proof.
  intros H. unfold to_int, wrap_signed. pose proof (Z.mod_le x 4294967296 ltac:(lia) ltac:(lia)). pose proof (Z.mod_pos_bound x 4294967296 ltac:(lia)). cbn zeta. destruct (_ <? _); lia.
Qed.
Lemma conv_to_int z : conv p int (VI z) = Ok (VI (to_int z)). Proof. done. Qed.
Ltac cti := lazymatch goal with |- ?l = _ => let h := hd l in lazymatch h with conv _ int (VI ?x) => first [rewrite (conv_int_id p x) by range | rewrite (conv_to_int x)] end end.
Ltac cs := repeat first [hstep | cti | cstep].

(** *** accessors *)
Lemma src_capacity d M s b : isb M s b -> 0 <= capacity b < size_mod p -> call (S d) "mu_bbuf_capacity" [VP s 0] M = Ok (VI (capacity b), Tsize, M).
Proof. intros [rest H] Hc. unfold ptrval in H. erewrite call_S by reflexivity. cs. done. Qed.
Lemma src_bytes_ro d M s b : isb M s b -> call (S d) "mu_bbuf_bytes_ro" [VP s 0] M = Ok (VP (base + blk (bytes b)) (off (bytes b)), Tptr U8, M).
Proof. intros [rest H]. unfold ptrval in *. erewrite call_S by reflexivity. cs. done. Qed.
Lemma src_bytes_rw d M s b : isb M s b -> call (S d) "mu_bbuf_bytes_rw" [VP s 0] M = Ok (VP (base + blk (bytes b)) (off (bytes b)), Tptr U8, M).
Proof. intros [rest H]. unfold ptrval in *. erewrite call_S by reflexivity. cs. done. Qed.
Lemma src_is_decimal d M x : 0 <= x < 256 -> call (S d) "is_decimal" [VI x] M = Ok (truth (is_decimal x), Tbool, M).
Proof.
  intros H. unfold is_decimal. erewrite call_S by reflexivity. destruct (48 <=? x) eqn:E1; [destruct (x <=? 57) eqn:E2|]; cs; done.
Qed.
End bbuf.
Ltac cti := lazymatch goal with |- ?l = _ => let h := hd l in lazymatch h with conv _ int (VI ?x) => first [rewrite (conv_int_id _ x) by range | rewrite (conv_to_int _ x)] end end.
Ltac cs := repeat first [hstep | cti | cstep | progress change (Z.opp 1) with (-1)].

Ltac call_hook ::= first [erewrite src_capacity by eassumption | erewrite src_bytes_ro by eassumption | erewrite src_bytes_rw by eassumption | erewrite src_is_decimal by eassumption].
Ltac at_loop C B ST := rewrite exec_SLoop; lazymatch goal with |- context [loop _ ?c ?b ?st _] => set (C := c); set (B := b); set (ST := st) end.
Lemma cells_same (M : mem) k (d1 d2 : list Z) : heap M !! k = Some (VI <$> d1) -> heap M !! k = Some (VI <$> d2) -> d1 = d2.
Proof. intros -> [= H]. revert d2 H. induction d1 as [|x d1 IH]; intros [|y d2]; try done. cbn. intros [= -> H]. f_equal. apply IH. exact H. Qed.
Ltac uniq := cbn [blk off] in *; repeat match goal with H1 : heap ?M !! ?k = Some (VI <$> ?a), H2 : heap ?M !! ?k = Some (VI <$> ?b) |- _ =>
  tryif constr_eq a b then clear H2 else (pose proof (cells_same _ _ _ _ H1 H2); subst b; clear H2) end.
Ltac inv1 H Hm :=
  lazymatch type of H with
  | rd _ _ 0 = Ok _ => apply (rd0_inv _ _ _ _ _ Hm) in H as (? & ? & ? & ? & ?)
  | rd _ _ _ = Ok _ => apply (rd_inv _ _ _ _ _ _ Hm) in H as (? & ? & ? & ? & ?)
  | padd _ _ _ = Ok _ => apply (padd_inv _ _ _ _ _ _ Hm) in H as (? & ? & -> & ?)
  | iadd _ _ = Ok _ => apply iadd_inv in H as [-> ?]
  | isub _ _ = Ok _ => apply isub_inv in H as [-> ?]
  | ichk _ = Ok _ => apply ichk_inv in H as [-> ?]
  end.
(** the next step of the model, which is defined *)
Ltac mstep Hm H :=
  lazymatch type of H with
  | bind ?x _ = Ok _ => let E := fresh "E" in destruct x eqn:E; cbn [bind] in H; [|discriminate H..]; try (inv1 E Hm; uniq)
  end.

Ltac ints := pose proof (eq_refl : int_min = -2147483648) as Himin; pose proof (eq_refl : int_max = 2147483647) as Himax.

Ltac mstepn Hm H n :=
  lazymatch type of H with
  | bind ?x _ = Ok _ => let E := fresh "E" in destruct x as [n| |] eqn:E; cbn [bind] in H; [|discriminate H..]; try (inv1 E Hm; uniq)
  end.

