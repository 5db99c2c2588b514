(** * mu_bbuf, continued: searches with a predicate, and the functions which write a mu_bbuf_t *)
From Verif Require Import BbufModel.
From Verif Require Import CSym SrcBvec BbufSrc BbufSrc2 BbufSrc3.
Open Scope string_scope. Open Scope Z_scope.
Notation length := List.length.
Section bbuf.
Context (p : plat) (fuel : nat) (base : nat) (pr : val -> val -> Z -> bool).
Notation call d := (CLang.call p bvec_prog fuel (libc p) (user_pred pr) d).
Notation pv := (ptrval base).
Notation mrep := (mrep base).
Notation isb := (isb base).
Notation fits := (fits p fuel).
Notation T := (Tptr (Tstruct "mu_bbuf_t")).
Notation U8 := (Tint false W8).
Implicit Types (M : mem) (m : memory).
Notation lp d n c st bd := (loop n (CLang.test p bvec_prog (call d) (user_pred pr) c) (CLang.exec p bvec_prog (call d) (user_pred pr) fuel bd) (CLang.exec p bvec_prog (call d) (user_pred pr) fuel st)).
Ltac call_hook ::= first [erewrite src_capacity by eassumption | erewrite src_bytes_ro by eassumption | erewrite src_bytes_rw by eassumption | erewrite src_is_decimal by eassumption
  | erewrite src_strlen by eassumption | erewrite src_find_aux by eassumption | erewrite src_rfind_aux by eassumption].
Lemma cap_fuel b : fits b -> (Z.to_nat (to_int (capacity b)) < fuel)%nat.
Proof. intros [H1 H2]. pose proof (to_int_le (capacity b)). lia. Qed.
Lemma nf_range : int_min <= MU_BBUF_NOT_FOUND <= int_max. Proof. unfold MU_BBUF_NOT_FOUND, int_min, int_max. lia. Qed.
Lemma find_loop_range m hay q hl l skip r : forall k i, int_min <= i <= int_max -> find_loop k m hay q hl l i skip = Ok r -> int_min <= r <= int_max.
Proof.
  induction k as [|k IH]; intros i Hi; cbn [find_loop]; (destruct (isub hl l); [|done..]); cbn [bind]; (destruct (i <=? _); [|intros [= <-]; apply nf_range]); [done|].
  destruct (match_at _ _ _ _ _) as [ [] | |]; [| |done..]; cbn [bind].
  - destruct skip; [intros H; apply iadd_inv in H as [-> ?]; done|intros [= <-]; done].
  - destruct (iadd i 1) eqn:E; [|done..]. apply iadd_inv in E as [-> ?]. by apply IH.
Qed.
Lemma rfind_loop_range m hay q l skip r : forall k i, int_min <= i <= int_max -> rfind_loop k m hay q l i skip = Ok r -> int_min <= r <= int_max.
Proof.
  induction k as [|k IH]; intros i Hi; cbn [rfind_loop]; (destruct (0 <=? i); [|intros [= <-]; apply nf_range]); [done|].
  destruct (match_at _ _ _ _ _) as [ [] | |]; [| |done..]; cbn [bind].
  - destruct skip; [intros H; apply iadd_inv in H as [-> ?]; done|intros [= <-]; done].
  - destruct (isub i 1) eqn:E; [|done..]. apply isub_inv in E as [-> ?]. by apply IH.
Qed.
Lemma find_aux_range m b q l skip r : mu_bbuf_find_aux m b q l skip = Ok r -> int_min <= r <= int_max.
Proof. unfold mu_bbuf_find_aux. destruct (l =? 0); [intros [= <-]; unfold int_min, int_max; lia|]. apply find_loop_range. unfold int_min, int_max; lia. Qed.
Lemma rfind_aux_range m b q l skip r : mu_bbuf_rfind_aux m b q l skip = Ok r -> int_min <= r <= int_max.
Proof. unfold mu_bbuf_rfind_aux. destruct (l =? 0); [intros [= <-]; apply to_int_r|]. destruct (isub _ _) eqn:E; [|done..]. apply isub_inv in E as [-> ?]. by apply rfind_loop_range. Qed.
Lemma src_find_substr d M m s1 s2 b1 b2 skip r : mrep M m -> isb M s1 b1 -> isb M s2 b2 -> fits b1 -> fits b2 -> mu_bbuf_find_substr m b1 b2 skip = Ok r ->
  call (S (S (S d))) "mu_bbuf_find_substr" [VP s1 0; VP s2 0; truth skip] M = Ok (VI r, int, M).
Proof. intros Hm H1 H2 F1 F2 H. pose proof (cap_fuel _ F2). pose proof (find_aux_range _ _ _ _ _ _ H). destruct F2 as [Hc2 Hf2]. unfold mu_bbuf_find_substr, mu_bbuf_bytes_ro, mu_bbuf_capacity in H. erewrite call_S by reflexivity. cs. reflexivity. Qed.
Lemma src_rfind_substr d M m s1 s2 b1 b2 skip r : mrep M m -> isb M s1 b1 -> isb M s2 b2 -> fits b1 -> fits b2 -> mu_bbuf_rfind_substr m b1 b2 skip = Ok r ->
  call (S (S (S d))) "mu_bbuf_rfind_substr" [VP s1 0; VP s2 0; truth skip] M = Ok (VI r, int, M).
Proof. intros Hm H1 H2 F1 F2 H. pose proof (cap_fuel _ F2). pose proof (rfind_aux_range _ _ _ _ _ _ H). destruct F2 as [Hc2 Hf2]. unfold mu_bbuf_rfind_substr, mu_bbuf_bytes_ro, mu_bbuf_capacity in H. erewrite call_S by reflexivity. cs. reflexivity. Qed.
Lemma src_find_subcstr d M m s1 b1 q n skip r : mrep M m -> isb M s1 b1 -> fits b1 -> strlen m q = Ok n -> (Z.to_nat (to_int n) < fuel)%nat -> mu_bbuf_find_subcstr m b1 q skip = Ok r ->
  call (S (S (S d))) "mu_bbuf_find_subcstr" [VP s1 0; VP (base + blk q) (off q); truth skip] M = Ok (VI r, int, M).
Proof. intros Hm H1 F1 Hn Hf H. unfold mu_bbuf_find_subcstr in H. rewrite Hn in H. cbn [bind] in H. pose proof (find_aux_range _ _ _ _ _ _ H). erewrite call_S by reflexivity. cs. reflexivity. Qed.
Lemma src_rfind_subcstr d M m s1 b1 q n skip r : mrep M m -> isb M s1 b1 -> fits b1 -> strlen m q = Ok n -> (Z.to_nat (to_int n) < fuel)%nat -> mu_bbuf_rfind_subcstr m b1 q skip = Ok r ->
  call (S (S (S d))) "mu_bbuf_rfind_subcstr" [VP s1 0; VP (base + blk q) (off q); truth skip] M = Ok (VI r, int, M).
Proof. intros Hm H1 F1 Hn Hf H. unfold mu_bbuf_rfind_subcstr in H. rewrite Hn in H. cbn [bind] in H. pose proof (rfind_aux_range _ _ _ _ _ _ H). erewrite call_S by reflexivity. cs. reflexivity. Qed.

(** *** predicates *)
Lemma user_pred_eq f a c M : user_pred pr f [VI c; a] M = Ok (truth (pr f a c), Tbool, M). Proof. reflexivity. Qed.
Ltac csu := repeat first [rewrite user_pred_eq | hstep | cti | cstep | progress change (Z.opp 1) with (-1)].
Definition env_pred (s fb : nat) (a : val) (cap : Z) (q : ptr) (idx : val) : env :=
  [("bbuf", BReg T (VP s 0)); ("predicate", BReg (Tptr Tfn) (VP fb 0)); ("arg", BReg (Tptr Tvoid) a); ("bbuf_capacity", BReg int (VI cap)); ("bytes", BReg (Tptr U8) (VP (base + blk q) (off q))); ("idx", BReg int idx)].
Lemma find_pred_loop_src d M m s fb a cap : mrep M m -> defined a = Ok a -> int_min <= cap <= int_max -> forall k n q i r, (k < n)%nat -> int_min <= i <= int_max ->
  find_predicate_loop k m q (pr (VP fb 0) a) i cap = Ok r ->
  exists o q' i', lp d n (EBin Lt (EVar "idx") (EVar "bbuf_capacity")) (SExpr (EPost Add (EVar "idx")))
            (SIf (ENot (CLang.ECall "predicate" [EDeref (EPost Add (EVar "bytes")); EVar "arg"])) (SReturn (Some (EVar "idx"))) SSkip)
      (env_pred s fb a cap q (VI i), M) = Ok (o, (env_pred s fb a cap q' i', M)) /\ found o r /\ int_min <= r <= int_max.
Proof.
  intros Hm Ha Hc. ints. induction k as [|k IH]; intros n q i r Hn Hi Hr; (destruct n as [|n]; [lia|]); cbn [find_predicate_loop] in Hr;
    destruct (i <? cap) eqn:Ei; try discriminate Hr.
  1, 3: injection Hr as <-; exists Next, q, (VI i); split; [|split; [by left|unfold MU_BBUF_NOT_FOUND; lia]]; rewrite loop_S; unfold env_pred; csu; reflexivity.
  mstepn Hm Hr xa. mstep Hm Hr. destruct (pr (VP fb 0) a xa) eqn:Ed; cbn [negb] in Hr.
  2: { injection Hr as <-. exists (Returned (VI i) int), (Ptr (blk q) (off q + 1)), (VI i). split; [|split; [by right|lia]]. rewrite loop_S. unfold env_pred. csu. rewrite ?Ed. csu. reflexivity. }
  mstep Hm Hr. edestruct (IH n) as (o & q' & i' & Ho & Hx); [| |exact Hr|]; [lia..|]. exists o, q', i'. split; [|exact Hx]. rewrite <- Ho.
  remember (loop n) as L. rewrite loop_S. subst L. unfold env_pred. csu. rewrite ?Ed. csu. reflexivity.
Qed.
Lemma rfind_pred_loop_src d M m s fb a cap : mrep M m -> defined a = Ok a -> int_min <= cap <= int_max -> forall k n q i r, (k < n)%nat -> int_min <= i <= int_max ->
  rfind_predicate_loop k m q (pr (VP fb 0) a) i = Ok r ->
  exists o q' i', lp d n (EBin Gt (EVar "idx") (EInt 0)) (SExpr (EPost Sub (EVar "idx")))
            (SIf (ENot (CLang.ECall "predicate" [EDeref (EPre Sub (EVar "bytes")); EVar "arg"])) (SReturn (Some (EBin Sub (EVar "idx") (EInt 1)))) SSkip)
      (env_pred s fb a cap q (VI i), M) = Ok (o, (env_pred s fb a cap q' i', M)) /\ found o r /\ int_min <= r <= int_max.
Proof.
  intros Hm Ha Hc. ints. induction k as [|k IH]; intros n q i r Hn Hi Hr; (destruct n as [|n]; [lia|]); cbn [rfind_predicate_loop] in Hr;
    destruct (0 <? i) eqn:Ei; try discriminate Hr.
  1, 3: injection Hr as <-; exists Next, q, (VI i); split; [|split; [by left|unfold MU_BBUF_NOT_FOUND; lia]]; rewrite loop_S; unfold env_pred; csu; reflexivity.
  mstep Hm Hr. mstepn Hm Hr xa. destruct (pr (VP fb 0) a xa) eqn:Ed; cbn [negb] in Hr.
  2: { apply isub_inv in Hr as [-> Hi1]. exists (Returned (VI (i - 1)) int), (Ptr (blk q) (off q + -1)), (VI i). split; [|split; [by right|lia]]. rewrite loop_S. unfold env_pred. csu. rewrite ?Ed. csu. reflexivity. }
  mstep Hm Hr. edestruct (IH n) as (o & q' & i' & Ho & Hx); [| |exact Hr|]; [lia..|]. exists o, q', i'. split; [|exact Hx]. rewrite <- Ho.
  remember (loop n) as L. rewrite loop_S. subst L. unfold env_pred. csu. rewrite ?Ed. csu. reflexivity.
Qed.
(** the user's argument: any pointer, or NULL *)
Definition anyptr (a : val) : Prop := a = VI 0 \/ exists b o, a = VP b o.
Lemma src_find_predicate d M m s b fb a r : mrep M m -> isb M s b -> fits b -> anyptr a -> mu_bbuf_find_predicate m b (pr (VP fb 0) a) = Ok r ->
  call (S (S d)) "mu_bbuf_find_predicate" [VP s 0; VP fb 0; a] M = Ok (VI r, int, M) /\ int_min <= r <= int_max.
Proof.
  intros Hm Hs [Hc Hf] Ha Hr. ints. unfold mu_bbuf_find_predicate, mu_bbuf_capacity, mu_bbuf_bytes_ro in Hr.
  pose proof (to_int_r (capacity b)) as Hl1. pose proof (to_int_le (capacity b) ltac:(lia)) as Hl1'.
  assert (Ha1 : defined a = Ok a /\ conv p (Tptr Tvoid) a = Ok a) by (destruct Ha as [-> |(?&?&->)]; done). destruct Ha1 as [Ha1 Ha2].
  destruct (find_pred_loop_src (S d) M m s fb a (to_int (capacity b)) Hm Ha1 Hl1 (Z.to_nat (to_int (capacity b))) fuel (bytes b) 0 r ltac:(lia) ltac:(lia) Hr) as (o & q' & i' & Ho & Hx & Hr').
  split; [|done]. erewrite call_S by reflexivity. csu. rewrite exec_SLoop. unfold env_pred in Ho. rewrite Ho. destruct Hx as [ [-> ->]| ->]; csu; reflexivity.
Qed.
Lemma src_rfind_predicate d M m s b fb a r : mrep M m -> isb M s b -> fits b -> anyptr a -> mu_bbuf_rfind_predicate m b (pr (VP fb 0) a) = Ok r ->
  call (S (S d)) "mu_bbuf_rfind_predicate" [VP s 0; VP fb 0; a] M = Ok (VI r, int, M) /\ int_min <= r <= int_max.
Proof.
  intros Hm Hs [Hc Hf] Ha Hr. ints. unfold mu_bbuf_rfind_predicate, mu_bbuf_capacity, mu_bbuf_bytes_ro in Hr.
  pose proof (to_int_r (capacity b)) as Hl1. pose proof (to_int_le (capacity b) ltac:(lia)) as Hl1'.
  assert (Ha1 : defined a = Ok a /\ conv p (Tptr Tvoid) a = Ok a) by (destruct Ha as [-> |(?&?&->)]; done). destruct Ha1 as [Ha1 Ha2]. mstep Hm Hr.
  destruct (rfind_pred_loop_src (S d) M m s fb a (to_int (capacity b)) Hm Ha1 Hl1 (Z.to_nat (to_int (capacity b))) fuel _ (to_int (capacity b)) r ltac:(lia) ltac:(lia) Hr) as (o & q' & i' & Ho & Hx & Hr').
  split; [|done]. erewrite call_S by reflexivity. csu. rewrite exec_SLoop. unfold env_pred in Ho. cbn [blk off] in Ho. rewrite Ho. destruct Hx as [ [-> ->]| ->]; csu; reflexivity.
Qed.

(** *** the functions which write a struct: the first two cells of the object become the new value *)
Definition sset M (a : nat) (b : bbuf) : mem :=
  MkMem (match heap M !! a with Some (_ :: _ :: rest) => <[a := pv (bytes b) :: VI (capacity b) :: rest]> (heap M) | _ => heap M end) (next M).
Lemma sset_isb M a b : slot M a -> isb (sset M a b) a b.
Proof. intros (x & y & rest & H). unfold sset. rewrite H. exists rest. cbn [heap]. by rewrite lookup_insert. Qed.
Lemma sset_ne M a b k : k <> a -> heap (sset M a b) !! k = heap M !! k.
Proof. intros Hk. unfold sset. destruct (heap M !! a) as [ [|x [|y rest] ]|]; try done. cbn [heap]. by rewrite lookup_insert_ne by congruence. Qed.
Lemma sset_slot M a b k : slot M k -> slot (sset M a b) k.
Proof. intros (x & y & rest & H). destruct (decide (k = a)) as [->|]; [|exists x, y, rest; by rewrite sset_ne by done]. unfold sset, slot. rewrite H. cbn [heap]. rewrite lookup_insert. eauto. Qed.
Lemma isb_slot M a b : isb M a b -> slot M a.
Proof. intros [rest H]. do 3 eexists. exact H. Qed.
Lemma sset_mrep M m a b : mrep M m -> (forall k, (k < length m)%nat -> a <> (base + k)%nat) -> mrep (sset M a b) m.
Proof. intros Hm Ha k dd Hk. rewrite sset_ne; [by apply Hm|]. intros E. eapply Ha; [exact (lookup_lt_Some _ _ _ Hk)|by rewrite E]. Qed.
Lemma st_1 (x y v : val) rest : st (x :: y :: rest) 1 v = Ok (x :: v :: rest).
Proof. rewrite st_ok; [done|]. cbn [length]. lia. Qed.
Lemma st_2 (x y z v : val) rest : st (x :: y :: z :: rest) 2 v = Ok (x :: y :: v :: rest).
Proof. rewrite st_ok; [done|]. cbn [length]. lia. Qed.
Ltac csw := repeat first [rewrite st_1 | rewrite st_2 | hstep | cti | cstep].
Lemma src_init_ro d M s q cap : slot M s -> 0 <= cap < size_mod p -> call (S d) "mu_bbuf_init_ro" [VP s 0; VP (base + blk q) (off q); VI cap] M = Ok (VP s 0, T, sset M s (MkBbuf q cap)).
Proof. intros (x & y & rest & H) Hc. unfold sset. rewrite H. erewrite call_S by reflexivity. csw. reflexivity. Qed.
Lemma src_init_rw d M s q cap : slot M s -> 0 <= cap < size_mod p -> call (S d) "mu_bbuf_init_rw" [VP s 0; VP (base + blk q) (off q); VI cap] M = Ok (VP s 0, T, sset M s (MkBbuf q cap)).
Proof. intros (x & y & rest & H) Hc. unfold sset. rewrite H. erewrite call_S by reflexivity. csw. reflexivity. Qed.
Lemma src_init_cstr d M m s q n : mrep M m -> slot M s -> (forall k, (k < length m)%nat -> s <> (base + k)%nat) -> strlen m q = Ok n -> 0 <= n < size_mod p ->
  call (S (S d)) "mu_bbuf_init_cstr" [VP s 0; VP (base + blk q) (off q)] M = Ok (VP s 0, T, sset M s (MkBbuf q n)).
Proof.
  intros Hm (x & y & rest & H) Hne Hn Hc. unfold sset. rewrite H. erewrite call_S by reflexivity. csw.
  match goal with |- context [CLang.call _ _ _ _ _ _ "strlen" _ ?MM] => assert (Hm' : mrep MM m) end.
  { intros k dd Hk. cbn [heap]. rewrite lookup_insert_ne; [by apply Hm|]. apply Hne. exact (lookup_lt_Some _ _ _ Hk). }
  erewrite src_strlen by eassumption. csw. reflexivity.
Qed.
Lemma src_copy d M s1 s2 b : slot M s1 -> isb M s2 b -> 0 <= capacity b < size_mod p -> call (S d) "mu_bbuf_copy" [VP s1 0; VP s2 0] M = Ok (VP s1 0, T, sset M s1 b).
Proof.
  intros (x & y & rest & H) [rest2 H2] Hc. unfold sset. rewrite H. unfold ptrval in H2. erewrite call_S by reflexivity. destruct (decide (s1 = s2)) as [->|Hne]; [|csw; reflexivity].
  assert (E : x :: y :: rest = ptrval base (bytes b) :: VI (capacity b) :: rest2) by (unfold ptrval; congruence). injection E as -> -> ->. clear H. unfold ptrval. csw. reflexivity.
Qed.
Ltac call_hook ::= first [erewrite src_capacity by eassumption | erewrite src_bytes_ro by eassumption | erewrite src_bytes_rw by eassumption | erewrite src_is_decimal by eassumption
  | erewrite src_strlen by eassumption].

(** slice *)
Definition slice_lo (cap start : Z) : Z :=
  if start <? 0 then to_int (to_size p (cap + to_size p start)) else if (cap <? to_size p start) || (start =? MU_BBUF_END) then to_int cap else start.
Definition slice_hi (cap end_ : Z) : Z :=
  if end_ <? 0 then to_int (to_size p (cap + to_size p end_)) else if (cap <=? to_size p end_) || (end_ =? MU_BBUF_END) then to_int cap else end_.
Lemma slice_lo_r cap start : int_min <= start <= int_max -> int_min <= slice_lo cap start <= int_max.
Proof. intros H. unfold slice_lo. destruct (start <? 0); [apply to_int_r|]. destruct (_ || _); [apply to_int_r|done]. Qed.
Lemma slice_hi_r cap start : int_min <= start <= int_max -> int_min <= slice_hi cap start <= int_max.
Proof. intros H. unfold slice_hi. destruct (start <? 0); [apply to_int_r|]. destruct (_ || _); [apply to_int_r|done]. Qed.
Definition env_sl (s1 s2 : nat) (a z : Z) : env := [("dst", BReg T (VP s1 0)); ("src", BReg T (VP s2 0)); ("start", BReg int (VI a)); ("end", BReg int (VI z))].
Lemma slice1_src d M s1 s2 b a z : isb M s2 b -> 0 <= capacity b < size_mod p -> int_min <= a <= int_max ->
  exec p bvec_prog (call d) (user_pred pr) fuel (SIf (EBin Lt (EVar "start") (EInt 0))
      (SExpr (EAssign (EVar "start") (EBin Add (EArrow (EVar "src") "capacity") (EVar "start"))))
      (SIf (EOr (EBin Gt (EVar "start") (EArrow (EVar "src") "capacity")) (EBin Eq (EVar "start") (EInt 2147483647)))
        (SExpr (EAssign (EVar "start") (EArrow (EVar "src") "capacity")))
        SSkip)) (env_sl s1 s2 a z, M) = Ok (Next, (env_sl s1 s2 (slice_lo (capacity b) a) z, M)).
Proof.
  intros [rest Hs] Hc Ha. ints. assert (Hci : conv p int (VI (capacity b)) = Ok (VI (to_int (capacity b)))) by done. pose proof (size_mod_big p). unfold ptrval in Hs. unfold slice_lo, env_sl, MU_BBUF_END. rewrite Himax. destruct (a <? 0) eqn:E.
  - apply Z.ltb_lt in E as E'. csw. reflexivity.
  - apply Z.ltb_ge in E as E'. rewrite (to_size_id p a) by lia. destruct (capacity b <? a) eqn:E1; cbn [orb]; [|destruct (a =? 2147483647) eqn:E2]; csw; reflexivity.
Qed.
Lemma slice2_src d M s1 s2 b a z : isb M s2 b -> 0 <= capacity b < size_mod p -> int_min <= z <= int_max ->
  exec p bvec_prog (call d) (user_pred pr) fuel (SIf (EBin Lt (EVar "end") (EInt 0))
        (SExpr (EAssign (EVar "end") (EBin Add (EArrow (EVar "src") "capacity") (EVar "end"))))
        (SIf (EOr (EBin Ge (EVar "end") (EArrow (EVar "src") "capacity")) (EBin Eq (EVar "end") (EInt 2147483647)))
          (SExpr (EAssign (EVar "end") (EArrow (EVar "src") "capacity")))
          SSkip)) (env_sl s1 s2 a z, M) = Ok (Next, (env_sl s1 s2 a (slice_hi (capacity b) z), M)).
Proof.
  intros [rest Hs] Hc Ha. ints. assert (Hci : conv p int (VI (capacity b)) = Ok (VI (to_int (capacity b)))) by done. pose proof (size_mod_big p). unfold ptrval in Hs. unfold slice_hi, env_sl, MU_BBUF_END. rewrite Himax. destruct (z <? 0) eqn:E.
  - apply Z.ltb_lt in E as E'. csw. reflexivity.
  - apply Z.ltb_ge in E as E'. rewrite (to_size_id p z) by lia. destruct (capacity b <=? z) eqn:E1; cbn [orb]; [|destruct (z =? 2147483647) eqn:E2]; csw; reflexivity.
Qed.
Lemma src_slice d M m e e' dst src s1 s2 b start end_ : mrep M m -> slot M s1 -> isb M s2 b -> 0 <= capacity b < size_mod p -> int_min <= start <= int_max -> int_min <= end_ <= int_max ->
  e !! src = Some b -> mu_bbuf_slice p m e dst src start end_ = Ok e' ->
  exists b', e' = <[dst := b']> e /\ call (S (S d)) "mu_bbuf_slice" [VP s1 0; VP s2 0; VI start; VI end_] M = Ok (VP s1 0, T, sset M s1 b') /\ 0 <= capacity b' < size_mod p.
Proof.
  intros Hm Hs1 Hs2 Hc Hst Hen He Hr. ints. unfold mu_bbuf_slice, sget, mu_bbuf_init_ro, sput in Hr. rewrite He in Hr. cbn [bind] in Hr.
  fold (slice_lo (capacity b) start) (slice_hi (capacity b) end_) in Hr. pose proof (slice_lo_r (capacity b) start Hst) as Hl. pose proof (slice_hi_r (capacity b) end_ Hen) as Hh.
  pose proof (slice1_src (S d) M s1 s2 b start end_ Hs2 Hc Hst) as P1. pose proof (slice2_src (S d) M s1 s2 b (slice_lo (capacity b) start) end_ Hs2 Hc Hen) as P2. unfold env_sl in P1, P2.
  set (lo := slice_lo (capacity b) start) in *. set (hi := slice_hi (capacity b) end_) in *. clearbody lo hi.
  destruct (padd m (bytes b) _) as [q| |] eqn:Eq; try discriminate Hr. cbn [bind] in Hr. inv1 Eq Hm. uniq. destruct (isub _ _) as [n| |] eqn:En; try discriminate Hr. cbn [bind] in Hr. apply isub_inv in En as [-> Hn].
  destruct (e !! dst); try discriminate Hr. injection Hr as <-. eexists. split; [reflexivity|]. split; [|cbn [capacity]; apply to_size_range].
  assert (Hin : forall z, call (S d) "mu_bbuf_init_ro" [VP s1 0; VP (base + blk (bytes b)) (off (bytes b) + lo); VI z] M = Ok (VP s1 0, T, sset M s1 (MkBbuf (Ptr (blk (bytes b)) (off (bytes b) + lo)) (to_size p z)))).
  { intros z. destruct Hs1 as (x1 & y & rest & H1). unfold sset. rewrite H1. assert (Hcz : conv p Tsize (VI z) = Ok (VI (to_size p z))) by done. erewrite call_S by reflexivity. csw. reflexivity. }
  destruct Hs2 as [rest2 Hs2]. unfold ptrval in Hs2. destruct (hi <? lo) eqn:Eh; erewrite call_S by reflexivity; csw; rewrite Hin; csw; reflexivity.
Qed.
(** ltrim, rtrim, trim *)
Lemma copy_env (e : senv) dst src (b : bbuf) e' : e !! src = Some b -> mu_bbuf_copy e dst src = Ok e' -> e' = <[dst := b]> e.
Proof.
  intros H. unfold mu_bbuf_copy, sget, sput. rewrite H. cbn [bind]. destruct (e !! dst) as [bd|] eqn:E; [|done]. cbn [bind]. destruct (decide (dst = src)) as [->|Hne].
  - rewrite list_lookup_insert by (eapply lookup_lt_Some; exact E). cbn [bind bytes capacity]. intros [= <-]. rewrite list_insert_insert. rewrite E in H. injection H as ->. by destruct b.
  - rewrite list_lookup_insert_ne by done. rewrite H, list_lookup_insert by (eapply lookup_lt_Some; exact E). cbn [bind bytes capacity]. intros [= <-]. rewrite list_insert_insert. by destruct b.
Qed.
Lemma src_ltrim d M m e e' dst src s1 s2 b fb a : mrep M m -> slot M s1 -> isb M s2 b -> fits b -> anyptr a -> e !! src = Some b -> mu_bbuf_ltrim p m e dst src (pr (VP fb 0) a) = Ok e' ->
  exists b', e' = <[dst := b']> e /\ call (S (S (S d))) "mu_bbuf_ltrim" [VP s1 0; VP s2 0; VP fb 0; a] M = Ok (VP s1 0, T, sset M s1 b') /\ 0 <= capacity b' < size_mod p.
Proof.
  intros Hm Hs1 Hs2 F Ha He Hr. ints. unfold mu_bbuf_ltrim, sget in Hr. rewrite He in Hr. cbn [bind] in Hr. destruct (mu_bbuf_find_predicate _ _ _) as [idx| |] eqn:Ei; try discriminate Hr. cbn [bind] in Hr.
  destruct (src_find_predicate d M m s2 b fb a idx Hm Hs2 F Ha Ei) as [Hcall Hidx].
  assert (Ha1 : defined a = Ok a /\ conv p (Tptr Tvoid) a = Ok a) by (destruct Ha as [-> |(?&?&->)]; done). destruct Ha1 as [Ha1 Ha2].
  destruct (idx =? MU_BBUF_NOT_FOUND) eqn:En; unfold MU_BBUF_NOT_FOUND in En; rewrite Himax in En.
  - exists b. split; [by eapply copy_env|]. split; [|exact (proj1 F)]. pose proof (src_copy (S d) M s1 s2 b Hs1 Hs2 (proj1 F)) as Hcp. erewrite call_S by reflexivity. csw. reflexivity.
  - destruct (src_slice d M m e e' dst src s1 s2 b idx MU_BBUF_END Hm Hs1 Hs2 (proj1 F) Hidx ltac:(unfold MU_BBUF_END; lia) He Hr) as (b' & -> & Hsl & Hb'). unfold MU_BBUF_END in Hsl. rewrite Himax in Hsl.
    exists b'. split; [done|]. split; [|done]. erewrite call_S by reflexivity. csw. reflexivity.
Qed.
Lemma src_rtrim d M m e e' dst src s1 s2 b fb a : mrep M m -> slot M s1 -> isb M s2 b -> fits b -> anyptr a -> e !! src = Some b -> mu_bbuf_rtrim p m e dst src (pr (VP fb 0) a) = Ok e' ->
  exists b', e' = <[dst := b']> e /\ call (S (S (S d))) "mu_bbuf_rtrim" [VP s1 0; VP s2 0; VP fb 0; a] M = Ok (VP s1 0, T, sset M s1 b') /\ 0 <= capacity b' < size_mod p.
Proof.
  intros Hm Hs1 Hs2 F Ha He Hr. ints. unfold mu_bbuf_rtrim, sget in Hr. rewrite He in Hr. cbn [bind] in Hr. destruct (mu_bbuf_rfind_predicate _ _ _) as [idx| |] eqn:Ei; try discriminate Hr. cbn [bind] in Hr.
  destruct (src_rfind_predicate d M m s2 b fb a idx Hm Hs2 F Ha Ei) as [Hcall Hidx].
  assert (Ha1 : defined a = Ok a /\ conv p (Tptr Tvoid) a = Ok a) by (destruct Ha as [-> |(?&?&->)]; done). destruct Ha1 as [Ha1 Ha2].
  destruct (idx =? MU_BBUF_NOT_FOUND) eqn:En; unfold MU_BBUF_NOT_FOUND in En; rewrite Himax in En.
  - exists b. split; [by eapply copy_env|]. split; [|exact (proj1 F)]. pose proof (src_copy (S d) M s1 s2 b Hs1 Hs2 (proj1 F)) as Hcp. erewrite call_S by reflexivity. csw. reflexivity.
  - destruct (src_slice d M m e e' dst src s1 s2 b 0 idx Hm Hs1 Hs2 (proj1 F) ltac:(lia) Hidx He Hr) as (b' & -> & Hsl & Hb').
    exists b'. split; [done|]. split; [|done]. erewrite call_S by reflexivity. csw. reflexivity.
Qed.
End bbuf.
