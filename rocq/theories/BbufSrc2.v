(** * mu_bbuf, continued: comparison, prefixes and suffixes *)
From Verif Require Import BbufModel.
From Verif Require Import CSym SrcBvec BbufSrc.
Open Scope string_scope. Open Scope Z_scope.
Notation length := List.length.
Section bbuf.
Context (p : plat) (fuel : nat) (base : nat) (pr : val -> val -> Z -> bool).
Notation call d := (CLang.call p bvec_prog fuel (libc p) (user_pred pr) d).
Notation pv := (ptrval base).
Notation mrep := (mrep base).
Notation isb := (isb base).
Notation fits := (fits p fuel).
Notation T := (Tptr (Tstruct "mu_bbuf_t")).
Notation U8 := (Tint false W8).
Implicit Types (M : mem) (m : memory).
Notation lp d n c st bd := (loop n (CLang.test p bvec_prog (call d) (user_pred pr) c) (CLang.exec p bvec_prog (call d) (user_pred pr) fuel bd) (CLang.exec p bvec_prog (call d) (user_pred pr) fuel st)).
(** *** str_compare_aux *)
Definition env_cmp (s : nat) (b1 b2 : ptr) (len1 len2 len : Z) (i dv : val) : env :=
  [("bbuf", BReg T (VP s 0)); ("b2", BReg (Tptr U8) (VP (base + blk b2) (off b2))); ("len2", BReg int (VI len2)); ("b1", BReg (Tptr U8) (VP (base + blk b1) (off b1)));
    ("len1", BReg int (VI len1)); ("len", BReg int (VI len)); ("i", BReg int i); ("d", BReg int dv)].
Lemma compare_loop_src d M m s b1 b2 len1 len2 len : mrep M m -> int_min <= len <= int_max -> forall k n i dv r, (k < n)%nat -> int_min <= i <= int_max ->
  compare_loop k m b1 b2 i len = Ok r ->
  exists i' dv', lp d n (EBin Lt (EVar "i") (EVar "len")) (SExpr (EPost Add (EVar "i")))
      (SSeq (SDecl "d" (Some (EBin Sub (EIndex (EVar "b1") (EVar "i")) (EIndex (EVar "b2") (EVar "i")))))
        (SIf (EBin Ne (EVar "d") (EInt 0)) (SReturn (Some (EVar "d"))) SSkip)) (env_cmp s b1 b2 len1 len2 len (VI i) dv, M) =
    Ok (match r with Some x => Returned (VI x) int | None => Next end, (env_cmp s b1 b2 len1 len2 len i' dv', M)) /\ match r with Some x => int_min <= x <= int_max | None => True end.
Proof.
  intros Hm Hlen. ints. induction k as [|k IH]; intros n i dv r Hn Hi Hr; (destruct n as [|n]; [lia|]); cbn [compare_loop] in Hr; destruct (i <? len) eqn:Ei; try discriminate Hr.
  1, 3: injection Hr as <-; exists (VI i), dv; split; [|done]; rewrite loop_S; unfold env_cmp; cs; reflexivity.
  mstepn Hm Hr x. mstepn Hm Hr y. mstep Hm Hr. destruct (x - y =? 0) eqn:Ed; cbn [negb] in Hr.
  2: { injection Hr as <-. exists (VI i), (VI (x - y)). split; [|lia]. rewrite loop_S. unfold env_cmp. cs. reflexivity. }
  mstep Hm Hr. destruct (IH n (i + 1) (VI (x - y)) r ltac:(lia) ltac:(lia) Hr) as (i' & dv' & Ho & Hx). exists i', dv'. split; [|done]. rewrite <- Ho.
  remember (loop n) as L. rewrite loop_S. subst L. unfold env_cmp. cs. reflexivity.
Qed.
Lemma src_compare_aux d M m s b (b2 : ptr) z r : mrep M m -> isb M s b -> fits b ->
  str_compare_aux m b b2 (to_int z) = Ok r -> call (S (S d)) "str_compare_aux" [VP s 0; VP (base + blk b2) (off b2); VI z] M = Ok (VI r, int, M).
Proof.
  intros Hm Hs [Hc Hf] Hr. ints. unfold str_compare_aux, mu_bbuf_capacity, mu_bbuf_bytes_ro in Hr. pose proof (to_int_r z) as Hl2.
  pose proof (to_int_r (capacity b)) as Hl1. pose proof (to_int_le (capacity b) ltac:(lia)) as Hl1'.
  assert (Hz : conv p int (VI z) = Ok (VI (to_int z))) by done.
  erewrite call_S by reflexivity. destruct (to_int (capacity b) <? to_int z) eqn:El; cbn [bind] in Hr.
  - destruct (compare_loop _ _ _ _ _ _) as [o| |] eqn:Eo; cbn [bind] in Hr; try discriminate Hr.
    destruct (compare_loop_src (S d) M m s (bytes b) b2 (to_int (capacity b)) (to_int z) (to_int (capacity b)) Hm ltac:(lia) (Z.to_nat (to_int (capacity b))) fuel 0 VU o ltac:(lia) ltac:(lia) Eo) as (i' & dv' & Ho & Hx).
    cs. rewrite exec_SLoop. unfold env_cmp in Ho. rewrite Ho. destruct o as [x|]; [injection Hr as <-|apply isub_inv in Hr as [-> ?]]; cs; reflexivity.
  - apply Z.ltb_ge in El as El'. destruct (compare_loop _ _ _ _ _ _) as [o| |] eqn:Eo; cbn [bind] in Hr; try discriminate Hr.
    destruct (compare_loop_src (S d) M m s (bytes b) b2 (to_int (capacity b)) (to_int z) (to_int z) Hm ltac:(lia) (Z.to_nat (to_int z)) fuel 0 VU o ltac:(lia) ltac:(lia) Eo) as (i' & dv' & Ho & Hx).
    cs. rewrite exec_SLoop. unfold env_cmp in Ho. rewrite Ho. destruct o as [x|]; [injection Hr as <-|apply isub_inv in Hr as [-> ?]]; cs; reflexivity.
Qed.

(** *** has_prefix, has_suffix *)
Definition env_pre (s : nat) (b1 b2 : ptr) (len1 len2 : Z) (idx : val) : env :=
  [("bbuf", BReg T (VP s 0)); ("b2", BReg (Tptr U8) (VP (base + blk b2) (off b2))); ("len2", BReg int (VI len2)); ("b1", BReg (Tptr U8) (VP (base + blk b1) (off b1)));
    ("len1", BReg int (VI len1)); ("idx", BReg int idx)].
Lemma prefix_loop_src d M m s len1 len2 : mrep M m -> int_min <= len1 <= int_max -> int_min <= len2 <= int_max -> forall k n b1 b2 idx r, (k < n)%nat -> int_min <= idx <= int_max ->
  prefix_loop k m b1 b2 idx len1 len2 = Ok r -> exists b1' b2',
  lp d n (EAnd (EBin Lt (EVar "idx") (EVar "len1")) (EBin Lt (EVar "idx") (EVar "len2"))) (SExpr (EPost Add (EVar "idx")))
      (SIf (EBin Ne (EDeref (EPost Add (EVar "b1"))) (EDeref (EPost Add (EVar "b2")))) SBreak SSkip) (env_pre s b1 b2 len1 len2 (VI idx), M) =
    Ok (Next, (env_pre s b1' b2' len1 len2 (VI r), M)) /\ int_min <= r <= int_max.
Proof.
  intros Hm Hl1 Hl2. ints. induction k as [|k IH]; intros n b1 b2 idx r Hn Hi Hr; (destruct n as [|n]; [lia|]); cbn [prefix_loop] in Hr;
    (destruct (idx <? len1) eqn:E1; [destruct (idx <? len2) eqn:E2|]); cbn [andb] in Hr; try discriminate Hr;
    try (injection Hr as <-; exists b1, b2; split; [|done]; rewrite loop_S; unfold env_pre; cs; done).
  mstepn Hm Hr x. mstepn Hm Hr y. do 2 mstep Hm Hr. destruct (x =? y) eqn:Ed; cbn [negb] in Hr.
  2: { injection Hr as <-. exists (Ptr (blk b1) (off b1 + 1)), (Ptr (blk b2) (off b2 + 1)). split; [|lia]. rewrite loop_S. unfold env_pre. cs. reflexivity. }
  mstep Hm Hr. edestruct (IH n) as (b1' & b2' & Ho & Hx); [| |exact Hr|]; [lia..|]. exists b1', b2'. split; [|done]. rewrite <- Ho.
  remember (loop n) as L. rewrite loop_S. subst L. unfold env_pre. cs. reflexivity.
Qed.
Lemma src_prefix_aux d M m s b (b2 : ptr) z r : mrep M m -> isb M s b -> fits b ->
  has_prefix m b b2 (to_int z) = Ok r -> call (S (S d)) "has_prefix" [VP s 0; VP (base + blk b2) (off b2); VI z] M = Ok (truth r, Tbool, M).
Proof.
  intros Hm Hs [Hc Hf] Hr. ints. unfold has_prefix, mu_bbuf_capacity, mu_bbuf_bytes_ro in Hr. pose proof (to_int_r z) as Hl2.
  pose proof (to_int_r (capacity b)) as Hl1. pose proof (to_int_le (capacity b) ltac:(lia)) as Hl1'.
  assert (Hz : conv p int (VI z) = Ok (VI (to_int z))) by done.
  erewrite call_S by reflexivity. destruct (to_int z =? 0) eqn:E0. { injection Hr as <-. cs. reflexivity. }
  destruct (to_int (capacity b) <? to_int z) eqn:El. { injection Hr as <-. cs. reflexivity. }
  apply Z.ltb_ge in El as El'. destruct (prefix_loop _ _ _ _ _ _ _) as [o| |] eqn:Eo; cbn [bind] in Hr; try discriminate Hr. injection Hr as <-.
  destruct (prefix_loop_src (S d) M m s (to_int (capacity b)) (to_int z) Hm ltac:(lia) ltac:(lia) (Z.to_nat (to_int z)) fuel (bytes b) b2 0 o ltac:(lia) ltac:(lia) Eo) as (b1' & b2' & Ho & Hx).
  cs. rewrite exec_SLoop. unfold env_pre in Ho. rewrite Ho. cs. reflexivity.
Qed.
Lemma suffix_loop_src d M m s len1 len2 : mrep M m -> int_min <= len1 <= int_max -> int_min <= len2 <= int_max -> forall k n b1 b2 idx r, (k < n)%nat -> int_min <= idx <= int_max ->
  suffix_loop k m b1 b2 idx len1 len2 = Ok r -> exists b1' b2',
  lp d n (EAnd (EBin Lt (EVar "idx") (EVar "len1")) (EBin Lt (EVar "idx") (EVar "len2"))) (SExpr (EPost Add (EVar "idx")))
      (SIf (EBin Ne (EDeref (EPre Sub (EVar "b1"))) (EDeref (EPre Sub (EVar "b2")))) SBreak SSkip) (env_pre s b1 b2 len1 len2 (VI idx), M) =
    Ok (Next, (env_pre s b1' b2' len1 len2 (VI r), M)) /\ int_min <= r <= int_max.
Proof.
  intros Hm Hl1 Hl2. ints. induction k as [|k IH]; intros n b1 b2 idx r Hn Hi Hr; (destruct n as [|n]; [lia|]); cbn [suffix_loop] in Hr;
    (destruct (idx <? len1) eqn:E1; [destruct (idx <? len2) eqn:E2|]); cbn [andb] in Hr; try discriminate Hr;
    try (injection Hr as <-; exists b1, b2; split; [|done]; rewrite loop_S; unfold env_pre; cs; done).
  do 2 mstep Hm Hr. mstepn Hm Hr xa. mstepn Hm Hr ya. cbn [blk off] in *. destruct (xa =? ya) eqn:Ed; cbn [negb] in Hr.
  2: { injection Hr as <-. exists (Ptr (blk b1) (off b1 + -1)), (Ptr (blk b2) (off b2 + -1)). split; [|lia]. rewrite loop_S. unfold env_pre. cs. reflexivity. }
  mstep Hm Hr. edestruct (IH n) as (b1' & b2' & Ho & Hx); [| |exact Hr|]; [lia..|]. exists b1', b2'. split; [|done]. rewrite <- Ho.
  remember (loop n) as L. rewrite loop_S. subst L. unfold env_pre. cs. reflexivity.
Qed.
Lemma src_suffix_aux d M m s b (b2 : ptr) z r : mrep M m -> isb M s b -> fits b ->
  has_suffix m b b2 (to_int z) = Ok r -> call (S (S d)) "has_suffix" [VP s 0; VP (base + blk b2) (off b2); VI z] M = Ok (truth r, Tbool, M).
Proof.
  intros Hm Hs [Hc Hf] Hr. ints. unfold has_suffix, mu_bbuf_capacity, mu_bbuf_bytes_ro in Hr. pose proof (to_int_r z) as Hl2.
  pose proof (to_int_r (capacity b)) as Hl1. pose proof (to_int_le (capacity b) ltac:(lia)) as Hl1'.
  assert (Hz : conv p int (VI z) = Ok (VI (to_int z))) by done.
  erewrite call_S by reflexivity. destruct (to_int z =? 0) eqn:E0. { injection Hr as <-. cs. reflexivity. }
  destruct (to_int (capacity b) <? to_int z) eqn:El. { injection Hr as <-. cs. reflexivity. }
  apply Z.ltb_ge in El as El'. do 2 mstep Hm Hr. destruct (suffix_loop _ _ _ _ _ _ _) as [o| |] eqn:Eo; cbn [bind] in Hr; try discriminate Hr. injection Hr as <-.
  edestruct (suffix_loop_src (S d) M m s (to_int (capacity b)) (to_int z) Hm ltac:(lia) ltac:(lia) (Z.to_nat (to_int z)) fuel) as (b1' & b2' & Ho & Hx); [| |exact Eo|]; [lia..|].
  cs. rewrite exec_SLoop. unfold env_pre in Ho. cbn [blk off] in Ho. rewrite Ho. cs. reflexivity.
Qed.
End bbuf.
