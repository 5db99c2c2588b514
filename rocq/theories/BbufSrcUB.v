(** * Property C118: where the text of mu_bbuf.c is undefined, or does not return *)
From Verif Require Import BbufModel BbufSpec.
From Verif Require Import CSym SrcBvec BbufSrc BbufSrc2 BbufSrc3 BbufSrc4 BbufSrc5 BbufSrc6.
Open Scope string_scope. Open Scope Z_scope.
Notation length := List.length.
Section ub.
Context (p : plat) (fuel : nat) (base : nat) (pr : val -> val -> Z -> bool).
Notation call d := (CLang.call p bvec_prog fuel (libc p) (user_pred pr) d).
Notation U8 := (Tint false W8).
Notation T := (Tptr (Tstruct "mu_bbuf_t")).
Implicit Types (M : mem).
Notation isb := (isb base).
Notation lp d n c st bd := (loop n (CLang.test p bvec_prog (call d) (user_pred pr) c) (CLang.exec p bvec_prog (call d) (user_pred pr) fuel bd) (CLang.exec p bvec_prog (call d) (user_pred pr) fuel st)).
Ltac csw := repeat first [rewrite st_1 | rewrite st_2 | hstep | cti | cstep | progress change (Z.opp 1) with (-1)].

Lemma rshift_min d M s b : isb M s b -> 0 <= capacity b < size_mod p -> call (S d) "mu_bbuf_rshift" [VP s 0; VI int_min] M = UB.
Proof.
  intros [rest Hs] Hc. unfold ptrval in Hs. ints. pose proof (size_mod_big p). assert (Hm : int_min <= int_min <= int_max) by lia.
  assert (E : (int_min <? 0) = true) by reflexivity. assert (E2 : ichk (- int_min) = UB) by reflexivity.
  erewrite call_S by reflexivity. csw. reflexivity.
Qed.
Lemma reverse_empty d M s b c : isb M s b -> capacity b = 0 -> heap M !! (base + blk (bytes b))%nat = Some (VI <$> c) ->
  0 <= off (bytes b) <= Z.of_nat (length c) -> Z.of_nat (length c) < size_max p -> call (S d) "mu_bbuf_reverse" [VP s 0] M = UB.
Proof.
  intros [rest Hs] Hc Hh Ho Hl. unfold ptrval in Hs. rewrite Hc in Hs. pose proof (size_mod_big p). unfold size_max in Hl.
  assert (Hz : to_size p (0 - 1) = size_mod p - 1) by (unfold to_size; rewrite <- (Z_mod_plus_full (0 - 1) 1), Z.mod_small; lia).
  assert (Hi : off (bytes b) + 0 = off (bytes b)) by lia.
  assert (H1 : ptr_in (base + blk (bytes b)) (Z.of_nat (length (VI <$> c : list val))) (off (bytes b) + 0) = Ok (VP (base + blk (bytes b)) (off (bytes b) + 0))).
  { unfold ptr_in. rewrite fmap_length. destruct (Z.leb_spec 0 (off (bytes b) + 0)); [|lia]. destruct (Z.leb_spec (off (bytes b) + 0) (Z.of_nat (length c))); [|lia]. done. }
  assert (H2 : ptr_in (base + blk (bytes b)) (Z.of_nat (length (VI <$> c : list val))) (off (bytes b) + (size_mod p - 1)) = UB).
  { unfold ptr_in. rewrite fmap_length. destruct (Z.leb_spec (off (bytes b) + (size_mod p - 1)) (Z.of_nat (length c))); [lia|]. by rewrite andb_false_r. }
  erewrite call_S by reflexivity. csw. rewrite ?Hz. csw. reflexivity.
Qed.
Lemma dec_forever d s l r M : forall n shift, 0 <= shift <= int_max ->
  lp d n (EBin Ge (EVar "shift") (EVar "capacity")) SSkip (SExpr (EAssignOp Sub (EVar "shift") (EVar "capacity"))) (env_rot s shift 0 l r, M) = NoFuel.
Proof.
  induction n as [|n IH]; intros shift Hs; [done|]. ints. assert (E : (0 <=? shift) = true) by (apply Z.leb_le; lia). assert (Hi : int_min <= shift <= int_max) by lia.
  assert (E1 : ichk (shift - 0) = Ok shift) by (rewrite Z.sub_0_r; by apply ichk_ok).
  rewrite <- (IH shift Hs). remember (loop n) as L. rewrite loop_S. subst L. unfold env_rot. csw. rewrite ?E1. csw. reflexivity.
Qed.
Lemma inc_forever d s l r M : forall n shift, int_min <= shift < 0 ->
  lp d n (EBin Lt (EVar "shift") (EInt 0)) SSkip (SExpr (EAssignOp Add (EVar "shift") (EVar "capacity"))) (env_rot s shift 0 l r, M) = NoFuel.
Proof.
  induction n as [|n IH]; intros shift Hs; [done|]. ints. assert (E : (shift <? 0) = true) by (apply Z.ltb_lt; lia). assert (Hi : int_min <= shift <= int_max) by lia.
  assert (E1 : ichk (shift + 0) = Ok shift) by (rewrite Z.add_0_r; by apply ichk_ok).
  rewrite <- (IH shift Hs). remember (loop n) as L. rewrite loop_S. subst L. unfold env_rot. csw. rewrite ?E1. csw. reflexivity.
Qed.
Lemma rrotate_empty d M s b shift : isb M s b -> (s < next M)%nat -> capacity b = 0 -> int_min <= shift <= int_max ->
  call (S (S (S d))) "mu_bbuf_rrotate" [VP s 0; VI shift] M = NoFuel.
Proof.
  intros [rest Hs] Hsn Hc Hsh. unfold ptrval in Hs. rewrite Hc in Hs. ints.
  set (l := next M). set (r := S (next M)). set (M0 := MkMem (<[r := [VU; VU]]> (<[l := [VU; VU]]> (heap M))) (S r)).
  assert (Hs0 : heap M0 !! s = Some (VP (base + blk (bytes b)) (off (bytes b)) :: VI 0 :: rest)) by (unfold M0; cbn [heap]; rewrite !lookup_insert_ne by (unfold l, r; lia); done).
  destruct (shift <? 0) eqn:E.
  - apply Z.ltb_lt in E. pose proof (inc_forever (S (S d)) s l r M0 fuel shift ltac:(lia)) as L2.
    assert (Eg : (0 <=? shift) = false) by (apply Z.leb_gt; lia).
    destruct fuel as [|n] eqn:Ef.
    + subst l r. erewrite call_S by reflexivity. cstep. change (replicate (Z.to_nat (cells bvec_prog (Tstruct "mu_bbuf_t"))) VU) with [VU; VU]. cbn [next heap]. fold M0. clearbody M0. csw. rewrite exec_SLoop. reflexivity.
    + assert (L1 : lp (S (S d)) (S n) (EBin Ge (EVar "shift") (EVar "capacity")) SSkip (SExpr (EAssignOp Sub (EVar "shift") (EVar "capacity"))) (env_rot s shift 0 l r, M0) = Ok (Next, (env_rot s shift 0 l r, M0))).
      { remember (loop n) as L. rewrite loop_S. subst L. unfold env_rot. csw. reflexivity. }
      rewrite <- Ef in *. unfold env_rot in L1, L2. subst l r. erewrite call_S by reflexivity. cstep. change (replicate (Z.to_nat (cells bvec_prog (Tstruct "mu_bbuf_t"))) VU) with [VU; VU]. cbn [next heap]. fold M0. clearbody M0. csw. rewrite exec_SLoop. rewrite L1. csw. rewrite exec_SLoop. rewrite L2. reflexivity.
  - apply Z.ltb_ge in E. pose proof (dec_forever (S (S d)) s l r M0 fuel shift ltac:(lia)) as L1. unfold env_rot in L1.
    subst l r. erewrite call_S by reflexivity. cstep. change (replicate (Z.to_nat (cells bvec_prog (Tstruct "mu_bbuf_t"))) VU) with [VU; VU]. cbn [next heap]. fold M0. clearbody M0. csw. rewrite exec_SLoop. rewrite L1. reflexivity.
Qed.
(** *** slice *)
Notation mrep := (mrep base).
Lemma padd_ub M m q i c : mrep M m -> m !! blk q = Some c -> padd m q i = UB ->
  heap M !! (base + blk q)%nat = Some (VI <$> c) /\ ptr_in (base + blk q) (Z.of_nat (length (VI <$> c : list val))) (off q + i) = UB.
Proof.
  intros Hm Hc Hp. split; [by apply Hm|]. unfold padd in Hp. rewrite Hc in Hp. unfold ptr_in. rewrite fmap_length. destruct (_ && _); done.
Qed.
Lemma slice_ub d M m s1 s2 b c start end_ : mrep M m -> slot M s1 -> isb M s2 b -> 0 <= capacity b < size_mod p -> m !! blk (bytes b) = Some c ->
  int_min <= start <= int_max -> int_min <= end_ <= int_max -> mu_bbuf_slice p m [b] 0 0 start end_ = UB ->
  call (S (S d)) "mu_bbuf_slice" [VP s1 0; VP s2 0; VI start; VI end_] M = UB.
Proof.
  intros Hm Hs1 Hs2 Hc Hcc Hst Hen Hr. ints. unfold mu_bbuf_slice, sget, mu_bbuf_init_ro, sput in Hr. cbn [lookup list_lookup bind] in Hr.
  fold (slice_lo p (capacity b) start) (slice_hi p (capacity b) end_) in Hr. pose proof (slice_lo_r p (capacity b) start Hst) as Hl. pose proof (slice_hi_r p (capacity b) end_ Hen) as Hh.
  pose proof (slice1_src p fuel base pr (S d) M s1 s2 b start end_ Hs2 Hc Hst) as P1. pose proof (slice2_src p fuel base pr (S d) M s1 s2 b (slice_lo p (capacity b) start) end_ Hs2 Hc Hen) as P2. unfold env_sl in P1, P2.
  set (lo := slice_lo p (capacity b) start) in *. set (hi := slice_hi p (capacity b) end_) in *. clearbody lo hi.
  destruct Hs2 as [rest2 Hs2]. unfold ptrval in Hs2.
  destruct (padd m (bytes b) lo) as [q| |] eqn:Eq.
  3: { unfold padd in Eq. rewrite Hcc in Eq. by destruct (_ && _). }
  - cbn [bind] in Hr. apply (padd_inv _ _ _ _ _ _ Hm) in Eq as (c2 & Hh2 & -> & Hq1). destruct (isub _ _) as [n| |] eqn:En; try discriminate Hr; try (unfold isub, ichk, chk in En; by destruct (in_range _ _ _)). unfold isub in En.
    destruct (hi <? lo) eqn:Eh; erewrite call_S by reflexivity; csw; rewrite ?En; csw; reflexivity.
  - destruct (padd_ub M m _ _ c Hm Hcc Eq) as [Hh2 Hpi].
    destruct (hi <? lo) eqn:Eh; erewrite call_S by reflexivity; csw; rewrite ?Hpi; csw; reflexivity.
Qed.
End ub.
