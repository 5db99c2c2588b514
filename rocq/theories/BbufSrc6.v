(** * mu_bbuf, continued: reverse, rshift, rrotate, copy_into *)
From Verif Require Import BbufModel.
From Verif Require Import CSym SrcBvec BbufSrc BbufSrc2 BbufSrc3 BbufSrc4 BbufSrc5.
Open Scope string_scope. Open Scope Z_scope.
Notation length := List.length.
Section bbuf.
Context (p : plat) (fuel : nat) (base : nat) (pr : val -> val -> Z -> bool).
Notation call d := (CLang.call p bvec_prog fuel (libc p) (user_pred pr) d).
Notation pv := (ptrval base).
Notation mrep := (mrep base).
Notation isb := (isb base).
Notation fits := (fits p fuel).
Notation T := (Tptr (Tstruct "mu_bbuf_t")).
Notation U8 := (Tint false W8).
Implicit Types (M : mem) (m : memory).
Notation lp d n c st bd := (loop n (CLang.test p bvec_prog (call d) (user_pred pr) c) (CLang.exec p bvec_prog (call d) (user_pred pr) fuel bd) (CLang.exec p bvec_prog (call d) (user_pred pr) fuel st)).
Notation sset := (sset base).
Notation frame := (frame base).
Notation bput := (bput base).
Ltac csw := repeat first [rewrite st_1 | rewrite st_2 | hstep | cti | cstep | progress change (Z.opp 1) with (-1)].
Ltac call_hook ::= first [erewrite src_capacity by eassumption | erewrite src_bytes_ro by eassumption | erewrite src_bytes_rw by eassumption].

(** what a function which writes bytes may do *)
Definition bstep M M' m m' : Prop := mrep M' m' /\ frame M M' m /\ length m' = length m /\ next M' = next M /\ forall s b, isb M s b -> isb M' s b.
Lemma bstep_refl M m : mrep M m -> bstep M M m m.
Proof. intros H. split; [done|]. split; [apply frame_refl|]. done. Qed.
Lemma bstep_trans M1 M2 M3 m1 m2 m3 : bstep M1 M2 m1 m2 -> bstep M2 M3 m2 m3 -> bstep M1 M3 m1 m3.
Proof. intros (A1 & A2 & A3 & A4 & A5) (B1 & B2 & B3 & B4 & B5). split; [done|]. split; [by eapply frame_trans|]. split; [congruence|]. split; [congruence|]. eauto. Qed.
Lemma bstep_bput M m k d m' x : mrep (bput M k d) m' -> heap M !! (base + k)%nat = Some (VI <$> x) -> (k < length m)%nat -> length m' = length m -> bstep M (bput M k d) m m'.
Proof. intros H1 H2 H3 H4. split; [done|]. split; [by apply bput_frame|]. split; [done|]. split; [done|]. intros s b Hs. by eapply bput_isb. Qed.
Lemma bput_bput M k d1 d2 : bput (bput M k d1) k d2 = bput M k d2.
Proof. unfold BbufSrc5.bput. cbn [heap next]. by rewrite insert_insert. Qed.
Lemma wr_step M m q i v m' : mrep M m -> wr m q i v = Ok m' -> 0 <= v < 256 ->
  exists d d', heap M !! (base + blk q)%nat = Some (VI <$> d) /\ st d (off q + i) v = Ok d' /\ 0 <= off q + i < Z.of_nat (length d) /\ bstep M (bput M (blk q) d') m m'.
Proof.
  intros Hm Hw Hv. destruct (wr_inv base M m q i v m' Hm Hw Hv) as (d & d' & H1 & H2 & H3 & _ & H5). destruct (wr_len _ _ _ _ _ Hw) as [H6 H7]. exists d, d'.
  split; [done|]. split; [done|]. split; [done|]. by eapply bstep_bput.
Qed.
(** *** reverse *)
Definition env_rev (s : nat) (f b : ptr) (t : val) : env :=
  [("bbuf_rw", BReg T (VP s 0)); ("front", BReg (Tptr U8) (VP (base + blk f) (off f))); ("back", BReg (Tptr U8) (VP (base + blk b) (off b))); ("temp", BReg U8 t)].
Lemma reverse_loop_src d s : forall k n M m f b t m', (k < n)%nat -> mrep M m -> blk f = blk b -> reverse_loop k m f b = Ok m' ->
  exists f' b' t' M', lp d n (EBin Lt (EVar "front") (EVar "back")) SSkip
      (SSeq (SDecl "temp" (Some (EDeref (EVar "front"))))
            (SSeq (SExpr (EAssign (EDeref (EPost Add (EVar "front"))) (EDeref (EVar "back"))))
              (SExpr (EAssign (EDeref (EPost Sub (EVar "back"))) (EVar "temp"))))) (env_rev s f b t, M) =
    Ok (Next, (env_rev s f' b' t', M')) /\ bstep M M' m m'.
Proof.
  induction k as [|k IH]; intros n M m f b t m' Hn Hm Hfb Hr; (destruct n as [|n]; [lia|]); cbn [reverse_loop] in Hr;
    destruct (off f <? off b) eqn:E; try discriminate Hr.
  1, 3: injection Hr as <-; exists f, b, t, M; split; [|by apply bstep_refl]; rewrite loop_S; unfold env_rev; rewrite Hfb; csw; rewrite Nat.eqb_refl; csw; reflexivity.
  destruct f as [fk fo], b as [bk bo]. cbn [blk off] in *. subst bk.
  mstepn Hm Hr tv. mstepn Hm Hr xv. cbn [blk off] in *. destruct (wr m (Ptr fk fo) 0 xv) as [m1| |] eqn:Ew1; try discriminate Hr. cbn [bind] in Hr.
  destruct (wr_step M m _ _ _ m1 Hm Ew1 ltac:(assumption)) as (d0 & d1 & W1 & W2 & W3 & S1). cbn [blk off] in *. rewrite Z.add_0_r in *. uniq.
  destruct (padd m1 _ 1) as [f1| |] eqn:Ef; try discriminate Hr. cbn [bind] in Hr. apply (padd_inv _ _ _ _ _ _ (proj1 S1)) in Ef as (df & Hdf & -> & Hfo). cbn [blk off] in *.
  destruct (wr m1 _ 0 tv) as [m2| |] eqn:Ew2; try discriminate Hr. cbn [bind] in Hr.
  destruct (wr_step _ m1 _ _ _ m2 (proj1 S1) Ew2 ltac:(assumption)) as (d2 & d3 & V1 & V2 & V3 & S2). cbn [blk off] in *. rewrite Z.add_0_r in *. rewrite bput_bput in S2.
  destruct (padd m2 _ (-1)) as [b1| |] eqn:Eb; try discriminate Hr. cbn [bind] in Hr. apply (padd_inv _ _ _ _ _ _ (proj1 S2)) in Eb as (db & Hdb & -> & Hbo). cbn [blk off] in *.
  assert (d2 = d1) as ->. { unfold BbufSrc5.bput in V1. cbn [heap] in V1. rewrite lookup_insert in V1. injection V1 as V1. symmetry. eapply (cells_same (MkMem (<[0%nat := VI <$> d1]> ∅) 0) 0); cbn [heap]; rewrite lookup_insert; [done|by rewrite V1]. }
  pose proof (bstep_trans _ _ _ _ _ _ S1 S2) as S12.
  destruct (IH n _ m2 (Ptr fk (fo + 1)) (Ptr fk (bo + -1)) (VI tv) m' ltac:(lia) (proj1 S12) eq_refl Hr) as (f' & b' & t' & M' & Ho & S3).
  exists f', b', t', M'. split; [|by eapply bstep_trans]. rewrite <- Ho. unfold BbufSrc5.bput in *. unfold env_rev. cbn [blk off].
  remember (loop n) as L. rewrite loop_S. subst L. csw. rewrite Nat.eqb_refl. csw. reflexivity.
Qed.
Lemma src_reverse d M m s b m' : mrep M m -> isb M s b -> fits b -> mu_bbuf_reverse p m b = Ok m' ->
  exists M', call (S d) "mu_bbuf_reverse" [VP s 0] M = Ok (VP s 0, T, M') /\ bstep M M' m m'.
Proof.
  intros Hm [rest Hs] [Hc Hf] Hr. unfold ptrval in Hs. unfold mu_bbuf_reverse in Hr. mstep Hm Hr. mstep Hm Hr. 
  destruct (reverse_loop_src d s (Z.to_nat (capacity b)) fuel M m (Ptr (blk (bytes b)) (off (bytes b) + 0)) (Ptr (blk (bytes b)) (off (bytes b) + to_size p (capacity b - 1))) VU m' ltac:(lia) Hm eq_refl Hr) as (f' & b' & t' & M' & Ho & Hst).
  exists M'. split; [|exact Hst]. unfold env_rev in Ho. cbn [blk off] in Ho. erewrite call_S by reflexivity. csw. rewrite exec_SLoop. rewrite Ho. csw. reflexivity.
Qed.
(** *** rshift *)
Lemma move_bytes M m q1 q2 n m' : mrep M m -> mmove m q1 q2 n = Ok m' ->
  exists d', move_mem p bvec_prog M U8 (VP (base + blk q1) (off q1)) (VP (base + blk q2) (off q2)) n = Ok (bput M (blk q1) d') /\ bstep M (bput M (blk q1) d') m m'.
Proof.
  intros Hm Hr. unfold mmove in Hr. destruct (Nat.eqb_spec (blk q1) (blk q2)) as [Hb|]; [|done]. rewrite <- Hb in *. destruct (m !! blk q1) as [c|] eqn:E; [|done]. destruct (Hm _ _ E) as [Hh Hc].
  destruct (memmove c _ _ n) as [c'| |] eqn:Ec; try discriminate Hr. cbn [bind] in Hr. injection Hr as <-. exists c'.
  unfold memmove in Ec. destruct (Z.leb_spec 0 n); [|done]. destruct (Z.leb_spec 0 (off q1)); [|done]. destruct (Z.leb_spec 0 (off q2)); [|done].
  destruct (Z.leb_spec (off q1 + n) (Z.of_nat (length c))); [|done]. destruct (Z.leb_spec (off q2 + n) (Z.of_nat (length c))); [|done]. cbn [andb] in Ec. injection Ec as Ec.
  split.
  - unfold move_mem. change (byte_size p bvec_prog U8) with 1. change (cells bvec_prog U8) with 1. rewrite Z.mod_1_r, Z.div_1_r, Z.mul_1_r. cbn [negb Z.eqb]. rewrite Hh. cbn [ofopt bind]. rewrite fmap_length.
    repeat match goal with |- context [?a <=? ?b] => destruct (Z.leb_spec a b); [|lia] end. cbn [andb]. unfold BbufSrc5.bput. rewrite <- Ec, !fmap_app, !fmap_take, !fmap_drop. reflexivity.
  - eapply bstep_bput; [|exact Hh|exact (lookup_lt_Some _ _ _ E)|apply insert_length]. intros k dd Hk. unfold BbufSrc5.bput. cbn [heap]. destruct (decide (k = blk q1)) as [->|Hne].
    + rewrite list_lookup_insert in Hk by (eapply lookup_lt_Some; exact E). injection Hk as <-. rewrite lookup_insert. split; [done|]. rewrite <- Ec, !Forall_app. split; [by apply Forall_take|]. split; [by apply Forall_take, Forall_drop|by apply Forall_drop].
    + rewrite list_lookup_insert_ne in Hk by done. rewrite lookup_insert_ne by lia. by apply Hm.
Qed.
Lemma set_step d M m q v n z m' : mrep M m -> mset m q v n = Ok m' -> 0 <= v < 256 -> to_size p z = n ->
  exists d', call d "memset" [VP (base + blk q) (off q); VI v; VI z] M = Ok (VP (base + blk q) (off q), Tptr Tvoid, bput M (blk q) d') /\ bstep M (bput M (blk q) d') m m'.
Proof.
  intros Hm Hs Hv Hz. destruct (src_memset p fuel base pr d M m q v n z m' Hm Hs Hv Hz) as (d' & H1 & H2 & H3 & H4 & x & H5). exists d'. split; [done|]. by eapply bstep_bput.
Qed.
Lemma src_clear_step d M m s b m' : mrep M m -> isb M s b -> 0 <= capacity b < size_mod p -> mu_bbuf_clear m b = Ok m' ->
  exists M', call (S d) "mu_bbuf_clear" [VP s 0] M = Ok (VP s 0, T, M') /\ bstep M M' m m'.
Proof.
  intros Hm [rest Hs] Hc Hr. unfold ptrval in Hs. unfold mu_bbuf_clear in Hr. destruct (set_step d M m (bytes b) 0 (capacity b) (capacity b) m' Hm Hr ltac:(lia)) as (d' & H1 & H2); [by apply to_size_id|].
  exists (bput M (blk (bytes b)) d'). split; [|done]. erewrite call_S by reflexivity. csw. reflexivity.
Qed.
Lemma src_rshift d M m s b shift m' : mrep M m -> isb M s b -> 0 <= capacity b < size_mod p -> int_min <= shift <= int_max -> mu_bbuf_rshift p m b shift = Ok m' ->
  exists M', call (S (S d)) "mu_bbuf_rshift" [VP s 0; VI shift] M = Ok (VP s 0, T, M') /\ bstep M M' m m'.
Proof.
  intros Hm Hs Hc Hsh Hr. ints. pose proof (size_mod_big p). pose proof Hs as Hs0. destruct Hs as [rest Hs]. unfold ptrval in Hs. unfold mu_bbuf_rshift in Hr. destruct (shift <? 0) eqn:Eneg.
  - apply Z.ltb_lt in Eneg as Eneg'. destruct (ichk (- shift)) as [sh| |] eqn:Es; try discriminate Hr. apply ichk_inv in Es as [-> Hsr]. cbn [bind] in Hr.
    assert (E0 : (- shift =? 0) = false) by (apply Z.eqb_neq; lia). rewrite E0 in Hr. rewrite (to_size_id p (- shift)) in Hr by lia. destruct (capacity b <=? - shift) eqn:Ec.
    + destruct (src_clear_step d M m s b m' Hm Hs0 Hc Hr) as (M' & Hcl & Hst). exists M'. split; [|done]. erewrite call_S by reflexivity. csw. reflexivity.
    + apply Z.leb_gt in Ec as Ec'. rewrite (to_size_id p (capacity b - - shift)) in Hr by lia.
      destruct (padd m (bytes b) (- shift)) as [q1| |] eqn:Eq1; try discriminate Hr. cbn [bind] in Hr. apply (padd_inv _ _ _ _ _ _ Hm) in Eq1 as (c & Hh & -> & Hq1).
      destruct (mmove m _ _ _) as [m1| |] eqn:Em; try discriminate Hr. cbn [bind] in Hr. destruct (move_bytes M m _ _ _ m1 Hm Em) as (d1 & Hmv & S1). cbn [blk off] in Hmv.
      destruct (padd m1 (bytes b) _) as [q2| |] eqn:Eq2; try discriminate Hr. cbn [bind] in Hr. apply (padd_inv _ _ _ _ _ _ (proj1 S1)) in Eq2 as (c2 & Hh2 & -> & Hq2).
      destruct (set_step (S d) _ m1 (Ptr (blk (bytes b)) (off (bytes b) + (capacity b - - shift))) 0 (- shift) (- shift) m' (proj1 S1) Hr ltac:(lia)) as (d2 & Hms & S2); [by apply to_size_id; lia|]. cbn [blk off] in Hms.
      pose proof (proj2 (proj2 (proj2 (proj2 S1))) s b Hs0) as [rest1 Hs1]. unfold ptrval in Hs1.
      exists (bput (bput M (blk (bytes b)) d1) (blk (bytes b)) d2). split; [|by eapply bstep_trans]. 
      assert (Hz : to_size p (capacity b - - shift) = capacity b - - shift) by (apply to_size_id; lia).
      remember (bput M (blk (bytes b)) d1) as M1 eqn:HM1. clear HM1. cbn [blk off] in *. erewrite call_S by reflexivity. csw. rewrite ?Hz. csw. rewrite ?Hz. csw. rewrite ?Hz. csw. reflexivity.
  - apply Z.ltb_ge in Eneg as Eneg'. cbn [bind] in Hr. destruct (shift =? 0) eqn:E0.
    { injection Hr as <-. exists M. split; [|by apply bstep_refl]. erewrite call_S by reflexivity. csw. reflexivity. }
    apply Z.eqb_neq in E0 as E0'. rewrite (to_size_id p shift) in Hr by lia. destruct (capacity b <=? shift) eqn:Ec.
    + destruct (src_clear_step d M m s b m' Hm Hs0 Hc Hr) as (M' & Hcl & Hst). exists M'. split; [|done]. erewrite call_S by reflexivity. csw. reflexivity.
    + apply Z.leb_gt in Ec as Ec'. rewrite (to_size_id p (capacity b - shift)) in Hr by lia.
      destruct (padd m (bytes b) shift) as [q1| |] eqn:Eq1; try discriminate Hr. cbn [bind] in Hr. apply (padd_inv _ _ _ _ _ _ Hm) in Eq1 as (c & Hh & -> & Hq1).
      destruct (mmove m _ _ _) as [m1| |] eqn:Em; try discriminate Hr. cbn [bind] in Hr. destruct (move_bytes M m _ _ _ m1 Hm Em) as (d1 & Hmv & S1). cbn [blk off] in Hmv, S1.
      destruct (set_step (S d) _ m1 (bytes b) 0 shift shift m' (proj1 S1) Hr ltac:(lia)) as (d2 & Hms & S2); [by apply to_size_id; lia|].
      pose proof (proj2 (proj2 (proj2 (proj2 S1))) s b Hs0) as [rest1 Hs1]. unfold ptrval in Hs1.
      exists (bput (bput M (blk (bytes b)) d1) (blk (bytes b)) d2). split; [|by eapply bstep_trans]. 
      assert (Hz : to_size p (capacity b - shift) = capacity b - shift) by (apply to_size_id; lia).
      remember (bput M (blk (bytes b)) d1) as M1 eqn:HM1. clear HM1. cbn [blk off] in *. erewrite call_S by reflexivity. csw. rewrite ?Hz. csw. rewrite ?Hz. csw. rewrite ?Hz. csw. reflexivity.
Qed.
(** *** rrotate *)
Definition env_rot (s : nat) (shift cap : Z) (l r : nat) : env :=
  [("bbuf_rw", BReg T (VP s 0)); ("shift", BReg int (VI shift)); ("capacity", BReg int (VI cap)); ("left", BMem (Tstruct "mu_bbuf_t") l); ("right", BMem (Tstruct "mu_bbuf_t") r)].
Lemma rot_dec_src d s l r M cap : int_min <= cap <= int_max -> forall k n shift sh', (k < n)%nat -> int_min <= shift <= int_max -> rot_dec k shift cap = Ok sh' ->
  lp d n (EBin Ge (EVar "shift") (EVar "capacity")) SSkip (SExpr (EAssignOp Sub (EVar "shift") (EVar "capacity"))) (env_rot s shift cap l r, M) = Ok (Next, (env_rot s sh' cap l r, M)) /\ int_min <= sh' <= int_max /\ sh' < cap.
Proof.
  intros Hc. induction k as [|k IH]; intros n shift sh' Hn Hs Hr; (destruct n as [|n]; [lia|]); cbn [rot_dec] in Hr; destruct (cap <=? shift) eqn:E; try discriminate Hr.
  1, 3: injection Hr as <-; apply Z.leb_gt in E as E'; split; [|done]; rewrite loop_S; unfold env_rot; csw; rewrite ?E; csw; reflexivity.
  destruct (isub shift cap) as [x| |] eqn:Ex; try discriminate Hr. cbn [bind] in Hr. apply isub_inv in Ex as [-> Hx]. destruct (IH n _ sh' ltac:(lia) Hx Hr) as [H1 H2]. split; [|done].
  rewrite <- H1. unfold env_rot. remember (loop n) as L. rewrite loop_S. subst L. csw. rewrite ?E. csw. reflexivity.
Qed.
Lemma rot_inc_src d s l r M cap : int_min <= cap <= int_max -> forall k n shift sh', (k < n)%nat -> int_min <= shift <= int_max -> shift < cap -> rot_inc k shift cap = Ok sh' ->
  lp d n (EBin Lt (EVar "shift") (EInt 0)) SSkip (SExpr (EAssignOp Add (EVar "shift") (EVar "capacity"))) (env_rot s shift cap l r, M) = Ok (Next, (env_rot s sh' cap l r, M)) /\ int_min <= sh' <= int_max /\ 0 <= sh' < cap.
Proof.
  intros Hc. induction k as [|k IH]; intros n shift sh' Hn Hs Hlt Hr; (destruct n as [|n]; [lia|]); cbn [rot_inc] in Hr; destruct (shift <? 0) eqn:E; try discriminate Hr.
  1, 3: injection Hr as <-; apply Z.ltb_ge in E as E'; split; [|lia]; rewrite loop_S; unfold env_rot; csw; reflexivity.
  destruct (iadd shift cap) as [x| |] eqn:Ex; try discriminate Hr. cbn [bind] in Hr. apply iadd_inv in Ex as [-> Hx]. apply Z.ltb_lt in E as E'. destruct (IH n _ sh' ltac:(lia) Hx ltac:(lia) Hr) as [H1 H2]. split; [|done].
  rewrite <- H1. unfold env_rot. remember (loop n) as L. rewrite loop_S. subst L. csw. reflexivity.
Qed.
Lemma bisect_caps m b i e' : int_min <= i <= int_max -> 0 < i < to_int (capacity b) -> 0 <= capacity b < size_mod p -> mu_bbuf_bisect p m [b; b; b] (Some 1%nat) (Some 2%nat) 0 i = Ok e' ->
  exists bl br, e' = [b; bl; br] /\ capacity bl = i /\ capacity br = to_int (capacity b) - i.
Proof.
  intros Hi0 Hi Hc H. ints. pose proof (to_int_r (capacity b)) as Hc1. pose proof (to_int_le (capacity b) ltac:(lia)) as Hle. pose proof (size_mod_big p).
  unfold mu_bbuf_bisect, sget, mu_bbuf_capacity, mu_bbuf_bytes_ro, mu_bbuf_init_ro, sput in H. cbn [lookup list_lookup bind insert list_insert] in H.
  destruct (Z.ltb_spec i 0); [lia|]. destruct (Z.ltb_spec (to_int (capacity b)) i); [lia|]. unfold MU_BBUF_END in H. destruct (Z.eqb_spec i int_max); [lia|]. cbn [orb bind] in H.
  cbn [bytes] in H. destruct (padd _ _ _) as [q| |]; try discriminate H. cbn [bind] in H. unfold isub in H. rewrite ichk_ok in H by lia. cbn [bind] in H. injection H as <-.
  eexists _, _. split; [reflexivity|]. cbn [capacity]. rewrite !to_size_id by lia. done.
Qed.
Lemma frame_weaken M M' m : bstep M M' m m -> frame M M' m. Proof. by intros (_ & H & _). Qed.
Lemma frame_isb M M' m s b : frame M M' m -> (s < next M)%nat -> (forall j, (j < length m)%nat -> s <> (base + j)%nat) -> isb M s b -> isb M' s b.
Proof. intros [_ H] H1 H2 [rest H3]. exists rest. by rewrite H. Qed.
Lemma sset_next M a b : next (sset M a b) = next M.
Proof. unfold BbufSrc4.sset. destruct (heap M !! a) as [ [|? [|? ?] ]|]; done. Qed.
Lemma src_rrotate d M m s b n shift m' : mrep M m -> isb M s b -> fits b -> (base + length m <= next M)%nat -> (s < next M)%nat -> int_min <= shift <= int_max -> (n < fuel)%nat -> mu_bbuf_rrotate p n m b shift = Ok m' ->
  exists M', call (S (S (S d))) "mu_bbuf_rrotate" [VP s 0; VI shift] M = Ok (VP s 0, T, M') /\ mrep M' m' /\ frame M M' m /\ length m' = length m.
Proof.
  intros Hm Hs F Hbase Hsn Hsh Hn Hr. ints. pose proof F as [Hc Hf]. unfold mu_bbuf_rrotate in Hr. pose proof (to_int_r (capacity b)) as Hc1. pose proof (to_int_le (capacity b) ltac:(lia)) as Hle.
  destruct (rot_dec _ _ _) as [sh1| |] eqn:E1; try discriminate Hr. cbn [bind] in Hr. destruct (rot_inc _ _ _) as [sh2| |] eqn:E2; try discriminate Hr. cbn [bind] in Hr.
  set (l := next M). set (r := S (next M)). set (M0 := MkMem (<[r := [VU; VU]]> (<[l := [VU; VU]]> (heap M))) (S r)).
  destruct (rot_dec_src (S (S d)) s l r M0 _ Hc1 n fuel shift sh1 Hn Hsh E1) as (L1 & Hs1 & Hs1').
  destruct (rot_inc_src (S (S d)) s l r M0 _ Hc1 n fuel sh1 sh2 Hn Hs1 Hs1' E2) as (L2 & Hs2 & Hs2'). unfold env_rot in L1, L2.
  assert (Hm0 : mrep M0 m). { intros k dd Hk. pose proof (lookup_lt_Some _ _ _ Hk). unfold M0. cbn [heap]. rewrite !lookup_insert_ne by (unfold l, r; lia). by apply Hm. }
  assert (Hs0 : isb M0 s b). { destruct Hs as [rest Hs]. exists rest. unfold M0. cbn [heap]. rewrite !lookup_insert_ne by (unfold l, r; lia). done. }
  assert (Hl : forall k, (k < length m)%nat -> l <> (base + k)%nat) by (unfold l; lia). assert (Hr' : forall k, (k < length m)%nat -> r <> (base + k)%nat) by (unfold r; lia).
  assert (Hfree : forall M' m', (next M0 <= next M')%nat /\ (forall k, (k < l)%nat -> (forall j, (j < length m)%nat -> k <> (base + j)%nat) -> heap M' !! k = heap M0 !! k) -> mrep M' m' -> length m' = length m -> mrep (MkMem (delete l (delete r (heap M'))) (next M')) m' /\ frame M (MkMem (delete l (delete r (heap M'))) (next M')) m /\ length m' = length m).
  { intros M' m1 [Hf1 Hf2] Hm1 Hl1. split; [|split; [|done]].
    - intros k dd Hk. pose proof (lookup_lt_Some _ _ _ Hk). cbn [heap]. rewrite !lookup_delete_ne by (unfold l, r; lia). by apply Hm1.
    - split; [cbn [next] in *; unfold M0, r in Hf1; cbn [next] in Hf1; lia|]. intros k Hk Hj. cbn [heap]. rewrite !lookup_delete_ne by (unfold l, r; lia). rewrite Hf2 by (done || (unfold M0; cbn [next]; unfold r; lia)). unfold M0. cbn [heap]. rewrite !lookup_insert_ne by (unfold l, r; lia). done. }
  assert (Hal : forall e, CLang.alloc bvec_prog [("left", Tstruct "mu_bbuf_t"); ("right", Tstruct "mu_bbuf_t")] M = e -> e = ([("left", BMem (Tstruct "mu_bbuf_t") l); ("right", BMem (Tstruct "mu_bbuf_t") r)], M0)) by (intros e <-; reflexivity).
  pose proof Hs0 as [rest0 Hs0']. unfold ptrval in Hs0'.
  destruct (0 <? sh2) eqn:E3.
  - apply Z.ltb_lt in E3 as E3'. destruct (mu_bbuf_reverse p m b) as [m1| |] eqn:R1; try discriminate Hr. cbn [bind] in Hr. destruct (mu_bbuf_bisect _ _ _ _ _ _ _) as [e'| |] eqn:Eb; try discriminate Hr. cbn [bind] in Hr.
    destruct (src_reverse (S d) M0 m s b m1 Hm0 Hs0 F R1) as (M1 & C1 & (Hm1 & Fr1 & Hl1 & Hn1 & Hi1)).
    assert (Hsl : slot M1 l). { exists VU, VU, []. rewrite (proj2 Fr1); [unfold M0; cbn [heap]; rewrite lookup_insert_ne by (unfold l, r; lia); by rewrite lookup_insert|unfold M0; cbn [next]; unfold l, r; lia|done]. }
    assert (Hsr : slot M1 r). { exists VU, VU, []. rewrite (proj2 Fr1); [unfold M0; cbn [heap]; by rewrite lookup_insert|unfold M0; cbn [next]; unfold l, r; lia|done]. }
    destruct (bisect_caps m1 b sh2 e' Hs2 ltac:(lia) Hc Eb) as (bl & br & -> & Hcl & Hcr).
    destruct (src_bisect p fuel base pr d M1 m1 [b; b; b] _ 0%nat (Some 1%nat) (Some 2%nat) (fun _ => l) (fun _ => r) s b sh2 Hm1 (Hi1 _ _ Hs0) F Hs2 ltac:(done) ltac:(done) ltac:(by intros; rewrite Hl1 in *; apply Hl) eq_refl Eb) as (bl' & br' & He & C2 & _).
    cbn [oput list_insert insert] in He. injection He as <- <-. cbn [option_fmap option_map fmap oaddr oset] in C2.
    set (M2 := sset (sset M1 l bl) r br) in *. cbn [sget lookup list_lookup bind] in Hr.
    assert (Hm2 : mrep M2 m1) by (unfold M2; apply sset_mrep; [apply sset_mrep; [done|by rewrite Hl1]|by rewrite Hl1]).
    destruct (mu_bbuf_reverse p m1 bl) as [m2| |] eqn:R2; try discriminate Hr. cbn [bind] in Hr.
    destruct (src_reverse (S d) M2 m1 l bl m2 Hm2) as (M3 & C3 & (Hm3 & Fr3 & Hl3 & Hn3 & Hi3)); [destruct (sset_isb base _ l bl Hsl) as [rx Hrx]; exists rx; unfold M2; rewrite sset_ne by (unfold l, r; lia); exact Hrx|split; lia|done|].
    destruct (src_reverse (S d) M3 m2 r br m' Hm3) as (M4 & C4 & (Hm4 & Fr4 & Hl4 & Hn4 & Hi4)); [exact (Hi3 _ _ (sset_isb base _ r br (sset_slot base _ l bl r Hsr)))|split; lia|done|].
    assert (Hnx : next M2 = next M1) by (unfold M2; by rewrite !sset_next).
    exists (MkMem (delete l (delete r (heap M4))) (next M4)). split; [|apply Hfree; [|done|lia]].
    + clear Hfree. pose proof (Hal _ eq_refl) as Hal'. clear Hal. erewrite call_S by reflexivity. clear Hm0 Hs0 Hl Hr' Hi1 Hi3 Hi4 Hnx Hm1 Hm2 Hm3 Hm4 Fr1 Fr3 Fr4 Hn1 Hn3 Hn4 Hsl Hsr. subst l r M2. cstep. change (replicate (Z.to_nat (cells bvec_prog (Tstruct "mu_bbuf_t"))) VU) with [VU; VU]. cbn [next heap]. fold M0. clearbody M0. csw. rewrite exec_SLoop, L1. csw. rewrite exec_SLoop, L2. csw. reflexivity.
    + split; [lia|]. intros k Hk Hj. assert (k < next M0)%nat by (unfold M0, r, l in *; cbn [next]; lia).
      rewrite (proj2 Fr4) by (lia || (intros j Hjj; apply Hj; lia)). rewrite (proj2 Fr3) by (lia || (intros j Hjj; apply Hj; lia)). unfold M2. rewrite !sset_ne by (unfold r, l in *; lia). by apply Fr1.
  - injection Hr as <-. exists (MkMem (delete l (delete r (heap M0))) (next M0)). split; [|apply Hfree; [done|done|done] ].
    clear Hfree Hal Hm0 Hs0 Hl Hr'. subst l r. erewrite call_S by reflexivity. cstep. change (replicate (Z.to_nat (cells bvec_prog (Tstruct "mu_bbuf_t"))) VU) with [VU; VU]. cbn [next heap]. fold M0. clearbody M0. csw. rewrite exec_SLoop, L1. csw. rewrite exec_SLoop, L2. csw. reflexivity.
Qed.
End bbuf.
