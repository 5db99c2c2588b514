(** * Proofs about mu_spsc *)
From Verif Require Import CSem FifoSpec SpscModel.

(** ** power of two test *)
Lemma pow2_land k : 0 <= k -> Z.land (2 ^ k) (2 ^ k - 1) = 0.
Proof.
  intros Hk. replace (2 ^ k - 1) with (Z.ones k) by (rewrite Z.ones_equiv; lia).
  rewrite Z.land_ones by done. apply Z.mod_same. pose proof (Z.pow_pos_nonneg 2 k). lia.
Qed.

Lemma land_pow2 n : 1 <= n -> Z.land n (n - 1) = 0 -> exists k, 0 <= k /\ n = 2 ^ k.
Proof.
  intros Hn H. set (k := Z.log2 n). exists k. pose proof (Z.log2_nonneg n). split; [done|].
  pose proof (Z.log2_spec n ltac:(lia)) as [Hlo Hhi]. fold k in Hlo, Hhi.
  destruct (Z.eq_dec n (2 ^ k)); [done|]. exfalso.
  assert (Hb : Z.testbit (Z.land n (n - 1)) k = true).
  { rewrite Z.land_spec. apply andb_true_iff. split.
    - apply Z.bit_log2. lia.
    - pose proof (Z.pow_pos_nonneg 2 k). assert (Hlg : Z.log2 (n - 1) = k).
      { apply Z.log2_unique; [done|]. rewrite Z.pow_succ_r in Hhi |- * by done. lia. }
      rewrite <- Hlg. apply Z.bit_log2. lia. }
  rewrite H, Z.bits_0 in Hb. done.
Qed.

(** ** the ring *)
(** [l] is in the ring between head and tail; the store has [size] = 2^k slots *)
Definition srep (size : Z) (q : spsc) (l : list Z) : Prop :=
  (exists k, 1 <= k <= 16 /\ size = 2 ^ k /\ size <= 32768) /\
  s_mask q = size - 1 /\ Z.of_nat (length (s_store q)) = size /\
  0 <= s_head q < size /\ s_tail q = (s_head q + Z.of_nat (length l)) mod size /\
  Z.of_nat (length l) <= size - 1 /\
  forall k x, l !! k = Some x -> s_store q !! Z.to_nat ((s_head q + Z.of_nat k) mod size) = Some x.

Section ring.
Context (size : Z).

Lemma mask_mod q l x : srep size q l -> 0 <= x -> to_u16 (Z.land x (s_mask q)) = x mod size.
Proof.
  intros ((k & Hk & -> & Hle) & -> & _) Hx.
  replace (2 ^ k - 1) with (Z.ones k) by (rewrite Z.ones_equiv; lia).
  rewrite Z.land_ones by lia. unfold to_u16. apply Z.mod_small.
  pose proof (Z.mod_pos_bound x (2 ^ k) ltac:(lia)). lia.
Qed.

Lemma srep_bounds q l : srep size q l ->
  2 <= size /\ 0 <= s_head q < size /\ 0 <= s_tail q < size /\ 0 <= Z.of_nat (length l) <= size - 1 /\
  Z.of_nat (length (s_store q)) = size.
Proof.
  intros ((k & Hk & Hs & Hle) & _ & Hst & Hh & Ht & Hl & _).
  assert (2 <= size).
  { rewrite Hs. change 2 with (2 ^ 1) at 1. apply Z.pow_le_mono_r; lia. }
  pose proof (Z.mod_pos_bound (s_head q + Z.of_nat (length l)) size ltac:(lia)). lia.
Qed.

(** modular arithmetic on offsets *)
Lemma mod_off_inj h a b : 0 < size -> 0 <= a < size -> 0 <= b < size ->
  (h + a) mod size = (h + b) mod size -> a = b.
Proof.
  intros Hs Ha Hb H.
  assert (Hd : (h + a - (h + b)) mod size = 0).
  { rewrite Zminus_mod, H, Z.sub_diag. apply Z.mod_0_l. lia. }
  replace (h + a - (h + b)) with (a - b) in Hd by lia.
  destruct (Z.le_gt_cases 0 (a - b)).
  - rewrite Z.mod_small in Hd by lia. lia.
  - rewrite <- (Z.mod_add _ 1), Z.mod_small in Hd by lia. lia.
Qed.

Lemma full_iff q l : srep size q l ->
  ((s_tail q + 1) mod size = s_head q <-> Z.of_nat (length l) = size - 1).
Proof.
  intros Hr. pose proof (srep_bounds q l Hr) as Hb.
  destruct Hr as (_ & _ & _ & Hh & -> & Hl & _).
  rewrite Zplus_mod_idemp_l.
  replace (s_head q + Z.of_nat (length l) + 1) with (s_head q + (Z.of_nat (length l) + 1)) by lia.
  split.
  - intros H. destruct (Z.eq_dec (Z.of_nat (length l)) (size - 1)); [done|].
    assert (Z.of_nat (length l) + 1 = 0); [|lia].
    apply (mod_off_inj (s_head q)); try lia. rewrite H, Z.add_0_r, Z.mod_small by lia. done.
  - intros ->. replace (s_head q + (size - 1 + 1)) with (s_head q + 1 * size) by lia.
    rewrite Z.mod_add by lia. apply Z.mod_small. lia.
Qed.

Lemma empty_iff q l : srep size q l -> (s_head q = s_tail q <-> l = []).
Proof.
  intros Hr. pose proof (srep_bounds q l Hr) as Hb.
  destruct Hr as (_ & _ & _ & Hh & -> & Hl & _). split.
  - intros H. destruct l; [done|]. exfalso.
    assert (Z.of_nat (length (z :: l)) = 0); [|simpl in *; lia].
    apply (mod_off_inj (s_head q)); try lia. rewrite <- H, Z.add_0_r, Z.mod_small by lia. done.
  - intros ->. simpl. rewrite Z.add_0_r, Z.mod_small by lia. done.
Qed.

(** writing the tail slot changes no queued item *)
Lemma write_tail q l x : srep size q l ->
  srep size (MkS (<[Z.to_nat (s_tail q) := x]> (s_store q)) (s_mask q) (s_head q) (s_tail q)) l.
Proof.
  intros Hr. pose proof (srep_bounds q l Hr) as Hb.
  destruct Hr as (Hs & Hm & Hst & Hh & Ht & Hl & Hk). unfold srep; simpl.
  rewrite insert_length. split_and!; try done; try lia.
  intros k y Hy. rewrite list_lookup_insert_ne; [eauto|].
  intros Heq. apply Z2Nat.inj in Heq; [|lia|apply Z.mod_pos_bound; lia].
  rewrite Ht in Heq. pose proof (lookup_lt_Some _ _ _ Hy).
  apply mod_off_inj in Heq; lia.
Qed.

Lemma commit_tail q l x : srep size q l -> Z.of_nat (length l) < size - 1 ->
  s_store q !! Z.to_nat (s_tail q) = Some x ->
  srep size (MkS (s_store q) (s_mask q) (s_head q) ((s_tail q + 1) mod size)) (l ++ [x]).
Proof.
  intros Hr Hlt Hx. pose proof (srep_bounds q l Hr) as Hb.
  destruct Hr as (Hs & Hm & Hst & Hh & Ht & Hl & Hk). unfold srep; simpl.
  rewrite app_length. simpl. split_and!; try done; try lia.
  - rewrite Ht, Zplus_mod_idemp_l. f_equal. lia.
  - intros k y Hy. apply lookup_app_Some in Hy as [Hy|[Hge Hy]]; [eauto|].
    apply list_lookup_singleton_Some in Hy as [Hk0 <-].
    replace (Z.of_nat k) with (Z.of_nat (length l)) by lia. rewrite <- Ht. done.
Qed.

Lemma front q x l : srep size q (x :: l) -> s_store q !! Z.to_nat (s_head q) = Some x.
Proof.
  intros (_ & _ & _ & Hh & _ & _ & Hk). specialize (Hk 0%nat x eq_refl).
  change (Z.of_nat 0) with 0 in Hk. rewrite Z.add_0_r, Z.mod_small in Hk by lia. done.
Qed.

Lemma commit_head q x l : srep size q (x :: l) ->
  srep size (MkS (s_store q) (s_mask q) ((s_head q + 1) mod size) (s_tail q)) l.
Proof.
  intros Hr. pose proof (srep_bounds q _ Hr) as Hb.
  destruct Hr as (Hs & Hm & Hst & Hh & Ht & Hl & Hk). unfold srep; simpl in *.
  split_and!; try done; try lia.
  - apply Z.mod_pos_bound. lia.
  - apply Z.mod_pos_bound. lia.
  - rewrite Ht, Zplus_mod_idemp_l. f_equal. lia.
  - intros k y Hy. specialize (Hk (S k) y Hy). rewrite Zplus_mod_idemp_l.
    replace (s_head q + 1 + Z.of_nat k) with (s_head q + Z.of_nat (S k)) by lia. done.
Qed.

Lemma size_mod_s : (exists k, 1 <= k <= 16 /\ size = 2 ^ k /\ size <= 32768) -> 2 <= size.
Proof. intros (k & Hk & -> & _). change 2 with (2 ^ 1) at 1. apply Z.pow_le_mono_r; lia. Qed.

Lemma spsc_put_ok q l x : srep size q l ->
  exists e q', mu_spsc_put q x = Ok (e, q') /\
   ((Z.of_nat (length l) < size - 1 /\ e = SPSC_NONE /\ srep size q' (l ++ [x])) \/
    (Z.of_nat (length l) = size - 1 /\ e = SPSC_FULL /\ q' = q)).
Proof.
  intros Hr. pose proof (srep_bounds q _ Hr) as Hb. unfold mu_spsc_put.
  rewrite (mask_mod q l) by (done || lia).
  pose proof (full_iff q l Hr) as Hf.
  destruct (Z.eqb_spec ((s_tail q + 1) mod size) (s_head q)) as [He|Hne].
  - eexists _, _. split; [done|]. right. split_and!; try done. by apply Hf.
  - rewrite st_ok by lia. simpl. eexists _, _. split; [done|]. left.
    assert (Z.of_nat (length l) <> size - 1) by (intros ?; by apply Hne, Hf).
    split_and!; [lia|done|].
    apply (commit_tail (MkS _ (s_mask q) (s_head q) (s_tail q))); simpl; [by apply write_tail|lia|].
    apply list_lookup_insert. lia.
Qed.

Lemma spsc_get_ok q l : srep size q l ->
  (l = [] /\ mu_spsc_get q = Ok (SPSC_EMPTY, NULL, q)) \/
  (exists x l' q', l = x :: l' /\ mu_spsc_get q = Ok (SPSC_NONE, x, q') /\ srep size q' l').
Proof.
  intros Hr. pose proof (srep_bounds q _ Hr) as Hb. unfold mu_spsc_get.
  pose proof (empty_iff q l Hr) as He.
  destruct (Z.eqb_spec (s_head q) (s_tail q)) as [Heq|Hne].
  - left. split; [by apply He|done].
  - right. destruct l as [|x l]; [exfalso; by apply Hne, He|].
    rewrite (ld_okZ _ _ x); [|lia|by eapply front]. simpl.
    rewrite (mask_mod q (x :: l)) by (done || lia).
    eexists x, l, _. split_and!; try done. by eapply commit_head.
Qed.

Lemma reset_rep q l : srep size q l -> srep size (snd (mu_spsc_reset q)) [].
Proof.
  intros Hr. pose proof (srep_bounds q _ Hr) as Hb.
  destruct Hr as (Hs & Hm & Hst & _). unfold mu_spsc_reset, srep; simpl.
  split_and!; try done; try lia.
Qed.

(** ** the concurrent invariant *)
Definition pinv (q : spsc) (n : Z) (pc : ppc) : Prop :=
  match pc with
  | PIdle | PLoadTail _ => True
  | PLoadHead _ nt => nt = (s_tail q + 1) mod size
  | PLoadTail2 _ nt => nt = (s_tail q + 1) mod size /\ n < size - 1
  | PWriteSlot _ nt t => nt = (s_tail q + 1) mod size /\ n < size - 1 /\ t = s_tail q
  | PStoreTail x nt => nt = (s_tail q + 1) mod size /\ n < size - 1 /\
                       s_store q !! Z.to_nat (s_tail q) = Some x
  end.
Definition cinv (q : spsc) (l : list Z) (pc : cpc) : Prop :=
  match pc with
  | CIdle | CLoadHead => True
  | CLoadTail h => h = s_head q
  | CLoadHead2 => l <> []
  | CReadSlot h => h = s_head q /\ l <> []
  | CLoadHead3 v => exists l', l = v :: l'
  | CStoreHead v h => h = (s_head q + 1) mod size /\ exists l', l = v :: l'
  end.
Definition inv (s : conc) (l : list Z) : Prop :=
  srep size (c_q s) l /\ pinv (c_q s) (Z.of_nat (length l)) (c_p s) /\ cinv (c_q s) l (c_c s).

(** the responses as a FIFO history *)
Definition ev_op (e : sev) : list (qop * qobs) :=
  match e with
  | RespPut x b => [(QPut x, QBool b)]
  | RespGet b v => [(QGet, QItem b v)]
  | _ => []
  end.

Lemma cinv_put q l x pc : cinv q l pc -> 
  forall q', s_head q' = s_head q -> cinv q' (l ++ [x]) pc.
Proof.
  intros H q' Hh. destruct pc; simpl in *; rewrite ?Hh; try done.
  - destruct l; done.
  - destruct H. split; [done|]. destruct l; done.
  - destruct H as [l' ->]. simpl. eauto.
  - destruct H as (? & l' & ->). simpl. eauto.
Qed.
Lemma cinv_same q q' l pc : cinv q l pc -> s_head q' = s_head q -> cinv q' l pc.
Proof. intros H Hh. destruct pc; simpl in *; rewrite ?Hh; done. Qed.
Lemma pinv_get q pc n : pinv q n pc -> n <= size - 1 -> forall q', s_tail q' = s_tail q -> s_store q' = s_store q ->
  pinv q' (n - 1) pc.
Proof.
  intros H Hn q' Ht Hs. destruct pc; simpl in *; rewrite ?Ht, ?Hs; try done; split_and!; try (by destruct_and!); try lia.
Qed.

Lemma cstep_ok s l lab : inv s l ->
  exists s' evs l', cstep s lab = Ok (s', evs) /\ inv s' l' /\
    fifo_run (size - 1) l (map fst (concat (map ev_op evs))) = (map snd (concat (map ev_op evs)), l').
Proof.
  destruct s as [q pp pc]. intros (Hr & Hp & Hc). simpl in Hr, Hp, Hc.
  pose proof (srep_bounds q _ Hr) as Hb.
  destruct lab.
  - destruct pp; simpl; eexists _, _, l; (split; [done|]); (split; [|done]); split_and!; done.
  - destruct pc; simpl; eexists _, _, l; (split; [done|]); (split; [|done]); split_and!; done.
  - destruct pp; simpl in Hp |- *.
    + eexists _, _, l. split; [done|]. split; [|done]. split_and!; done.
    + eexists _, _, l. split; [done|]. split; [|done]. split_and!; [done| |done]. simpl.
      apply (mask_mod q l); [done|lia].
    + pose proof (full_iff q l Hr) as Hf.
      destruct (Z.eqb_spec next_tail (s_head q)) as [He|Hne].
      * eexists _, _, l. split; [done|]. split; [split_and!; done|]. simpl.
        destruct (Z.ltb_spec (Z.of_nat (length l)) (size - 1)); [|done].
        exfalso. rewrite Hp in He. apply Hf in He. lia.
      * eexists _, _, l. split; [done|]. split; [|done]. split_and!; [done| |done]. simpl.
        split; [done|]. assert (Z.of_nat (length l) <> size - 1); [|lia].
        intros ?. apply Hne. rewrite Hp. by apply Hf.
    + eexists _, _, l. split; [done|]. split; [|done]. split_and!; [done| |done]. simpl.
      destruct_and!. done.
    + destruct Hp as (-> & Hn & ->). rewrite st_ok by lia. simpl.
      eexists _, _, l. split; [done|]. split; [|done]. split_and!; simpl.
      * by apply write_tail.
      * split_and!; [done|lia|]. apply list_lookup_insert. lia.
      * eapply cinv_same; done.
    + destruct Hp as (-> & Hn & Hx). eexists _, _, (l ++ [item]). split; [done|]. split.
      * split_and!; simpl; [by apply commit_tail|done|]. eapply cinv_put; done.
      * simpl. destruct (Z.ltb_spec (Z.of_nat (length l)) (size - 1)); [done|lia].
  - destruct pc; simpl in Hc |- *.
    + eexists _, _, l. split; [done|]. split; [|done]. split_and!; done.
    + eexists _, _, l. split; [done|]. split; [|done]. split_and!; done.
    + pose proof (empty_iff q l Hr) as He. subst h.
      destruct (Z.eqb_spec (s_head q) (s_tail q)) as [Heq|Hne].
      * eexists _, _, l. split; [done|]. split; [split_and!; done|]. simpl.
        assert (l = []) as -> by (by apply He). done.
      * eexists _, _, l. split; [done|]. split; [|done]. split_and!; [done|done|]. simpl.
        intros ->. by apply Hne, He.
    + eexists _, _, l. split; [done|]. split; [|done]. split_and!; done.
    + destruct Hc as [-> Hne]. destruct l as [|x l]; [done|].
      rewrite (ld_okZ _ _ x); [|lia|by eapply front]. simpl.
      eexists _, _, (x :: l). split; [done|]. split; [|done]. split_and!; try done. simpl. eauto.
    + eexists _, _, l. split; [done|]. split; [|done]. split_and!; try done. simpl. split; [|done].
      apply (mask_mod q l); [done|lia].
    + destruct Hc as (-> & l' & ->). eexists _, _, l'. split; [done|]. split; [|done].
      split_and!; simpl; [by eapply commit_head| |done].
      replace (Z.of_nat (length l')) with (Z.of_nat (length (v :: l')) - 1) by (simpl; lia).
      eapply pinv_get; try done. lia.
Qed.

Lemma crun_ok : forall ls s l, inv s l ->
  exists s' evs l', crun s ls = Ok (s', evs) /\ inv s' l' /\
    fifo_run (size - 1) l (map fst (concat (map ev_op evs))) = (map snd (concat (map ev_op evs)), l').
Proof.
  induction ls as [|lab ls IH]; intros s l Hi; simpl.
  - eexists _, _, _. split; [done|]. split; done.
  - destruct (cstep_ok s l lab Hi) as (s1 & e1 & l1 & -> & Hi1 & Hf1). simpl.
    destruct (IH s1 l1 Hi1) as (s2 & e2 & l2 & -> & Hi2 & Hf2). simpl.
    eexists _, _, l2. split; [done|]. split; [done|].
    rewrite map_app, concat_app, !map_app, fifo_run_app, Hf1, Hf2. done.
Qed.
End ring.

Lemma init_rep q store size e q' : 0 <= size <= 65535 -> Z.of_nat (length store) = size ->
  mu_spsc_init q store size = (e, q') -> e = SPSC_NONE -> srep size q' [].
Proof.
  intros Hs Hl H He. unfold mu_spsc_init in H.
  destruct (Z.ltb_spec size 2); simpl in H; [injection H as <- <-; done|].
  destruct (IS_POWER_OF_TWO size) eqn:Hp; simpl in H; [|injection H as <- <-; done].
  injection H as <- <-. apply Z.eqb_eq in Hp.
  destruct (land_pow2 size) as (k & Hk & Hsz); [lia|done|].
  assert (Hk15 : k <= 15).
  { destruct (Z.le_gt_cases k 15); [done|]. assert (2 ^ 16 <= 2 ^ k) by (apply Z.pow_le_mono_r; lia).
    change (2 ^ 16) with 65536 in *. lia. }
  assert (Hk1 : 1 <= k).
  { destruct (Z.le_gt_cases 1 k); [done|]. assert (k = 0) by lia. subst k. change (2 ^ 0) with 1 in Hsz. lia. }
  assert (size <= 32768).
  { rewrite Hsz. change 32768 with (2 ^ 15). apply Z.pow_le_mono_r; lia. }
  unfold srep; simpl. unfold to_u16. rewrite Z.mod_small by lia.
  split_and!; try done; try lia. exists k. split_and!; try done; lia.
Qed.
