(** * Refinement of the scheduler model to the specification *)
From Verif Require Import CSem FifoSpec Ring QueueModel QueueProofs SpscModel SpscProofs TaskModel SchedModel SchedSpec.

(** ** the deferred table *)
Definition drep (MAX : Z) (d : list (Z * Z)) (cnt : Z) (l : list (Z * Z)) : Prop :=
  Z.of_nat (length d) = MAX /\ cnt = Z.of_nat (length l) /\ exists junk, d = reverse l ++ junk.

Section deferred.
Context (cf : config).
Notation p := (plat_ cf).

Lemma ld_mid {A} (l1 : list A) x l2 : ld (l1 ++ x :: l2) (Z.of_nat (length l1)) = Ok x.
Proof. apply ld_okZ; [lia|]. rewrite Nat2Z.id. by apply list_lookup_middle. Qed.

Lemma defer_search_ok e : forall l junk, exists D1 D2, reverse l = D1 ++ D2 /\
  defer_search cf (length l) (reverse l ++ junk) (fst e) = Ok (Z.of_nat (length D1)) /\
  reverse (ins (precedes cf) e l) = D1 ++ e :: D2.
Proof.
  induction l as [|x l IH]; intros junk.
  - exists [], []. done.
  - cbn [length defer_search ins]. rewrite reverse_cons, <- app_assoc. simpl.
    pose proof (ld_mid (reverse l) x junk) as Hld. rewrite reverse_length in Hld. rewrite Hld. cbn [bind].
    destruct (precedes cf (fst e) (fst x)).
    + exists (reverse l ++ [x]), []. rewrite app_nil_r. split; [done|]. split.
      * rewrite app_length, reverse_length. simpl. do 2 f_equal. lia.
      * rewrite !reverse_cons, <- app_assoc. done.
    + destruct (IH (x :: junk)) as (D1 & D2 & H1 & H2 & H3).
      exists D1, (D2 ++ [x]). rewrite H2. split; [rewrite H1; by rewrite app_assoc|]. split; [done|].
      rewrite reverse_cons, H3, <- app_assoc. done.
Qed.

Lemma ins_length e l : length (ins (precedes cf) e l) = S (length l).
Proof. induction l as [|x l IH]; [done|]. cbn [ins]. destruct (precedes cf _ _); simpl; by rewrite ?IH. Qed.

Lemma defer_ok d cnt l t at_ q1 q2 c i0 : 1 <= MAX_DEFERRED cf <= int_max ->
  drep (MAX_DEFERRED cf) d cnt l ->
  (Z.of_nat (length l) < MAX_DEFERRED cf /\ exists d',
     defer_aux cf t at_ (MkSched q1 q2 d cnt c i0) = Ok (SCHED_NONE, MkSched q1 q2 d' (cnt + 1) c i0) /\
     drep (MAX_DEFERRED cf) d' (cnt + 1) (ins (precedes cf) (at_, t) l)) \/
  (Z.of_nat (length l) = MAX_DEFERRED cf /\
     defer_aux cf t at_ (MkSched q1 q2 d cnt c i0) = Ok (SCHED_FULL, MkSched q1 q2 d cnt c i0)).
Proof.
  intros HM (Hlen & Hcnt & junk & Hd). unfold defer_aux. cbn [sc_dcount sc_deferred].
  pose proof (size_mod_big p) as Hsz. unfold int_max in *.
  assert (Hle : Z.of_nat (length l) <= MAX_DEFERRED cf).
  { rewrite <- Hlen, Hd, app_length, reverse_length. lia. }
  destruct (Z.eqb_spec cnt (MAX_DEFERRED cf)) as [He|Hne]; [right; split; [lia|done]|left].
  split; [lia|]. rewrite Hcnt, Nat2Z.id.
  destruct (defer_search_ok (at_, t) l junk) as (D1 & D2 & H1 & H2 & H3). simpl fst in H2.
  rewrite Hd, H2. cbn [bind].
  assert (Hll : length l = (length D1 + length D2)%nat) by (rewrite <- (reverse_length l), H1, app_length; done).
  assert (Hj : exists j junk', junk = j :: junk').
  { destruct junk as [|j junk']; [|eauto]. exfalso. rewrite Hd, app_nil_r, reverse_length in Hlen. lia. }
  destruct Hj as (j & junk' & ->).
  rewrite (to_size_id p (Z.of_nat (length l) - Z.of_nat (length D1))) by lia.
  rewrite to_int_id by (unfold int_min, int_max; lia).
  rewrite (to_size_id p (Z.of_nat (length l) + 1)) by lia.
  exists (D1 ++ (at_, t) :: D2 ++ junk'). rewrite H1.
  assert (Hmm : exists d1 y, length d1 = length D1 /\
    (if 0 <? Z.of_nat (length l) - Z.of_nat (length D1)
     then memmove ((D1 ++ D2) ++ j :: junk') (Z.of_nat (length D1) + 1) (Z.of_nat (length D1)) (Z.of_nat (length l) - Z.of_nat (length D1))
     else Ok ((D1 ++ D2) ++ j :: junk')) = Ok (d1 ++ y :: D2 ++ junk') /\ d1 = D1).
  { destruct (Z.ltb_spec 0 (Z.of_nat (length l) - Z.of_nat (length D1))) as [Hpos|Hz].
    - destruct D2 as [|y D2]; [simpl in *; lia|]. exists D1, y. split; [done|]. split; [|done].
      rewrite memmove_ok by (rewrite ?app_length; simpl; simpl in Hll; lia). f_equal.
      rewrite <- app_assoc. cbn [app].
      replace (Z.to_nat (Z.of_nat (length D1) + 1)) with (length (D1 ++ [y])) by (rewrite app_length; simpl; lia).
      replace (D1 ++ y :: D2 ++ j :: junk') with ((D1 ++ [y]) ++ D2 ++ j :: junk') at 1 by (by rewrite <- app_assoc).
      rewrite take_app. rewrite Nat2Z.id, drop_app.
      replace (Z.to_nat (Z.of_nat (length l) - Z.of_nat (length D1))) with (length (y :: D2)) by (simpl in *; lia).
      change (y :: D2 ++ j :: junk') with ((y :: D2) ++ j :: junk'). rewrite take_app.
      replace (Z.to_nat (Z.of_nat (length D1) + 1 + (Z.of_nat (length l) - Z.of_nat (length D1)))) with (length (D1 ++ (y :: D2) ++ [j]))
        by (rewrite !app_length; simpl in *; lia).
      replace (D1 ++ (y :: D2) ++ j :: junk') with ((D1 ++ (y :: D2) ++ [j]) ++ junk') by (by rewrite <- !app_assoc).
      rewrite drop_app. rewrite <- app_assoc. done.
    - destruct D2 as [|y D2]; [|simpl in *; lia]. exists D1, j. rewrite app_nil_r. done. }
  destruct Hmm as (d1 & y & _ & -> & ->). cbn [bind].
  rewrite st_ok by (rewrite app_length; simpl; lia). cbn [bind].
  rewrite Nat2Z.id, insert_app_r_alt, Nat.sub_diag by lia. simpl. split; [done|].
  split; [|split].
  - rewrite <- Hlen, Hd, H1, !app_length. simpl. rewrite !app_length. lia.
  - rewrite ins_length. lia.
  - exists junk'. rewrite H3, <- app_assoc. done.
Qed.

Definition err_or (b : bool) (e : sched_err) : sched_err := if b then SCHED_NONE else e.
Lemma remove_loop_ok t : forall l (K junk : list (Z * Z)) err,
  Z.of_nat (length l + length K + length junk) <= int_max ->
  exists junk', remove_loop cf (length l) t (reverse l ++ K ++ junk) (Z.of_nat (length l + length K)) err =
    Ok (reverse (filter (fun e => snd e <> t) l) ++ K ++ junk',
        Z.of_nat (length (filter (fun e => snd e <> t) l) + length K),
        if decide (filter (fun e => snd e = t) l = []) then err else SCHED_NONE) /\
    length (reverse (filter (fun e => snd e <> t) l) ++ K ++ junk') = length (reverse l ++ K ++ junk).
Proof.
  pose proof (size_mod_big p) as Hsz. unfold int_max.
  induction l as [|x l IH]; intros K junk err Hsize.
  - exists junk. done.
  - cbn [length remove_loop]. rewrite reverse_cons, <- app_assoc. simpl app.
    pose proof (ld_mid (reverse l) x (K ++ junk)) as Hld. rewrite reverse_length in Hld. rewrite Hld. cbn [bind].
    simpl length in Hsize.
    rewrite !filter_cons. destruct (Z.eqb_spec (snd x) t) as [He|Hne].
    + rewrite (to_size_id p (Z.of_nat (S (length l) + length K) - Z.of_nat (S (length l)))) by lia.
      rewrite (to_size_id p (Z.of_nat (S (length l) + length K) - 1)) by lia.
      rewrite decide_False by (intros H; by apply H). rewrite (decide_True (P := snd x = t)) by done.
      assert (Hmm : exists junk1, (if 0 <? Z.of_nat (S (length l) + length K) - Z.of_nat (S (length l))
         then memmove (reverse l ++ x :: K ++ junk) (Z.of_nat (length l)) (Z.of_nat (S (length l))) (Z.of_nat (S (length l) + length K) - Z.of_nat (S (length l)))
         else Ok (reverse l ++ x :: K ++ junk)) = Ok (reverse l ++ K ++ junk1) /\ length junk1 = S (length junk)).
      { destruct (Z.ltb_spec 0 (Z.of_nat (S (length l) + length K) - Z.of_nat (S (length l)))).
        - rewrite memmove_ok by (rewrite ?app_length, ?reverse_length; simpl; rewrite ?app_length; lia).
          eexists (drop (length K) (x :: K ++ junk)). split.
          + f_equal. rewrite Nat2Z.id. f_equal.
            { rewrite take_app_alt; [done|]. by rewrite reverse_length. }
            f_equal.
            * replace (Z.to_nat (Z.of_nat (S (length l)))) with (length (reverse l ++ [x])) by (rewrite app_length, reverse_length; simpl; lia).
              replace (reverse l ++ x :: K ++ junk) with ((reverse l ++ [x]) ++ K ++ junk) by (by rewrite <- app_assoc).
              rewrite drop_app. apply take_app_alt. lia.
            * rewrite drop_app_ge by (rewrite reverse_length; lia). f_equal. rewrite reverse_length. lia.
          + rewrite drop_length. simpl. rewrite app_length. lia.
        - destruct K; [|simpl in *; lia]. exists (x :: junk). done. }
      destruct Hmm as (junk1 & -> & Hj1). cbn [bind].
      replace (Z.of_nat (S (length l) + length K) - 1) with (Z.of_nat (length l + length K)) by lia.
      destruct (IH K junk1 SCHED_NONE) as (junk' & -> & Hlen); [lia|].
      exists junk'. split.
      * do 2 f_equal. destruct (decide _), (decide _); done.
      * rewrite Hlen, !app_length, reverse_length. simpl. rewrite app_length. lia.
    + rewrite decide_True by done. rewrite (decide_False (P := snd x = t)) by done.
      destruct (IH (x :: K) junk err) as (junk' & E & Hlen); [simpl; lia|].
      cbn [length] in E. rewrite Nat.add_succ_r in E. rewrite Nat.add_succ_l. cbn [app] in E. rewrite E.
      exists junk'. cbn [length]. rewrite Nat.add_succ_r. rewrite reverse_cons, <- app_assoc. split; [done|].
      etrans; [|etrans; [exact Hlen|]]; rewrite ?app_length; simpl; rewrite ?app_length; lia.
Qed.

Lemma remove_ok d cnt l t q1 q2 c i0 : 1 <= MAX_DEFERRED cf <= int_max ->
  drep (MAX_DEFERRED cf) d cnt l ->
  let keep := filter (fun e => snd e <> t) l in
  exists d', mu_sched_remove_deferred_task cf t (MkSched q1 q2 d cnt c i0) =
    Ok (if decide (filter (fun e => snd e = t) l = []) then SCHED_NOT_FOUND else SCHED_NONE,
        MkSched q1 q2 d' (Z.of_nat (length keep)) c i0) /\
    drep (MAX_DEFERRED cf) d' (Z.of_nat (length keep)) keep.
Proof.
  intros HM (Hlen & Hcnt & junk & Hd) keep. unfold mu_sched_remove_deferred_task. cbn [sc_dcount sc_deferred].
  rewrite Hcnt, Nat2Z.id, Hd.
  destruct (remove_loop_ok t l [] junk SCHED_NOT_FOUND) as (junk' & E & Hl').
  { rewrite Hd, app_length, reverse_length in Hlen. simpl. lia. }
  simpl app in E, Hl'. rewrite !Nat.add_0_r in E. rewrite E. cbn [bind].
  eexists. split; [done|]. split; [|split; [done|]].
  - rewrite Hl', <- Hd. done.
  - by exists junk'.
Qed.

Lemma fetch_ok d cnt l now q1 q2 c i0 : MAX_DEFERRED cf <= int_max -> drep (MAX_DEFERRED cf) d cnt l ->
  fetch_runnable_deferred_task cf now (MkSched q1 q2 d cnt c i0) =
    Ok (match due cf (by_time (precedes cf)) now l with Some (t, _) => t | None => NULL end,
        MkSched q1 q2 d (Z.of_nat (length (match due cf (by_time (precedes cf)) now l with Some (_, l') => l' | None => l end))) c i0) /\
  drep (MAX_DEFERRED cf) d (Z.of_nat (length (match due cf (by_time (precedes cf)) now l with Some (_, l') => l' | None => l end)))
     (match due cf (by_time (precedes cf)) now l with Some (_, l') => l' | None => l end).
Proof.
  intros HM (Hlen & Hcnt & junk & Hd). pose proof (size_mod_big p) as Hsz. unfold int_max in *.
  unfold fetch_runnable_deferred_task, next_deferred_task, due. cbn [sc_dcount sc_deferred by_time d_next].
  destruct l as [|[at_ t] l].
  - rewrite Hcnt. simpl. split; [done|]. split; [done|]. split; [done|]. by exists junk.
  - rewrite Hcnt. destruct (Z.ltb_spec 0 (Z.of_nat (length ((at_, t) :: l)))); [|simpl in *; lia].
    assert (Hll : Z.of_nat (length ((at_, t) :: l)) <= MAX_DEFERRED cf).
    { rewrite <- Hlen, Hd, app_length, reverse_length. lia. }
    rewrite (to_size_id p (Z.of_nat (length ((at_, t) :: l)) - 1)) by (simpl in *; lia).
    rewrite Hd, reverse_cons, <- app_assoc. simpl app.
    pose proof (ld_mid (reverse l) (at_, t) junk) as Hld. rewrite reverse_length in Hld.
    replace (Z.of_nat (length ((at_, t) :: l)) - 1) with (Z.of_nat (length l)) by (simpl; lia).
    rewrite Hld. cbn [bind fst]. destruct (precedes cf now at_); simpl negb.
    + split; [done|]. split; [|split; [done|]].
      * rewrite <- Hlen, Hd, reverse_cons, <- app_assoc. done.
      * exists junk. rewrite reverse_cons, <- app_assoc. done.
    + cbn [with_deferred sc_deferred sc_dcount sc_irq sc_immed sc_curr sc_idle]. rewrite Hld. cbn [bind]. split; [done|]. split; [|split; [done|]].
      * rewrite <- Hlen, Hd, reverse_cons, <- app_assoc. done.
      * by exists ((at_, t) :: junk).
Qed.

Lemma next_ok d cnt l q1 q2 c i0 : MAX_DEFERRED cf <= int_max -> drep (MAX_DEFERRED cf) d cnt l ->
  mu_sched_next_task cf (MkSched q1 q2 d cnt c i0) =
    Ok (match d_next (by_time (precedes cf)) l with Some (e, _) => snd e | None => NULL end).
Proof.
  intros HM (Hlen & Hcnt & junk & Hd). pose proof (size_mod_big p) as Hsz. unfold int_max in *.
  unfold mu_sched_next_task, next_deferred_task. cbn [sc_dcount sc_deferred by_time d_next].
  destruct l as [|[at_ t] l].
  - rewrite Hcnt. done.
  - rewrite Hcnt. destruct (Z.ltb_spec 0 (Z.of_nat (length ((at_, t) :: l)))); [|simpl in *; lia].
    assert (Hll : Z.of_nat (length ((at_, t) :: l)) <= MAX_DEFERRED cf).
    { rewrite <- Hlen, Hd, app_length, reverse_length. lia. }
    rewrite (to_size_id p (Z.of_nat (length ((at_, t) :: l)) - 1)) by (simpl in *; lia).
    rewrite Hd, reverse_cons, <- app_assoc. simpl app.
    pose proof (ld_mid (reverse l) (at_, t) junk) as Hld. rewrite reverse_length in Hld.
    replace (Z.of_nat (length ((at_, t) :: l)) - 1) with (Z.of_nat (length l)) by (simpl; lia).
    by rewrite Hld.
Qed.
End deferred.

(** ** the interrupt queue, also when its size is illegal *)
Definition irqrep (n : Z) (q : spsc) (l : list Z) : Prop :=
  (srep n q l /\ irq_capacity n = n - 1) \/ (irq_capacity n = 0 /\ l = [] /\ s_mask q = 0 /\ s_head q = 0 /\ s_tail q = 0).

Lemma irq_put_ok n q l x : irqrep n q l ->
  (Z.of_nat (length l) < irq_capacity n /\ exists q', mu_spsc_put q x = Ok (SPSC_NONE, q') /\ irqrep n q' (l ++ [x])) \/
  (Z.of_nat (length l) = irq_capacity n /\ mu_spsc_put q x = Ok (SPSC_FULL, q)).
Proof.
  intros [[Hr Hc]|(Hc & -> & Hm & Hh & Ht)].
  - destruct (spsc_put_ok n q l x Hr) as (e & q' & E & [(H1 & -> & H2)|(H1 & -> & ->)]).
    + left. split; [lia|]. exists q'. split; [done|]. left. done.
    + right. split; [lia|done].
  - right. split; [done|]. unfold mu_spsc_put. rewrite Hm, Hh, Ht. done.
Qed.
Lemma irq_get_ok n q l : irqrep n q l ->
  (l = [] /\ mu_spsc_get q = Ok (SPSC_EMPTY, NULL, q)) \/
  (exists x l' q', l = x :: l' /\ mu_spsc_get q = Ok (SPSC_NONE, x, q') /\ irqrep n q' l').
Proof.
  intros [[Hr Hc]|(Hc & -> & Hm & Hh & Ht)].
  - destruct (spsc_get_ok n q l Hr) as [?|(x & l' & q' & H1 & H2 & H3)]; [by left|]. right.
    exists x, l', q'. split; [done|]. split; [done|]. by left.
  - left. split; [done|]. unfold mu_spsc_get. rewrite Hh, Ht. done.
Qed.
Lemma irq_reset_ok n q l : irqrep n q l -> irqrep n (snd (mu_spsc_reset q)) [].
Proof.
  intros [[Hr Hc]|(Hc & -> & Hm & Hh & Ht)].
  - left. split; [|done]. by eapply reset_rep.
  - right. done.
Qed.
Lemma pow2_log2 n : 2 <= n -> (2 ^ Z.log2 n = n <-> exists k, 1 <= k /\ n = 2 ^ k).
Proof.
  intros Hn. split.
  - intros H. exists (Z.log2 n). split; [|done]. apply Z.log2_le_pow2; lia.
  - intros (k & Hk & ->). by rewrite Z.log2_pow2 by lia.
Qed.
Lemma irq_init_ok n q store l : 1 <= n <= 65535 -> Z.of_nat (length store) = n -> 
  (irqrep n q l \/ (s_mask q = 0 /\ s_head q = 0 /\ s_tail q = 0)) ->
  irqrep n (snd (mu_spsc_init q store (to_u16 n))) [].
Proof.
  intros Hn Hl Hq. unfold to_u16. rewrite Z.mod_small by lia.
  destruct (mu_spsc_init q store n) as [e q'] eqn:E. simpl.
  assert (Hdec : (e = SPSC_NONE /\ irq_capacity n = n - 1) \/ (q' = q /\ irq_capacity n = 0)).
  { unfold mu_spsc_init in E. unfold irq_capacity.
    destruct (Z.ltb_spec n 2).
    - right. simpl in E. injection E as <- <-. split; [done|]. destruct (Z.leb_spec 2 n); [lia|done].
    - destruct (Z.leb_spec 2 n); [|lia]. simpl. unfold IS_POWER_OF_TWO in E.
      destruct (Z.eqb_spec (Z.land n (n - 1)) 0) as [Hp|Hp]; simpl in E; injection E as <- <-.
      + left. split; [done|]. destruct (land_pow2 n) as (k & Hk & Hsz); [lia|done|].
        assert (1 <= k). { destruct (decide (k = 0)) as [->|]; [simpl in Hsz; lia|lia]. }
        destruct (Z.eqb_spec (2 ^ Z.log2 n) n); [done|]. exfalso. apply n0. apply pow2_log2; [lia|eauto].
      + right. split; [done|]. destruct (Z.eqb_spec (2 ^ Z.log2 n) n) as [He|]; [|done]. exfalso. apply Hp.
        apply pow2_log2 in He as (k & Hk & ->); [|lia]. apply pow2_land. lia. }
  destruct Hdec as [[-> Hc]|[-> Hc]].
  - left. split; [|done]. eapply init_rep; try done. lia.
  - right. split; [done|]. split; [done|].
    destruct Hq as [[[Hr Hc']|(_ & _ & ?)]|?]; try done.
    exfalso. pose proof (srep_bounds n q l Hr). lia.
Qed.

(** ** the scheduler state *)
Section refine.
Context (cf : config) (Hcf : config_ok cf).
Notation p := (plat_ cf).
Notation DC := (by_time (precedes cf)).

Definition schedrep (s : sched) (a : asched) : Prop :=
  irqrep (MAX_IRQ cf) (sc_irq s) (a_irq a) /\
  qrep p (sc_immed s) (a_imm a) /\ q_cap (sc_immed s) = MAX_IMMED cf /\
  drep (MAX_DEFERRED cf) (sc_deferred s) (sc_dcount s) (a_def a) /\
  sc_curr s = a_curr a /\ sc_idle s = a_idle a.

Lemma immed_ok s a t : schedrep s a ->
  (Z.of_nat (length (a_imm a)) < MAX_IMMED cf /\ exists s', mu_sched_immed cf t s = Ok (SCHED_NONE, s') /\
     schedrep s' (a_with_imm a (a_imm a ++ [t]))) \/
  (Z.of_nat (length (a_imm a)) = MAX_IMMED cf /\ mu_sched_immed cf t s = Ok (SCHED_FULL, s)).
Proof.
  intros (Hi & Hq & Hc & Hd & H1 & H2). unfold mu_sched_immed.
  destruct (put_ok p (sc_immed s) (a_imm a) t Hq) as (b & q' & -> & Hc' & [(Hl & -> & Hq')|(Hl & -> & ->)]); cbn [bind negb].
  - left. split; [lia|]. eexists. split; [done|]. split_and!; try done. simpl. congruence.
  - right. split; [lia|]. by destruct s.
Qed.

Lemma choose_ok now s a : schedrep s a ->
  exists s', step_choose cf now s = Ok s' /\
    let '(t, _, a') := choose cf DC now a in sc_curr s' = t /\ schedrep s' (a_with_curr a' t).
Proof.
  intros (Hi & Hq & Hc & Hd & H1 & H2). unfold step_choose, step_rest, choose.
  destruct (irq_get_ok _ _ _ Hi) as [(Hn & ->)|(x & l' & q' & Hn & -> & Hi')]; rewrite Hn; cbn [bind].
  2:{ eexists. split; [done|]. simpl. split; [done|]. split_and!; done. }
  destruct Hcf as (HMD & _).
  destruct s as [irq immed d cnt curr idle]. simpl in *.
  destruct (fetch_ok cf d cnt (a_def a) now irq immed NULL idle ltac:(lia) Hd) as [E Hd'].
  unfold with_curr, with_irq. cbn [sc_irq sc_immed sc_deferred sc_dcount sc_curr sc_idle]. rewrite E. cbn [bind].
  clear E. cbn [sc_irq sc_immed sc_deferred sc_dcount sc_curr sc_idle].
  set (D := due cf DC now (a_def a)) in *.
  set (l' := match D with Some (_, l') => l' | None => a_def a end) in *.
  set (t := match D with Some (t, _) => t | None => NULL end) in *.
  assert (HD : match D with Some (t, rest) => (t, [t], a_with_def a rest) | None => (NULL, [], a) end =
     (t, match D with Some (t, _) => [t] | None => [] end, a_with_def a l')).
  { subst l' t. destruct D as [[]|]; [done|]. by destruct a. }
  rewrite HD. clear HD. set (gone := match D with Some (t, _) => [t] | None => [] end).
  destruct (Z.eqb_spec t NULL) as [He|Hne]; cbn [negb].
  - rewrite decide_False by (by intros ?). cbn [a_with_def a_imm a_idle].
    unfold mu_queue_get.
    destruct (access_ok p immed (a_imm a) true Hq) as [(Hm & ->)|(x & im & q' & Hm & -> & Hcq & Hq')]; rewrite Hm; cbn [bind].
    + eexists. split; [done|]. unfold with_curr, with_immed. cbn [sc_irq sc_immed sc_deferred sc_dcount sc_curr sc_idle]. split; [done|].
      unfold schedrep, a_with_curr. cbn [sc_irq sc_immed sc_deferred sc_dcount sc_curr sc_idle a_irq a_imm a_def a_curr a_idle a_with_def]. rewrite Hn, Hm in *. split_and!; done.
    + eexists. split; [done|]. unfold with_curr, with_immed. cbn [sc_irq sc_immed sc_deferred sc_dcount sc_curr sc_idle]. split; [done|].
      unfold schedrep, a_with_curr. cbn [sc_irq sc_immed sc_deferred sc_dcount sc_curr sc_idle a_irq a_imm a_def a_curr a_idle a_with_def a_with_imm]. rewrite Hn in *. split_and!; try done. congruence.
  - rewrite decide_True by done. eexists. split; [done|]. cbn [sc_curr]. split; [done|].
    unfold schedrep, a_with_curr. cbn [sc_irq sc_immed sc_deferred sc_dcount sc_curr sc_idle a_irq a_imm a_def a_curr a_idle a_with_def]. rewrite Hn in *. split_and!; done.
Qed.

(** what the waiting library calls do when the user function returns *)
Definition denote (f : frame) : world sched -> prog sched obs :=
  match f with
  | FStepHook t => fun w => PCall (UTask (t_fn (w_tasks w t)) t) w
      (fun w => PRet RUnit (with_sys w (with_curr (w_sys w) NULL)))
  | FStepFn t => fun w => PRet RUnit (with_sys w (with_curr (w_sys w) NULL))
  | FCallHook t => fun w => PCall (UTask (t_fn (w_tasks w t)) t) w (fun w => PRet RUnit w)
  | FCallFn t => fun w => PRet RUnit w
  | FState t s => fun w => PRet (RTask t)
      (with_tasks w (tput (w_tasks w) t (MkTask (t_fn (w_tasks w t)) s (t_info (w_tasks w t)))))
  | FTransfer t => fun w =>
      pbind (plift (mu_sched_immed cf t (w_sys w)) (fun '(e, s) => PRet e (with_sys w s))) (fun a w => PRet (RErr a) w)
  end.

Definition wrep (w : world sched) (v : world asched) : Prop :=
  w_tasks w = w_tasks v /\ w_set_state_hook w = w_set_state_hook v /\ w_call_hook w = w_call_hook v /\
  w_transfer_hook w = w_transfer_hook v /\ schedrep (w_sys w) (w_sys v).
Definition mrep (m : machine) (s : astate) : Prop :=
  wrep (m_w m) (as_w s) /\ Forall2 (fun k f => k = denote f) (m_stack m) (as_stack s).

Lemma wrep_sys w v s a : wrep w v -> schedrep s a -> wrep (with_sys w s) (with_sys v a).
Proof. intros (H1 & H2 & H3 & H4 & _) H. by split_and!. Qed.

Definition ok_step (pr : prog sched obs) (stk : list (world sched -> prog sched obs)) (r : aout) : Prop :=
  exists m', settle pr stk = Ok (m', ao_evs r) /\ mrep m' (ao_state r).

Lemma ok_ret w v o stk fs i q d : wrep w v -> Forall2 (fun k f => k = denote f) stk fs ->
  ok_step (PRet o w) stk (with_out (ret v fs o) i q d).
Proof. intros Hw Hs. eexists. split; [done|]. by split. Qed.
Lemma ok_ret' w v o stk fs : wrep w v -> Forall2 (fun k f => k = denote f) stk fs ->
  ok_step (PRet o w) stk (ret v fs o).
Proof. intros Hw Hs. eexists. split; [done|]. by split. Qed.
Lemma ok_call w v c k f stk fs i q d : wrep w v -> Forall2 (fun k f => k = denote f) stk fs -> k = denote f ->
  ok_step (PCall c w k) stk (with_out (call v fs (f, ECall c)) i q d).
Proof. intros Hw Hs Hk. eexists. split; [done|]. split; [done|]. by constructor. Qed.
Lemma ok_call' w v c k f stk fs : wrep w v -> Forall2 (fun k f => k = denote f) stk fs -> k = denote f ->
  ok_step (PCall c w k) stk (call v fs (f, ECall c)).
Proof. intros Hw Hs Hk. eexists. split; [done|]. split; [done|]. by constructor. Qed.

Lemma ok_immed w v t stk fs : wrep w v -> Forall2 (fun k f => k = denote f) stk fs ->
  ok_step (simple w (mu_sched_immed cf t (w_sys w)) RErr) stk (a_immed cf v fs t).
Proof.
  intros Hw Hs. unfold simple, a_immed. pose proof Hw as (_ & _ & _ & _ & Hr).
  destruct (immed_ok _ _ t Hr) as [(Hl & s' & -> & Hr')|(Hl & ->)]; cbn [plift].
  - rewrite decide_True by done. apply ok_ret; [|done]. by apply wrep_sys.
  - rewrite decide_False by lia. apply ok_ret'; [|done]. destruct Hw as (?&?&?&?&?). by split_and!.
Qed.

Lemma mstep_ok m s l : mrep m s ->
  exists m', mstep cf m l = Ok (m', ao_evs (astep cf DC s l)) /\ mrep m' (ao_state (astep cf DC s l)).
Proof.
  destruct m as [w stk], s as [v fs]. intros [Hw Hs]. cbn [m_w m_stack as_w as_stack] in *.
  pose proof Hw as (Ht & Hh1 & Hh2 & Hh3 & Hr). pose proof Hr as (Hi & Hq & Hc & Hd & Hcu & Hid).
  pose proof Hcf as (HMD & HMI & HMM & HV).
  destruct l as [o| |tm]; cbn [mstep astep m_w m_stack as_w as_stack].
  - change (ok_step (api cf o w) stk (aop cf DC v fs o)).
    destruct o; cbn [api aop].
    + (* init *)
      apply ok_ret; [|done]. apply wrep_sys; [done|]. unfold mu_sched_init.
      pose proof (irq_init_ok (MAX_IRQ cf) (sc_irq (w_sys w)) (replicate (Z.to_nat (MAX_IRQ cf)) 0) _ HMI
         ltac:(rewrite replicate_length; lia) (or_introl Hi)) as Hi'.
      destruct (mu_spsc_init _ _ _) as [e irq]. simpl in Hi'.
      split; [done|]. split; [|split; [done|split; [|done]]].
      * apply ring_init; [done|]. simpl. rewrite replicate_length. lia.
      * destruct Hd as (Hl & _ & _). split; [done|]. split; [done|]. eexists. done.
    + (* reset *)
      apply ok_ret; [|done]. apply wrep_sys; [done|]. unfold mu_sched_reset.
      pose proof (irq_reset_ok _ _ _ Hi) as Hi'. destruct (mu_spsc_reset _) as [e irq]. simpl in Hi'.
      split; [done|]. split; [|split; [done|split; [|done]]].
      * by eapply ring_reset.
      * destruct Hd as (Hl & _ & _). split; [done|]. split; [done|]. eexists. done.
    + (* step *)
      unfold mu_sched_step. destruct (choose_ok now _ _ Hr) as (s' & -> & Hch). cbn [plift]. unfold step_call.
      destruct (choose cf DC now (w_sys v)) as [[t gone] a'] eqn:Ech. destruct Hch as [Hct Hr'].
      unfold mu_task_call, enter. rewrite Hct. cbn [with_sys w_call_hook].
      destruct (Z.eqb_spec t NULL) as [->|Hne]; cbn [negb].
      * rewrite decide_True by done. apply ok_ret; [|done]. cbn [with_sys w_sys].
        destruct Hr' as (?&?&?&?&?&?). by split_and!.
      * rewrite decide_False by done. rewrite <- Hh2, <- Ht.
        destruct (Z.eqb_spec (w_call_hook w) NULL) as [Hz|Hnz]; cbn [negb].
        -- rewrite decide_True by done. apply ok_call; [|done|done]. by apply (wrep_sys w v).
        -- rewrite decide_False by done. apply ok_call; [|done|done]. by apply (wrep_sys w v).
    + (* set_idle *) apply ok_ret'; [|done]. apply wrep_sys; [done|]. by split_and!.
    + (* get_idle *) unfold mu_sched_get_idle_task. rewrite Hid. by apply ok_ret'.
    + (* current *) unfold mu_sched_current_task. rewrite Hcu. by apply ok_ret'.
    + (* next *) destruct (w_sys w) as [irq immed d cnt curr idle] eqn:Es. simpl in Hd.
      rewrite (next_ok cf d cnt (a_def (w_sys v))) by (done || lia). cbn [plift]. by apply ok_ret'.
    + (* wait *) by apply ok_ret'.
    + (* transfer *) unfold mu_sched_transfer, mu_task_call_transfer_hook. rewrite <- Hh3.
      destruct (Z.eqb_spec (w_transfer_hook w) NULL) as [Hz|Hnz]; cbn [negb].
      * rewrite decide_True by done. pose proof (ok_immed w v t stk fs Hw Hs) as Hx.
        unfold simple, pmap in *. cbn [pbind]. destruct (mu_sched_immed cf t (w_sys w)) as [[e s']| |]; done.
      * rewrite decide_False by done. apply ok_call'; done.
    + (* immed *) by apply ok_immed.
    + (* isr *) unfold simple, mu_sched_from_isr.
      destruct (irq_put_ok _ _ _ t Hi) as [(Hl & q' & -> & Hi')|(Hl & ->)]; cbn [bind plift].
      * rewrite decide_True by done. apply ok_ret; [|done]. apply wrep_sys; [done|]. by split_and!.
      * rewrite decide_False by lia. apply ok_ret'; [|done]. destruct (w_sys w) eqn:E. simpl. by split_and!; rewrite ?E.
    + (* defer *) unfold simple, mu_sched_defer_until, a_defer. destruct (w_sys w) as [irq immed d cnt curr idle] eqn:Es. simpl in *.
      destruct (defer_ok cf d cnt (a_def (w_sys v)) t at_ irq immed curr idle HMD Hd) as [(Hl & d' & -> & Hd')|(Hl & ->)]; cbn [plift].
      * rewrite decide_True by done. apply ok_ret; [|done]. apply wrep_sys; [done|]. by split_and!.
      * rewrite decide_False by lia. apply ok_ret'; [|done]. by split_and!.
    + (* defer_for *) unfold simple, mu_sched_defer_for, a_defer. destruct (w_sys w) as [irq immed d cnt curr idle] eqn:Es. simpl in *.
      destruct (defer_ok cf d cnt (a_def (w_sys v)) t (offset cf now dt) irq immed curr idle HMD Hd) as [(Hl & d' & -> & Hd')|(Hl & ->)]; cbn [plift].
      * rewrite decide_True by done. apply ok_ret; [|done]. apply wrep_sys; [done|]. by split_and!.
      * rewrite decide_False by lia. apply ok_ret'; [|done]. by split_and!.
    + (* remove *) unfold simple. destruct (w_sys w) as [irq immed d cnt curr idle] eqn:Es. simpl in *.
      destruct (remove_ok cf d cnt (a_def (w_sys v)) t irq immed curr idle HMD Hd) as (d' & -> & Hd'). cbn [plift].
      apply ok_ret; [|done]. apply wrep_sys; [done|]. by split_and!.
    + (* call *) unfold mu_task_call, enter. destruct (Z.eqb_spec t NULL) as [->|Hne]; cbn [negb].
      * rewrite decide_True by done. by apply ok_ret'.
      * rewrite decide_False by done. rewrite <- Hh2, <- Ht.
        destruct (Z.eqb_spec (w_call_hook w) NULL) as [Hz|Hnz]; cbn [negb].
        -- rewrite decide_True by done. by apply ok_call'.
        -- rewrite decide_False by done. by apply ok_call'.
    + (* set_state *) unfold mu_task_set_state. destruct (Z.eqb_spec t NULL) as [->|Hne]; cbn [negb].
      * rewrite decide_True by done. by apply ok_ret'.
      * rewrite decide_False by done. rewrite <- Hh1, <- Ht.
        destruct (Z.eqb_spec (w_set_state_hook w) NULL) as [Hz|Hnz]; cbn [negb].
        -- rewrite decide_True by done. apply ok_ret'; [|done]. split_and!; try done.
        -- rewrite decide_False by done. by apply ok_call'.
    + (* hooks *) apply ok_ret'; [|done]. by split_and!.
  - destruct Hs as [|k f stk fs -> Hs].
    { eexists. split; [done|]. split; [done|]. constructor. }
    change (ok_step (denote f w) stk (areturn cf v fs f)).
    destruct f; cbn [denote areturn].
    + rewrite <- Ht. by apply ok_call'.
    + apply ok_ret'; [|done]. apply wrep_sys; [done|]. by split_and!.
    + rewrite <- Ht. by apply ok_call'.
    + by apply ok_ret'.
    + rewrite <- Ht. apply ok_ret'; [|done]. by split_and!.
    + pose proof (ok_immed w v t stk fs Hw Hs) as Hx. unfold simple in Hx.
      destruct (mu_sched_immed cf t (w_sys w)) as [[e s']| |]; done.
  - eexists. split; [done|]. split; [|done]. by split_and!.
Qed.

Lemma mrun_ok : forall ls m s, mrep m s ->
  exists m', mrun cf m ls = Ok (m', snd (arun cf DC s ls)) /\ mrep m' (fst (arun cf DC s ls)).
Proof.
  induction ls as [|l ls IH]; intros m s Hm; cbn [mrun arun].
  - eauto.
  - destruct (mstep_ok m s l Hm) as (m1 & -> & Hm1). cbn [bind].
    destruct (IH m1 _ Hm1) as (m2 & -> & Hm2). cbn [bind].
    destruct (arun cf DC (ao_state (astep cf DC s l)) ls) as [s' es]. simpl in *. eauto.
Qed.

Lemma machine0_ok tm : mrep (machine0 cf tm) (astate0 tm).
Proof.
  pose proof Hcf as (HMD & HMI & HMM & HV). unfold int_max in *.
  split; [|constructor]. split_and!; try done. unfold machine0. cbn [m_w w_sys].
  unfold mu_sched_init, sched_static.
  pose proof (irq_init_ok (MAX_IRQ cf) (MkS [] 0 0 0) (replicate (Z.to_nat (MAX_IRQ cf)) 0) [] HMI
         ltac:(rewrite replicate_length; lia) ltac:(right; done)) as Hi'.
  cbn [sc_irq]. destruct (mu_spsc_init _ _ _) as [e irq]. simpl in Hi'.
  split; [done|]. split; [|split; [done|split; [|done]]].
  - apply ring_init; [done|]. simpl. rewrite replicate_length. lia.
  - split; [|split; [done|]]; [simpl; rewrite replicate_length; lia|]. eexists. done.
Qed.
End refine.
