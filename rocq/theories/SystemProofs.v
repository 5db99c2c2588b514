(** * The linked system refines its specification *)
From Verif Require Import CSem FifoSpec Ring QueueModel SpscModel MqueueModel MqueueSpec TaskModel SchedModel SchedSpec SchedProofs.
From Verif Require Import SystemModel SystemSpec.

Definition qrep1 (p : plat) (m : mmq) (c : qconf) (l : list Z) : Prop :=
  ringrep p (m_store m) (m_cap m) (m_cnt m) (m_index m) l /\
  m_cap m = qc_cap c /\ m_on_put m = qc_put c /\ m_on_get m = qc_get c.

(** a queue call up to the notification: the queue and the task to notify *)
Lemma qput_ok p m c l x : qrep1 p m c l ->
  exists m', mu_mqueue_put p note (fun z => z) m NULL x =
     Ok (match fst (fifo_step (qc_cap c) l (QPut x)) with QBool b => b | _ => false end, m',
         notify_of (qc_put c) (qc_get c) (QPut x) (fst (fifo_step (qc_cap c) l (QPut x)))) /\
    qrep1 p m' c (snd (fifo_step (qc_cap c) l (QPut x))).
Proof.
  intros (Hr & Hc & Hp & Hg). pose proof (ring_bounds _ _ _ _ _ _ Hr) as Hb.
  unfold mu_mqueue_put, mu_mqueue_is_full. cbn [fifo_step].
  destruct (Z.eqb_spec (m_cnt m) (m_cap m)) as [He|Hne]; cbn [negb].
  - destruct (Z.ltb_spec (Z.of_nat (length l)) (qc_cap c)); [lia|]. exists m. done.
  - destruct (Z.ltb_spec (Z.of_nat (length l)) (qc_cap c)); [|lia]. cbn [fst snd notify_of].
    destruct (ring_put p _ _ _ _ _ x Hr) as (s' & -> & Hr'); [lia|]. cbn [bind].
    unfold umod. destruct (Z.eqb_spec (m_cap m) 0); [lia|]. cbn [bind]. rewrite !to_size_id by lia.
    cbn [m_on_put]. destruct (Z.eqb_spec (m_on_put m) 0) as [Hz|Hz]; cbn [negb note bind]; eexists.
    + split; [by rewrite <- Hp, Hz|]. split; [exact Hr'|]. cbn [m_cap m_on_put m_on_get]. repeat split; congruence.
    + split; [by rewrite <- Hp|]. split; [exact Hr'|]. cbn [m_cap m_on_put m_on_get]. repeat split; congruence.
Qed.
Lemma qget_ok p m c l : qrep1 p m c l ->
  exists m' b e, fst (fifo_step (qc_cap c) l QGet) = QItem b e /\
    mu_mqueue_get p note (fun _ z => z) m NULL =
     Ok (b, e, m', notify_of (qc_put c) (qc_get c) QGet (QItem b e)) /\
    qrep1 p m' c (snd (fifo_step (qc_cap c) l QGet)).
Proof.
  intros (Hr & Hc & Hp & Hg). pose proof (ring_bounds _ _ _ _ _ _ Hr) as Hb.
  unfold mu_mqueue_get, maccess_queue, mu_mqueue_is_empty. destruct l as [|x l]; simpl in Hb.
  - destruct (Z.eqb_spec (m_cnt m) 0); [|lia]. cbn [negb]. exists m, false, 0. done.
  - destruct (Z.eqb_spec (m_cnt m) 0); [lia|]. cbn [negb].
    pose proof (ring_oldest p _ _ _ _ _ _ Hr) as Ho. unfold ring_idx in Ho. cbv zeta in Ho |- *. rewrite Ho. cbn [bind].
    rewrite to_size_id by lia. pose proof (ring_get p _ _ _ _ _ _ Hr) as Hr'. cbn [m_on_get fifo_step fst snd].
    destruct (Z.eqb_spec (m_on_get m) 0) as [Hz|Hz]; cbn [negb note bind notify_of]; eexists _, true, x; (split; [done|]).
    + split; [by rewrite <- Hg, Hz|]. split; [exact Hr'|]. cbn [m_cap m_on_put m_on_get]. repeat split; congruence.
    + split; [by rewrite <- Hg|]. split; [exact Hr'|]. cbn [m_cap m_on_put m_on_get]. repeat split; congruence.
Qed.
Lemma qpeek_ok p m c l : qrep1 p m c l ->
  exists b e t, fst (fifo_step (qc_cap c) l QPeek) = QItem b e /\ snd (fifo_step (qc_cap c) l QPeek) = l /\
    mu_mqueue_peek p note (fun _ z => z) m NULL = Ok (b, e, m, t).
Proof.
  intros (Hr & Hc & Hp & Hg). pose proof (ring_bounds _ _ _ _ _ _ Hr) as Hb.
  unfold mu_mqueue_peek, maccess_queue, mu_mqueue_is_empty. destruct l as [|x l]; simpl in Hb.
  - destruct (Z.eqb_spec (m_cnt m) 0); [|lia]. cbn [negb]. exists false, 0, NULL. done.
  - destruct (Z.eqb_spec (m_cnt m) 0); [lia|]. cbn [negb].
    pose proof (ring_oldest p _ _ _ _ _ _ Hr) as Ho. unfold ring_idx in Ho. cbv zeta in Ho |- *. rewrite Ho. cbn [bind].
    exists true, x, NULL. done.
Qed.

Section refine.
Context (cf : config) (qc : Z -> qconf) (Hcf : config_ok cf).
Notation p := (plat_ cf).

Definition wsrep (w : world sys) (s : ssys) : Prop :=
  wrep cf (down w) (ss_w s) /\ forall q, qrep1 p (y_q (w_sys w) q) (qc q) (ss_q s q).
(** waiting library calls; functions of the world are compared pointwise *)
Definition sdenote (f : sframe) (w : world sys) : prog sys sobs :=
  match f with
  | FS f => wrap SRes (embed (y_q (w_sys w)) (denote cf f (down w)))
  | FQHook q t r => PCall (UTask (t_fn (w_tasks w t)) t) w (fun w => PRet (SQRes r) w)
  | FQFn q t r => PRet (SQRes r) w
  end.
Definition smrep (m : smach) (s : ssys) : Prop :=
  wsrep (sm_w m) s /\ Forall2 (fun k f => forall w, k w = sdenote f w) (sm_stack m) (ss_stack s).

Lemma up_down w : up (y_q (w_sys w)) (down w) = w.
Proof. by destruct w as [? ? ? ? []]. Qed.
Lemma down_up qs w : down (up qs w) = w.
Proof. by destruct w. Qed.

(** one step of the scheduler's machine with an empty stack, inside the system *)
Lemma lift_ok (pr : prog sched obs) (w : world sys) (s : ssys) (stk : list (world sys -> prog sys sobs)) (fs : list sframe) m' r :
  settle pr [] = Ok (m', ao_evs r) -> mrep cf m' (ao_state r) ->
  (forall q, qrep1 p (y_q (w_sys w) q) (qc q) (ss_q s q)) ->
  Forall2 (fun k f => forall w, k w = sdenote f w) stk fs ->
  exists sm, ssettle (wrap SRes (embed (y_q (w_sys w)) pr)) stk = Ok (sm, snd (lift s fs r)) /\
    smrep sm (fst (lift s fs r)).
Proof.
  intros Hs Hm Hq Hstk. unfold lift. cbn [fst snd].
  destruct pr as [o w'|c w' k| |]; try discriminate; cbn [settle] in Hs; injection Hs as <- He.
  - destruct Hm as [Hw Hf]. cbn [m_w m_stack] in *. rewrite <- He. cbn [embed wrap pbind ssettle map sevent_of].
    eexists. split; [reflexivity|]. apply Forall2_nil_inv_l in Hf as Hn. rewrite Hn.
    split; [|done]. split; [cbn [sm_w]; rewrite (down_up (y_q (w_sys w)) w'); exact Hw|]. exact Hq.
  - destruct Hm as [Hw Hf]. cbn [m_w m_stack] in *. rewrite <- He. cbn [embed wrap pbind ssettle map sevent_of].
    eexists. split; [reflexivity|]. apply Forall2_cons_inv_l in Hf as (f & fs' & -> & Hks & Hn). apply Forall2_nil_inv_l in Hks as ->. rewrite Hn.
    cbn [map app]. split; [split; [cbn [sm_w]; rewrite (down_up (y_q (w_sys w)) w'); exact Hw|exact Hq]|]. cbn [sm_stack ss_stack].
    constructor; [|done]. intros w0. done.
Qed.

Lemma sstep_ok m s l : smrep m s ->
  exists m', sstep cf m l = Ok (m', snd (s_step cf qc s l)) /\ smrep m' (fst (s_step cf qc s l)).
Proof.
  intros [[Hw Hq] Hstk]. destruct m as [w stk]. cbn [sm_w sm_stack] in *.
  destruct l as [[o| |tm]|q o]; cbn [sstep s_step sm_w sm_stack].
  - destruct (mstep_ok cf Hcf (SchedModel.MkM (down w) []) (MkAs (ss_w s) []) (LOp o)) as (m' & E & Hm').
    { split; [done|constructor]. }
    cbn [mstep astep m_w SchedModel.m_stack as_w as_stack] in E, Hm'.
    eapply lift_ok; eauto.
  - destruct stk as [|k ks].
    { apply Forall2_nil_inv_l in Hstk as Hn. rewrite Hn. exists (MkSM w []). split; [done|]. split; [by split|]. cbn [fst]. rewrite Hn. constructor. }
    apply Forall2_cons_inv_l in Hstk as (f & fs & Hk & Hks & Hn). rewrite Hn.
    destruct f as [f|q t r|q t r].
    + destruct (mstep_ok cf Hcf (SchedModel.MkM (down w) [denote cf f]) (MkAs (ss_w s) [f]) LReturn) as (m' & E & Hm').
      { split; [done|]. by constructor. }
      cbn [mstep astep m_w SchedModel.m_stack as_w as_stack] in E, Hm'.
      rewrite Hk. cbn [sdenote]. eapply lift_ok; eauto.
    + rewrite Hk. cbn [sdenote ssettle fst snd]. destruct Hw as (Ht & Hw).
      eexists. split; [by rewrite <- Ht|].
      split; [split; [by split|done]|]. cbn [sm_stack ss_stack]. by constructor.
    + rewrite Hk. cbn [sdenote ssettle fst snd]. eexists. split; [reflexivity|]. by split.
  - eexists. split; [reflexivity|]. destruct Hw as (Ht & Hw). split; [|done]. split; [by split|done].
  - (* queue calls *)
    set (m := y_q (w_sys w) q). pose proof (Hq q) as Hq0. fold m in Hq0. pose proof Hq0 as (Hr & Hc & Hp & Hg).
    pose proof (ring_bounds _ _ _ _ _ _ Hr) as Hb.
    (* the notification *)
    assert (HN : forall r l m' t, fifo_step (qc_cap (qc q)) (ss_q s q) o = (r, l) -> qrep1 p m' (qc q) l ->
      t = notify_of (qc_put (qc q)) (qc_get (qc q)) o r ->
      exists sm, ssettle (wrap SQRes (notify t (set_q w q m') r)) stk = Ok (sm, snd (s_step cf qc s (SQ q o))) /\
        smrep sm (fst (s_step cf qc s (SQ q o)))).
    { intros r l m' t Ef Hm' ->. cbn [s_step]. rewrite Ef. clear Ef.
      set (t := notify_of _ _ _ _). destruct Hw as (Ht & Hh1 & Hh2 & Hh3 & Hsr).
      assert (HW : forall fs, wsrep (set_q w q m') (MkSS (ss_w s) (upd (ss_q s) q l) fs)).
      { intros fs. split; [by split|]. intros a. cbn [set_q with_sys w_sys y_q ss_q]. unfold upd.
        destruct (Z.eqb_spec a q) as [->|]; [done|apply Hq]. }
      unfold notify, mu_task_call.
      destruct (Z.eqb_spec t NULL) as [E|E]; cbn [negb].
      { rewrite decide_True by done. eexists. split; [reflexivity|]. split; [apply HW|done]. }
      rewrite decide_False by done. cbn [w_call_hook set_q with_sys]. cbn [down w_call_hook] in Hh2. rewrite <- Hh2.
      destruct (Z.eqb_spec (w_call_hook w) NULL) as [E2|E2]; cbn [negb].
      - rewrite decide_True by done. cbn [pbind ucallp wrap ssettle fst snd w_tasks]. cbn [down w_tasks] in Ht. rewrite <- Ht.
        eexists. split; [reflexivity|]. split; [apply HW|]. cbn [sm_stack ss_stack]. by constructor.
      - rewrite decide_False by done. cbn [pbind ucallp wrap ssettle fst snd].
        eexists. split; [reflexivity|]. split; [apply HW|]. cbn [sm_stack ss_stack]. by constructor. }
    assert (HQ : forall r, fifo_step (qc_cap (qc q)) (ss_q s q) o = (r, ss_q s q) ->
      notify_of (qc_put (qc q)) (qc_get (qc q)) o r = NULL ->
      (forall qs, (forall a, qs a = y_q (w_sys w) a) ->
      exists sm, Ok (MkSM (with_sys w (MkSys (y_sched (w_sys w)) qs)) stk, [SRet (SQRes r)]) = Ok (sm, snd (s_step cf qc s (SQ q o))) /\
        smrep sm (fst (s_step cf qc s (SQ q o))))).
    { intros r Ef Hn qs Hqs. cbn [s_step]. rewrite Ef, Hn. rewrite decide_True by done. eexists. split; [reflexivity|].
      split; [|done]. split; [exact Hw|]. intros a. cbn [sm_w with_sys w_sys y_q fst ss_q]. rewrite Hqs. unfold upd.
      destruct (Z.eqb_spec a q) as [->|]; apply Hq. }
    assert (Hself : with_sys w (MkSys (y_sched (w_sys w)) (y_q (w_sys w))) = w) by (by destruct w as [? ? ? ? []]).
    assert (HQ' : forall r, fifo_step (qc_cap (qc q)) (ss_q s q) o = (r, ss_q s q) ->
      notify_of (qc_put (qc q)) (qc_get (qc q)) o r = NULL ->
      exists sm, Ok (MkSM w stk, [SRet (SQRes r)]) = Ok (sm, snd (s_step cf qc s (SQ q o))) /\
        smrep sm (fst (s_step cf qc s (SQ q o)))).
    { intros r Ef Hn. pose proof (HQ r Ef Hn (y_q (w_sys w)) (fun _ => eq_refl)) as HH. rewrite Hself in HH. exact HH. }
    change (exists m', ssettle (wrap SQRes (qapi (plat_ cf) q o w)) stk = Ok (m', snd (s_step cf qc s (SQ q o))) /\
       smrep m' (fst (s_step cf qc s (SQ q o)))).
    destruct o; cbn [qapi]; fold m.
    + destruct (qput_ok p m (qc q) (ss_q s q) x Hq0) as (m' & -> & Hm'). cbn [plift].
      destruct (fifo_step (qc_cap (qc q)) (ss_q s q) (QPut x)) as [r l] eqn:Ef. cbn [fst snd] in *.
      assert (Hrb : QBool match r with QBool b => b | _ => false end = r).
      { cbn [fifo_step] in Ef. destruct (_ <? _); by injection Ef as <- <-. }
      rewrite Hrb. by eapply HN.
    + destruct (qget_ok p m (qc q) (ss_q s q) Hq0) as (m' & b & e & Hf & -> & Hm'). cbn [plift].
      destruct (fifo_step (qc_cap (qc q)) (ss_q s q) QGet) as [r l] eqn:Ef. cbn [fst snd] in *. subst r. by eapply HN.
    + destruct (qpeek_ok p m (qc q) (ss_q s q) Hq0) as (b & e & t & Hf & Hl & ->). cbn [plift wrap pbind ssettle].
      destruct (fifo_step (qc_cap (qc q)) (ss_q s q) QPeek) as [r l] eqn:Ef. cbn [fst snd] in *. subst r l.
      apply HQ; [done|done|]. intros a. destruct (Z.eqb_spec a q) as [->|]; done.
    + cbn [wrap pbind ssettle s_step]. cbn [fifo_step notify_of]. rewrite decide_True by done. eexists. split; [reflexivity|].
      split; [|done]. split; [exact Hw|]. intros a. cbn [sm_w set_q with_sys w_sys y_q fst ss_q]. unfold upd.
      destruct (Z.eqb_spec a q) as [->|]; [|apply Hq]. split; [|done]. by eapply ring_reset.
    + cbn [wrap pbind ssettle]. unfold mu_mqueue_count.
      replace (m_cnt m) with (Z.of_nat (length (ss_q s q))) by lia. by apply HQ'.
    + cbn [wrap pbind ssettle]. unfold mu_mqueue_capacity. rewrite Hc. by apply HQ'.
    + cbn [wrap pbind ssettle]. unfold mu_mqueue_is_empty.
      replace (m_cnt m =? 0) with (match ss_q s q with [] => true | _ => false end). { by apply HQ'. }
      destruct (ss_q s q); simpl in *; symmetry; [apply Z.eqb_eq|apply Z.eqb_neq]; lia.
    + cbn [wrap pbind ssettle]. unfold mu_mqueue_is_full.
      replace (m_cnt m =? m_cap m) with (Z.of_nat (length (ss_q s q)) =? qc_cap (qc q)). { by apply HQ'. }
      f_equal; lia.
Qed.

Lemma srun_ok : forall ls m s, smrep m s ->
  exists m', srun cf m ls = Ok (m', snd (s_run cf qc s ls)) /\ smrep m' (fst (s_run cf qc s ls)).
Proof.
  induction ls as [|l ls IH]; intros m s H; cbn [srun s_run]; [eauto|].
  destruct (sstep_ok m s l H) as (m1 & -> & H1). cbn [bind]. destruct (s_step cf qc s l) as [s1 e1]. cbn [fst snd] in *.
  destruct (IH m1 s1 H1) as (m2 & -> & H2). cbn [bind]. destruct (s_run cf qc s1 ls) as [s2 es]. eauto.
Qed.
End refine.

Lemma smach0_ok cf tm conf : config_ok cf -> conf_ok cf conf ->
  smrep cf (qconf_of conf) (smach0 cf tm conf) (s_start tm).
Proof.
  intros Hcf Hq. split; [|constructor]. split.
  - destruct (machine0_ok cf Hcf tm) as [Hw _]. exact Hw.
  - intros q. specialize (Hq q). cbn [smach0 sm_w w_sys y_q s_start ss_q]. unfold qstart, qconf_of in *.
    destruct (conf q) as [[sto a] b]. cbn [qc_cap qc_put qc_get] in *. split; [|done].
    by apply ring_init.
Qed.
