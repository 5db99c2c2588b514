(** * mu_sched_reset while interrupts arrive: property C94.

    The machine of SchedIsr.v plus mu_sched_reset (mu_sched.c:98-103), whose accesses to the
    interrupt queue are the two stores of mu_spsc_reset (mu_spsc.c:57 and 58).  Interrupts
    run to completion: the stores are made when no mu_sched_from_isr is in progress.  The
    rest of mu_sched_reset touches private memory only and is part of the second
    transition. *)
From Verif Require Import CSem FifoSpec Ring QueueModel QueueProofs SpscModel SpscProofs SpscMore TaskModel.
From Verif Require Import SchedModel SchedSpec SchedProofs SchedOrder SchedProps SchedIsr.

Record jstate := MkJ { j_i : istate; j_reset : bool }.   (* j_reset: between the two stores *)
Inductive jlabel := JI (il : ilabel) | JResetHead | JResetTail.
(** [JLost t ev]: a mu_sched_from_isr(t) made between the two stores of a reset *)
Inductive jout := JOut (o : iout) | JLost (l : label) (ev : list event).
Definition lost (o : iout) : list jout := match o with Done l ev => [JLost l ev] | Took _ => [] end.

(** mu_sched.c:100-102, after mu_spsc_reset *)
Definition reset_rest (s : sched) : sched :=
  let s := with_immed s (mu_queue_reset (sc_immed s)) in
  let s := with_deferred s (sc_deferred s) 0 in
  with_curr s NULL.
Definition store_head (q : spsc) : spsc := MkS (s_store q) (s_mask q) 0 (s_tail q).
Definition store_tail (q : spsc) : spsc := MkS (s_store q) (s_mask q) (s_head q) 0.

Definition jstep (cf : config) (s : jstate) (jl : jlabel) : res (jstate * list jout) :=
  let i := j_i s in
  match jl, j_reset s with
  | JI il, false => let* '(i, o) := istep cf i il in Ok (MkJ i false, map JOut o)
  | JI il, true =>
      match il with
      | IPut _ | IP => let* '(i, o) := istep cf i il in Ok (MkJ i true, concat (map lost o))
      | _ => Ok (s, [])              (* the main side is inside mu_sched_reset *)
      end
  | JResetHead, false =>
      match i_c i, i_p i with
      | MNone, PIdle => Ok (MkJ (MkI (set_irq (i_m i) (store_head (irq_of (i_m i)))) PIdle MNone) true, [])
      | _, _ => Ok (s, [])
      end
  | JResetTail, true =>
      match i_p i with
      | PIdle =>
          let m := set_irq (i_m i) (store_tail (irq_of (i_m i))) in
          let m := MkM (with_sys (m_w m) (reset_rest (w_sys (m_w m)))) (m_stack m) in
          Ok (MkJ (MkI m PIdle MNone) false, [JOut (Done (LOp OReset) [ERet RUnit])])
      | _ => Ok (s, [])
      end
  | _, _ => Ok (s, [])
  end.
Fixpoint jrun (cf : config) (s : jstate) (jls : list jlabel) : res (jstate * list jout) :=
  match jls with
  | [] => Ok (s, [])
  | jl :: jls => let* '(s, o) := jstep cf s jl in
                 let* '(s, os) := jrun cf s jls in Ok (s, o ++ os)
  end.
Definition jstart (cf : config) (tm : Z -> task) : jstate := MkJ (istart cf tm) false.

(** Without interrupts the two transitions are mu_sched_reset of SchedModel.v. *)
Theorem jreset_alone : forall cf m m' ev,
  mstep cf m (LOp OReset) = Ok (m', ev) ->
  jrun cf (MkJ (MkI m PIdle MNone) false) [JResetHead; JResetTail] =
    Ok (MkJ (MkI m' PIdle MNone) false, [JOut (Done (LOp OReset) ev)]).
Proof. intros cf [w stk] m' ev H. cbn in H. injection H as <- <-. done. Qed.
Print Assumptions jreset_alone.

(** the outputs without those of interrupts during a reset *)
Definition kept1 (o : jout) : list iout := match o with JOut o => [o] | JLost _ _ => [] end.
Definition kept (os : list jout) : list iout := concat (map kept1 os).
Definition lost_ok (o : jout) : Prop :=
  match o with
  | JLost l ev => (exists t, l = LOp (OIsr t)) /\ (ev = [ERet (RErr SCHED_NONE)] \/ ev = [ERet (RErr SCHED_FULL)])
  | _ => True
  end.

Section proof.
Context (cf : config) (Hcf : config_ok cf) (k : Z) (Hk : 1 <= k) (HkM : MAX_IRQ cf = 2 ^ k).
Notation BT := (by_time (precedes cf)).
Notation n := (MAX_IRQ cf).

Definition jinv (s : jstate) (S : astate) (pend : list (label * list event)) : Prop :=
  if j_reset s
  then exists l, i_c (j_i s) = MNone /\ mrep cf (i_m (j_i s)) (set_airq S l) /\
    inv n (MkC (irq_of (i_m (j_i s))) (i_p (j_i s)) CIdle) l /\ s_head (irq_of (i_m (j_i s))) = 0 /\ pend = []
  else iinv cf (j_i s) S pend.

Lemma kept_out os : kept (map JOut os) = os.
Proof. induction os as [|o os IH]; [done|]. unfold kept in *. cbn [map concat kept1 app]. by rewrite IH. Qed.
Lemma kept_lost os : kept (concat (map lost os)) = [].
Proof. induction os as [|[] os IH]; [done|exact IH|]. cbn [map concat lost app]. unfold kept in *. cbn [map concat kept1 app]. exact IH. Qed.
Lemma kept_app a b : kept (a ++ b) = kept a ++ kept b.
Proof. unfold kept. by rewrite map_app, concat_app. Qed.
Lemma lost_ok_out os : Forall lost_ok (map JOut os).
Proof. induction os as [|o os IH]; [apply Forall_nil_2|]. cbn [map]. by apply Forall_cons_2. Qed.
Lemma set_airq_set S l l' : set_airq (set_airq S l) l' = set_airq S l'.
Proof. done. Qed.
Lemma sim_nil S pend : sim cf S pend [] S pend.
Proof. unfold sim. simpl. by rewrite app_nil_r. Qed.

Lemma put_keeps_head q p lab c e : (lab = LP \/ exists t, lab = LPut t) ->
  cstep (MkC q p CIdle) lab = Ok (c, e) -> s_head (c_q c) = s_head q.
Proof.
  intros [->|[t ->]] E; cbn [cstep c_p c_q c_c] in E; destruct p; try (injection E as <- <-; done).
  - destruct (_ =? _); injection E as <- <-; done.
  - destruct (st _ _ _); simpl in E; try discriminate. injection E as <- <-. done.
Qed.

Lemma jput_ok i S l lab il : i_c i = MNone -> mrep cf (i_m i) (set_airq S l) ->
  inv n (MkC (irq_of (i_m i)) (i_p i) CIdle) l -> s_head (irq_of (i_m i)) = 0 ->
  (lab = LP \/ exists t, lab = LPut t) ->
  (forall c e, cstep (MkC (irq_of (i_m i)) (i_p i) CIdle) lab = Ok (c, e) ->
     istep cf i il = Ok (MkI (set_irq (i_m i) (c_q c)) (c_p c) (i_c i), concat (map put_out e))) ->
  exists i' os, istep cf i il = Ok (i', os) /\ jinv (MkJ i' true) S [] /\ Forall lost_ok (concat (map lost os)).
Proof.
  intros Hc Hm Hi H0 Hlab Heq.
  destruct (put_step cf k _ _ _ _ lab Hlab Hi) as (c & e & E & Hcase).
  pose proof (put_keeps_head _ _ _ _ _ Hlab E) as Hh. rewrite (Heq c e E).
  eexists _, _. split; [reflexivity|]. unfold jinv. cbn [j_reset j_i i_c i_m i_p].
  assert (G : forall l', inv n (MkC (c_q c) (c_p c) CIdle) l' ->
    exists l0, i_c i = MNone /\ mrep cf (set_irq (i_m i) (c_q c)) (set_airq S l0) /\
      inv n (MkC (irq_of (set_irq (i_m i) (c_q c))) (c_p c) CIdle) l0 /\
      s_head (irq_of (set_irq (i_m i) (c_q c))) = 0 /\ @nil (label * list event) = []).
  { intros l' Hl. exists l'. split; [done|]. split; [|rewrite irq_set_irq; split; [done|]; split; [congruence|done]].
    rewrite <- (set_airq_set S l l'). eapply mrep_set; [exact Hk|exact HkM|done|]. by destruct Hl. }
  destruct Hcase as [(Ho & Hi' & _)|[(t & Ho & _ & Hi')|(t & Ho & _ & Hi')]]; (split; [by eapply G|]); rewrite Ho.
  - apply Forall_nil_2.
  - apply Forall_cons_2; [|apply Forall_nil_2]. split; [eauto|by left].
  - apply Forall_cons_2; [|apply Forall_nil_2]. split; [eauto|by right].
Qed.

Lemma jstep_sim s S pend jl : jinv s S pend ->
  exists s' os S' pend', jstep cf s jl = Ok (s', os) /\ jinv s' S' pend' /\ Forall lost_ok os /\
    sim cf S pend (kept os) S' pend'.
Proof.
  intros Hi.
  assert (Hskip : exists s' os S' pend', Ok (s, @nil jout) = Ok (s', os) /\ jinv s' S' pend' /\ Forall lost_ok os /\
    sim cf S pend (kept os) S' pend').
  { eexists _, _, S, pend. split; [done|]. split; [done|]. split; [apply Forall_nil_2|]. apply sim_nil. }
  destruct s as [i r]. destruct jl as [il| |]; cbn [jstep j_i j_reset].
  - destruct r.
    + unfold jinv in Hi. cbn [j_reset j_i] in Hi. destruct Hi as (l & Hc & Hm & Hinv & H0 & ->).
      destruct il as [t| | | |]; try apply Hskip.
      * destruct (jput_ok i S l (LPut t) (IPut t) Hc Hm Hinv H0 ltac:(eauto)) as (i' & os & E & Hj & Hl).
        { intros c e E. cbn [istep]. by rewrite E. }
        rewrite E. cbn [bind]. eexists _, _, S, []. split; [reflexivity|]. split; [done|]. split; [done|]. rewrite kept_lost. apply sim_nil.
      * destruct (jput_ok i S l LP IP Hc Hm Hinv H0 ltac:(eauto)) as (i' & os & E & Hj & Hl).
        { intros c e E. cbn [istep]. by rewrite E. }
        rewrite E. cbn [bind]. eexists _, _, S, []. split; [reflexivity|]. split; [done|]. split; [done|]. rewrite kept_lost. apply sim_nil.
    + destruct (istep_sim cf Hcf k Hk HkM i S pend il Hi) as (i' & os & S' & pend' & E & Hi' & Hs).
      rewrite E. cbn [bind]. eexists _, _, S', pend'. split; [reflexivity|]. split; [exact Hi'|].
      split; [apply lost_ok_out|]. by rewrite kept_out.
  - destruct r; [apply Hskip|]. destruct i as [m p c]. cbn [i_c i_p i_m]. destruct c; try apply Hskip. destruct p; try apply Hskip.
    unfold jinv in Hi. cbn [j_reset j_i] in Hi. unfold iinv in Hi. cbn [i_c i_m i_p] in Hi. destruct Hi as (Hm & Hinv & ->).
    destruct Hinv as (Hr & _). cbn [c_q] in Hr. destruct (reset_head_rep _ _ _ Hr) as (l' & Hr').
    eexists _, _, S, []. split; [reflexivity|]. split; [|split; [apply Forall_nil_2|apply sim_nil]].
    unfold jinv. cbn [j_reset j_i i_c i_m i_p]. rewrite irq_set_irq. exists l'. split; [done|].
    split; [by eapply mrep_set; [exact Hk|exact HkM|..]|]. by split_and!.
  - destruct r; [|apply Hskip]. destruct i as [m p c]. cbn [i_c i_p i_m]. destruct p; try apply Hskip.
    unfold jinv in Hi. cbn [j_reset j_i i_c i_m i_p] in Hi. destruct Hi as (l & -> & Hm & Hinv & H0 & ->).
    destruct Hinv as (Hr & _). cbn [c_q] in Hr.
    destruct (mstep_ok cf Hcf m _ (LOp OReset) Hm) as (m' & E & Hm'). assert (Em : m' = MkM (with_sys (m_w m) (mu_sched_reset (w_sys (m_w m)))) (m_stack m)) by (cbn [mstep api settle] in E; destruct m; by injection E as <-). clear E. subst m'.
    assert (Hst : MkM (with_sys (m_w (set_irq m (store_tail (irq_of m)))) (reset_rest (w_sys (m_w (set_irq m (store_tail (irq_of m)))))))
       (m_stack (set_irq m (store_tail (irq_of m)))) = MkM (with_sys (m_w m) (mu_sched_reset (w_sys (m_w m)))) (m_stack m)).
    { unfold store_tail. rewrite H0. done. }
    rewrite Hst. eexists _, _, _, []. split; [reflexivity|]. 
    split; [|split; [by apply Forall_cons_2|]].
    + unfold jinv, iinv. cbn [j_reset j_i i_c i_m i_p]. split; [exact Hm'|]. split; [|done].
      unfold inv. cbn [c_q c_p c_c]. split; [|split; done].
      exact (reset_rep _ _ _ Hr).
    + unfold sim, kept. cbn [map concat kept1 app history hist1 is_step]. rewrite arun_one. cbn [fst snd combine results map concat result1 app]. split; [done|]. split; done.
Qed.
Lemma jrun_sim : forall jls s S pend, jinv s S pend ->
  exists s' os S' pend', jrun cf s jls = Ok (s', os) /\ jinv s' S' pend' /\ Forall lost_ok os /\
    sim cf S pend (kept os) S' pend'.
Proof.
  induction jls as [|jl jls IH]; intros s S pend Hi; cbn [jrun].
  - eexists _, _, S, pend. split; [done|]. split; [done|]. split; [apply Forall_nil_2|]. apply sim_nil.
  - destruct (jstep_sim s S pend jl Hi) as (s1 & o1 & S1 & p1 & -> & Hi1 & Hl1 & Hs1). cbn [bind].
    destruct (IH s1 S1 p1 Hi1) as (s2 & o2 & S2 & p2 & -> & Hi2 & Hl2 & Hs2). cbn [bind].
    eexists _, _, S2, p2. split; [done|]. split; [done|]. split; [by apply Forall_app|]. rewrite kept_app. by eapply sim_trans.
Qed.
End proof.

(** Interrupts may arrive at any moment, also between the accesses of a mu_sched_step and
    between the two stores of a mu_sched_reset.  Nothing is undefined.  The interrupts that
    fell between the two stores got NONE or FULL; with these left out, the results of all
    other calls, [results (kept os)], are those of a sequential execution of the same calls,
    [history (kept os)], with every reset at its second store.  (A step whose mu_spsc_get is
    done but which has not finished is the last call on the main side.) *)
Theorem C94_reset_interrupted : forall cf tm k sched, config_ok cf -> 1 <= k -> MAX_IRQ cf = 2 ^ k ->
  exists st os m evs, jrun cf (jstart cf tm) sched = Ok (st, os) /\ Forall lost_ok os /\
    mrun cf (machine0 cf tm) (history (kept os)) = Ok (m, evs) /\
    let z := combine (history (kept os)) evs in
    on_isr z = on_isr (results (kept os)) /\
    (on_main z = on_main (results (kept os)) \/
     exists now ok v ev, i_c (j_i st) = MGot now ok v /\ on_main z = on_main (results (kept os)) ++ [(LOp (OStep now), ev)]).
Proof.
  intros cf tm k sched Hcf Hk HkM.
  destruct (jrun_sim cf Hcf k Hk HkM sched (jstart cf tm) (astate0 tm) []) as (st & os & S' & pend' & E & Hi & Hl & H1 & H2 & H3).
  { exact (istart_inv cf Hcf k Hk HkM tm). }
  destruct (run_ok cf tm Hcf (history (kept os))) as (m & Em & _).
  exists st, os, m. eexists. split; [done|]. split; [done|]. split; [exact Em|]. cbn zeta. split; [done|]. simpl in H3. rewrite H3.
  unfold jinv in Hi. destruct (j_reset st).
  { destruct Hi as (l & _ & _ & _ & _ & ->). left. by rewrite app_nil_r. }
  unfold iinv in Hi. destruct (i_c (j_i st)) as [|now pc|now ok v] eqn:Ec.
  - destruct Hi as (_ & _ & ->). left. by rewrite app_nil_r.
  - destruct Hi as (_ & _ & _ & ->). left. by rewrite app_nil_r.
  - destruct Hi as (S0 & _ & _ & _ & _ & ->). right. eauto 10.
Qed.
Print Assumptions C94_reset_interrupted.

(** The results of interrupts between the two stores mean nothing: NONE for task 9, which
    never runs; FULL for task 10, though no task at all is queued.  Task 11, after the
    reset, runs. *)
Definition isr (t : Z) : list jlabel := map JI [IPut t; IP; IP; IP; IP; IP].
Definition step (now : Z) : list jlabel := map JI (IMain (LOp (OStep now)) :: repeat IC 6 ++ [ICont; IMain LReturn]).
Theorem C94_reset_interrupted_refuted : exists st,
  jrun ex_cf (jstart ex_cf ex_tm)
    (isr 7 ++ step 0 ++ isr 8 ++ step 0 ++ [JResetHead] ++ isr 9 ++ isr 10 ++ [JResetTail] ++ step 0 ++ isr 11 ++ step 0) =
  Ok (st, map JOut
   [Done (LOp (OIsr 7)) [ERet (RErr SCHED_NONE)]; Took 0; Done (LOp (OStep 0)) [ECall (UTask 1007 7)]; Done LReturn [ERet RUnit];
    Done (LOp (OIsr 8)) [ERet (RErr SCHED_NONE)]; Took 0; Done (LOp (OStep 0)) [ECall (UTask 1008 8)]; Done LReturn [ERet RUnit]] ++
   [JLost (LOp (OIsr 9)) [ERet (RErr SCHED_NONE)]; JLost (LOp (OIsr 10)) [ERet (RErr SCHED_FULL)]] ++ map JOut
   [Done (LOp OReset) [ERet RUnit]; Took 0; Done (LOp (OStep 0)) [ERet RUnit]; Done LReturn [];
    Done (LOp (OIsr 11)) [ERet (RErr SCHED_NONE)]; Took 0; Done (LOp (OStep 0)) [ECall (UTask 1011 11)]; Done LReturn [ERet RUnit]]).
Proof. eexists. vm_compute. reflexivity. Qed.
Print Assumptions C94_reset_interrupted_refuted.
