(** * The whole system while interrupts arrive: property C98.

    SystemModel.v (scheduler, tasks, message queues) on the main side; on the interrupt
    side mu_sched_from_isr (mu_sched.c:164-170).  As in SchedIsr.v the two sides interleave
    at every access to the interrupt queue, the only memory both touch: mu_sched_step
    (mu_sched.c:105-129) is its mu_spsc_get access by access and then the rest in one
    transition; every other call of the main side, queue calls included
    (mu_mqueue.c:58-123), is one transition.  mu_sched_init, mu_sched_reset and a
    mu_sched_from_isr on the main side are excluded, as in SchedIsr.v. *)
From Verif Require Import CSem FifoSpec Ring QueueModel QueueProofs SpscModel SpscProofs TaskModel MqueueModel MqueueSpec.
From Verif Require Import SchedModel SchedSpec SchedProofs SchedOrder SchedProps SchedIsr SystemModel SystemSpec SystemProofs SystemProps.
Notation label := SchedModel.label.

Record ystate := MkY { y_m : smach; y_p : ppc; y_c : mpc }.
Inductive ylabel :=
| YPut (t : Z)        (* the interrupt side calls mu_sched_from_isr(t) *)
| YP                  (* the interrupt side makes its next access *)
| YMain (l : slabel)  (* the main side: an API call, a return, a write to a task object *)
| YC                  (* mu_sched_step makes its next access to the interrupt queue *)
| YCont.              (* mu_sched_step goes on after mu_spsc_get *)
(** [YDone l ev]: the call [l] completed with events [ev].  [YTook now]: marks the access by
    which the mu_spsc_get of a mu_sched_step ended. *)
Inductive yout := YTook (now : Z) | YDone (l : slabel) (ev : list sevent).

Definition y_irq (m : smach) : spsc := sc_irq (y_sched (w_sys (sm_w m))).
Definition y_set_irq (m : smach) (q : spsc) : smach :=
  MkSM (with_sys (sm_w m) (MkSys (with_irq (y_sched (w_sys (sm_w m))) q) (y_q (w_sys (sm_w m))))) (sm_stack m).
Definition y_put_out (e : sev) : list yout :=
  match e with
  | RespPut x b => [YDone (SL (LOp (OIsr x))) [SRet (SRes (RErr (if b then SCHED_NONE else SCHED_FULL)))]]
  | _ => []
  end.
Definition y_excluded (l : slabel) : bool := match l with SL l => excluded l | SQ _ _ => false end.

Definition ystep (cf : config) (s : ystate) (yl : ylabel) : res (ystate * list yout) :=
  let m := y_m s in
  match yl with
  | YPut t =>
      let* '(c, e) := cstep (MkC (y_irq m) (y_p s) CIdle) (LPut t) in
      Ok (MkY (y_set_irq m (c_q c)) (c_p c) (y_c s), concat (map y_put_out e))
  | YP =>
      let* '(c, e) := cstep (MkC (y_irq m) (y_p s) CIdle) LP in
      Ok (MkY (y_set_irq m (c_q c)) (c_p c) (y_c s), concat (map y_put_out e))
  | YMain l =>
      match y_c s with
      | MNone =>
        if y_excluded l then Ok (s, []) else
        match l with
        | SL (LOp (OStep now)) => Ok (MkY m (y_p s) (MGet now CLoadHead), [])
        | _ => let* '(m', ev) := sstep cf m l in Ok (MkY m' (y_p s) MNone, [YDone l ev])
        end
      | _ => Ok (s, [])
      end
  | YC =>
      match y_c s with
      | MGet now pc =>
        let* '(c, e) := cstep (MkC (y_irq m) (y_p s) pc) LC in
        match e with
        | [RespGet ok v] => Ok (MkY (y_set_irq m (c_q c)) (y_p s) (MGot now ok v), [YTook now])
        | _ => Ok (MkY (y_set_irq m (c_q c)) (y_p s) (MGet now (c_c c)), [])
        end
      | _ => Ok (s, [])
      end
  | YCont =>
      match y_c s with
      | MGot now ok v =>
        let w := down (sm_w m) in
        let* '(m', ev) := ssettle (wrap SRes (embed (y_q (w_sys (sm_w m))) (pmap (plift
           (step_rest cf now (if ok then SPSC_NONE else SPSC_EMPTY) (with_curr (w_sys w) v))
           (step_call w)) (fun _ => RUnit)))) (sm_stack m) in
        Ok (MkY m' (y_p s) MNone, [YDone (SL (LOp (OStep now))) ev])
      | _ => Ok (s, [])
      end
  end.
Fixpoint yrun (cf : config) (s : ystate) (yls : list ylabel) : res (ystate * list yout) :=
  match yls with
  | [] => Ok (s, [])
  | yl :: yls => let* '(s, o) := ystep cf s yl in
                 let* '(s, os) := yrun cf s yls in Ok (s, o ++ os)
  end.
Definition ystart (cf : config) (tm : Z -> task) (conf : Z -> list Z * Z * Z) : ystate :=
  MkY (smach0 cf tm conf) PIdle MNone.

(** ** Reading off the outputs *)
Definition y_is_step (l : slabel) : bool := match l with SL l => is_step l | SQ _ _ => false end.
(** The sequential history: every call at the access by which it takes effect *)
Definition y_hist1 (o : yout) : list slabel :=
  match o with YTook now => [SL (LOp (OStep now))] | YDone l _ => if y_is_step l then [] else [l] end.
Definition y_history (os : list yout) : list slabel := concat (map y_hist1 os).
(** the completed calls with their events *)
Definition y_result1 (o : yout) : list (slabel * list sevent) :=
  match o with YTook _ => [] | YDone l ev => [(l, ev)] end.
Definition y_results (os : list yout) : list (slabel * list sevent) := concat (map y_result1 os).
Definition y_is_isr (l : slabel) : bool := match l with SL l => is_isr l | SQ _ _ => false end.
Definition y_on_isr (r : list (slabel * list sevent)) := filter (fun x => y_is_isr (fst x) = true) r.
Definition y_on_main (r : list (slabel * list sevent)) := filter (fun x => y_is_isr (fst x) = false) r.

(** ** Proof *)
Section proof.
Context (cf : config) (qc : Z -> qconf) (Hcf : config_ok cf) (k : Z) (Hk : 1 <= k) (HkM : MAX_IRQ cf = 2 ^ k).
Notation BT := (by_time (precedes cf)).
Notation n := (MAX_IRQ cf).

Definition alone (s : ssys) : astate := MkAs (ss_w s) [].
Definition y_finish (now : Z) (ok : bool) (v : Z) (s : ssys) : ssys * list sevent :=
  lift s (ss_stack s) (finish cf now ok v (alone s)).
Definition y_airq (s : ssys) : list Z := a_irq (w_sys (ss_w s)).
Definition y_set_airq (s : ssys) (l : list Z) : ssys :=
  MkSS (with_sys (ss_w s) (a_with_irq (w_sys (ss_w s)) l)) (ss_q s) (ss_stack s).

Lemma y_set_airq_id s : y_set_airq s (y_airq s) = s.
Proof. destruct s as [[? ? ? ? []] ? ?]. done. Qed.
Lemma alone_set s l : alone (y_set_airq s l) = set_airq (alone s) l.
Proof. done. Qed.
Lemma y_step_finish s now :
  s_step cf qc s (SL (LOp (OStep now))) =
  match y_airq s with
  | t :: irq => y_finish now true t (y_set_airq s irq)
  | [] => y_finish now false NULL s
  end.
Proof.
  cbn [s_step]. unfold y_finish, y_airq. cbn [y_set_airq ss_stack].
  pose proof (step_finish cf (alone s) now) as H. cbn [astep alone as_w as_stack] in H.
  unfold queues in H. cbn [as_w] in H. rewrite H. cbn [alone as_w]. destruct (a_irq (w_sys (ss_w s))); reflexivity.
Qed.
Lemma y_finish_irq now ok v s l :
  y_finish now ok v (y_set_airq s l) =
  (y_set_airq (fst (y_finish now ok v s)) l, snd (y_finish now ok v s)).
Proof.
  unfold y_finish. rewrite alone_set. destruct (finish_irq cf now ok v (alone s) l) as [E1 E2].
  unfold lift. rewrite E1, E2. reflexivity.
Qed.
Lemma y_finish_keeps now ok v s : y_airq (fst (y_finish now ok v s)) = y_airq s.
Proof. apply (finish_keeps cf now ok v (alone s)). Qed.

Lemma y_isr_step s t : s_step cf qc s (SL (LOp (OIsr t))) =
  if decide (Z.of_nat (length (y_airq s)) < n - 1)
  then (y_set_airq s (y_airq s ++ [t]), [SRet (SRes (RErr SCHED_NONE))])
  else (s, [SRet (SRes (RErr SCHED_FULL))]).
Proof.
  cbn [s_step]. pose proof (isr_step cf k Hk HkM (alone s) t) as H. cbn [astep alone as_w as_stack] in H.
  rewrite H. unfold queues. cbn [as_w]. unfold y_airq. destruct (decide _); [done|].
  unfold lift. cbn. by destruct s.
Qed.

(** *** the code *)
Lemma alone_rep m s : smrep cf qc m s -> mrep cf (SchedModel.MkM (down (sm_w m)) []) (alone s).
Proof. intros [[Hw _] _]. split; [exact Hw|constructor]. Qed.
Lemma lift_irq (pr : prog sched obs) qs stk m' ev sm ev' :
  settle pr [] = Ok (m', ev) -> ssettle (wrap SRes (embed qs pr)) stk = Ok (sm, ev') -> y_irq sm = irq_of m'.
Proof.
  destruct pr as [o w'|c w' kk| |]; try discriminate; cbn [settle embed wrap pbind ssettle]; intros [= <- <-] [= <- <-]; done.
Qed.
Lemma y_cont_ok now ok v m s : smrep cf qc m s -> (ok = false -> v = NULL) ->
  exists m', ssettle (wrap SRes (embed (y_q (w_sys (sm_w m))) (pmap (plift
           (step_rest cf now (if ok then SPSC_NONE else SPSC_EMPTY) (with_curr (w_sys (down (sm_w m))) v))
           (step_call (down (sm_w m)))) (fun _ => RUnit)))) (sm_stack m) = Ok (m', snd (y_finish now ok v s)) /\
    smrep cf qc m' (fst (y_finish now ok v s)) /\ y_irq m' = y_irq m.
Proof.
  intros Hm Hv. pose proof Hm as [[Hw Hq] Hstk].
  destruct (cont_ok cf Hcf k now ok v (SchedModel.MkM (down (sm_w m)) []) (alone s)) as (m1 & E & Hm1 & Hirq); [by apply alone_rep|done|].
  cbn [m_w SchedModel.m_stack] in E.
  destruct (lift_ok cf qc _ (sm_w m) s (sm_stack m) (ss_stack s) m1 _ E Hm1 Hq Hstk) as (sm & Es & Hsm).
  exists sm. split; [exact Es|]. split; [exact Hsm|].
  rewrite (lift_irq _ _ _ _ _ _ _ E Es), Hirq. done.
Qed.
Lemma y_main_irq m s l m' ev : smrep cf qc m s -> y_excluded l = false -> y_is_step l = false ->
  sstep cf m l = Ok (m', ev) -> y_irq m' = y_irq m.
Proof.
  intros Hm He Hs E. pose proof Hm as [[Hw Hq] Hstk]. destruct l as [[o| |tm]|q o]; cbn [sstep] in E.
  - destruct (mstep_ok cf Hcf (SchedModel.MkM (down (sm_w m)) []) (alone s) (LOp o)) as (m1 & E1 & Hm1); [by apply alone_rep|].
    pose proof (main_irq cf (SchedModel.MkM (down (sm_w m)) []) (alone s) (LOp o) m1 _ (alone_rep m s Hm) He Hs E1) as Hi.
    cbn [mstep m_w SchedModel.m_stack] in E1. rewrite (lift_irq _ _ _ _ _ _ _ E1 E), Hi. done.
  - destruct (sm_stack m) as [|kk ks] eqn:Ek; [by injection E as <- <-|].
    apply Forall2_cons_inv_l in Hstk as (f & fs & Hkk & Hks & Hn). rewrite Hkk in E.
    destruct f as [f|q t r|q t r]; cbn [sdenote] in E.
    + assert (Hm0 : mrep cf (SchedModel.MkM (down (sm_w m)) [denote cf f]) (MkAs (ss_w s) [f])) by (split; [done|by constructor]).
      destruct (mstep_ok cf Hcf _ _ LReturn Hm0) as (m1 & E1 & Hm1).
      pose proof (main_irq cf _ _ LReturn m1 _ Hm0 He Hs E1) as Hi.
      cbn [mstep m_w SchedModel.m_stack] in E1. rewrite (lift_irq _ _ _ _ _ _ _ E1 E), Hi. done.
    + by injection E as <- <-.
    + by injection E as <- <-.
  - by injection E as <- <-.
  - unfold ssettle, wrap, qapi in E. destruct o; cbn [plift pbind] in E; try (by injection E as <- <-).
    + destruct (mu_mqueue_put _ _ _ _ _ _) as [[[b mm] t]| |]; cbn [plift pbind] in E; try discriminate.
      unfold notify, mu_task_call in E. destruct (negb _); [|by injection E as <- <-]. destruct (negb _); by injection E as <- <-.
    + destruct (mu_mqueue_get _ _ _ _ _) as [[[[b e] mm] t]| |]; cbn [plift pbind] in E; try discriminate.
      unfold notify, mu_task_call in E. destruct (negb _); [|by injection E as <- <-]. destruct (negb _); by injection E as <- <-.
    + destruct (mu_mqueue_peek _ _ _ _ _) as [[[[b e] mm] t]| |]; cbn [plift pbind] in E; try discriminate. by injection E as <- <-.
Qed.
Lemma y_main_airq s l : y_excluded l = false -> y_is_step l = false ->
  y_airq (fst (s_step cf qc s l)) = y_airq s.
Proof.
  intros He Hs. unfold y_airq. destruct l as [[o| |tm]|q o]; cbn [s_step].
  - apply (main_airq cf (alone s) (LOp o) He Hs).
  - destruct (ss_stack s) as [|f stk]; [done|]. destruct f as [f|q t r|q t r]; cbn [fst]; [|done|done].
    apply (main_airq cf (MkAs (ss_w s) [f]) LReturn He Hs).
  - done.
  - destruct (fifo_step _ _ _) as [r l]. destruct (decide _); [done|]. by destruct (decide _).
Qed.

(** *** the invariant *)
Definition yinv (s : ystate) (S : ssys) (pend : list (slabel * list sevent)) : Prop :=
  match y_c s with
  | MNone => smrep cf qc (y_m s) S /\ inv n (MkC (y_irq (y_m s)) (y_p s) CIdle) (y_airq S) /\ pend = []
  | MGet now pc => smrep cf qc (y_m s) S /\ inv n (MkC (y_irq (y_m s)) (y_p s) pc) (y_airq S) /\ pc <> CIdle /\ pend = []
  | MGot now ok v => exists S0, smrep cf qc (y_m s) S0 /\ inv n (MkC (y_irq (y_m s)) (y_p s) CIdle) (y_airq S0) /\
      (ok = false -> v = NULL) /\
      S = fst (y_finish now ok v S0) /\ pend = [(SL (LOp (OStep now)), snd (y_finish now ok v S0))]
  end.

Lemma smrep_set m s q l : smrep cf qc m s -> srep n q l -> smrep cf qc (y_set_irq m q) (y_set_airq s l).
Proof.
  intros Hm Hr. pose proof Hm as [[Hw Hq] Hs]. split; [|done]. split; [|done].
  destruct (mrep_set cf k Hk HkM (SchedModel.MkM (down (sm_w m)) []) (alone s) q l (alone_rep m s Hm) Hr) as [H _]. exact H.
Qed.

Lemma y_put_step q p pc l lab : (lab = LP \/ exists t, lab = LPut t) -> inv n (MkC q p pc) l ->
  exists c e, cstep (MkC q p CIdle) lab = Ok (c, e) /\
   ((concat (map y_put_out e) = [] /\ inv n (MkC (c_q c) (c_p c) pc) l) \/
    (exists t, concat (map y_put_out e) = [YDone (SL (LOp (OIsr t))) [SRet (SRes (RErr SCHED_NONE))]] /\
       Z.of_nat (length l) < n - 1 /\ inv n (MkC (c_q c) (c_p c) pc) (l ++ [t])) \/
    (exists t, concat (map y_put_out e) = [YDone (SL (LOp (OIsr t))) [SRet (SRes (RErr SCHED_FULL))]] /\
       ~ Z.of_nat (length l) < n - 1 /\ inv n (MkC (c_q c) (c_p c) pc) l)).
Proof.
  intros Hlab Hi. destruct (put_step cf k q p pc l lab Hlab Hi) as (c & e & E & H). exists c, e. split; [done|].
  assert (HX : forall e, concat (map y_put_out e) = map (fun o => match o with Took now => YTook now | Done l ev => YDone (SL l) (map sevent_of ev) end) (concat (map put_out e))).
  { induction e0 as [|x e0 IH]; [done|]. cbn [map concat]. rewrite map_app, IH. by destruct x. }
  rewrite HX. destruct H as [(-> & H & _)|[(t & -> & H1 & H2)|(t & -> & H1 & H2)]]; cbn [map sevent_of]; eauto 10.
Qed.

Lemma s_run_one S l : s_run cf qc S [l] = (fst (s_step cf qc S l), [snd (s_step cf qc S l)]).
Proof. cbn [s_run]. by destruct (s_step cf qc S l). Qed.

Definition ysim (S : ssys) (pend : list (slabel * list sevent)) (os : list yout) (S' : ssys) (pend' : list (slabel * list sevent)) : Prop :=
  fst (s_run cf qc S (y_history os)) = S' /\
  let z := combine (y_history os) (snd (s_run cf qc S (y_history os))) in
  y_on_isr z = y_on_isr (y_results os) /\
  pend ++ y_on_main z = y_on_main (y_results os) ++ pend'.

Lemma y_isr_ok (s : ystate) S pend lab yl : yinv s S pend ->
  (lab = LP \/ exists t, lab = LPut t) ->
  (forall c e, cstep (MkC (y_irq (y_m s)) (y_p s) CIdle) lab = Ok (c, e) ->
     ystep cf s yl = Ok (MkY (y_set_irq (y_m s) (c_q c)) (c_p c) (y_c s), concat (map y_put_out e))) ->
  exists s' os S' pend', ystep cf s yl = Ok (s', os) /\ yinv s' S' pend' /\ ysim S pend os S' pend'.
Proof.
  intros Hi Hlab Heq. destruct s as [m p c]. unfold yinv in Hi. cbn [y_m y_p y_c] in *.
  assert (G : forall pc A, smrep cf qc m A -> inv n (MkC (y_irq m) p pc) (y_airq A) ->
    exists cc e A', cstep (MkC (y_irq m) p CIdle) lab = Ok (cc, e) /\
      smrep cf qc (y_set_irq m (c_q cc)) A' /\ inv n (MkC (c_q cc) (c_p cc) pc) (y_airq A') /\
      ((concat (map y_put_out e) = [] /\ A' = A) \/
       exists t, concat (map y_put_out e) = [YDone (SL (LOp (OIsr t))) (snd (s_step cf qc A (SL (LOp (OIsr t)))))] /\
         A' = fst (s_step cf qc A (SL (LOp (OIsr t)))) /\
         ((A' = A /\ snd (s_step cf qc A (SL (LOp (OIsr t)))) = [SRet (SRes (RErr SCHED_FULL))] /\ ~ Z.of_nat (length (y_airq A)) < n - 1) \/
          (A' = y_set_airq A (y_airq A ++ [t]) /\ snd (s_step cf qc A (SL (LOp (OIsr t)))) = [SRet (SRes (RErr SCHED_NONE))] /\ Z.of_nat (length (y_airq A)) < n - 1)))).
  { intros pc A Hm Hinv. destruct (y_put_step _ _ _ _ lab Hlab Hinv) as (cc & e & Ec & Hcase). exists cc, e.
    assert (Hsame : forall l, inv n (MkC (c_q cc) (c_p cc) pc) l -> smrep cf qc (y_set_irq m (c_q cc)) (y_set_airq A l)).
    { intros l Hl. apply smrep_set; [done|]. by destruct Hl. }
    destruct Hcase as [(Ho & Hi')|[(t & Ho & Hlt & Hi')|(t & Ho & Hlt & Hi')]].
    - exists A. split; [done|]. specialize (Hsame _ Hi'). rewrite y_set_airq_id in Hsame. split; [done|]. split; [done|]. by left.
    - exists (y_set_airq A (y_airq A ++ [t])). split; [done|]. split; [by apply Hsame|]. split; [done|]. right. exists t.
      rewrite y_isr_step. rewrite decide_True by done. cbn [fst snd]. split; [done|]. split; [done|]. by right.
    - exists A. specialize (Hsame _ Hi'). rewrite y_set_airq_id in Hsame. split; [done|]. split; [done|]. split; [done|]. right. exists t.
      rewrite y_isr_step. rewrite decide_False by done. cbn [fst snd]. split; [done|]. split; [done|]. by left. }
  assert (Hone : forall A A' e pend, ((concat (map y_put_out e) = [] /\ A' = A) \/
       exists t, concat (map y_put_out e) = [YDone (SL (LOp (OIsr t))) (snd (s_step cf qc A (SL (LOp (OIsr t)))))] /\
         A' = fst (s_step cf qc A (SL (LOp (OIsr t))))) -> ysim A pend (concat (map y_put_out e)) A' pend).
  { intros A A' e pd [[-> ->]|(t & -> & ->)]; unfold ysim.
    - cbn. by rewrite app_nil_r.
    - cbn [y_history map concat y_hist1 y_is_step is_step app]. rewrite s_run_one. cbn [fst snd combine]. split; [done|]. split; [done|].
      cbn. by rewrite app_nil_r. }
  destruct c as [|now pc|now ok v].
  - destruct Hi as (Hm & Hinv & ->). destruct (G CIdle S Hm Hinv) as (cc & e & A' & Ec & Hm' & Hinv' & Hcase).
    rewrite (Heq cc e Ec). eexists _, _, A', []. split; [done|]. split; [by split_and!|]. apply Hone.
    destruct Hcase as [?|(t & ? & ? & _)]; [by left|right; eauto].
  - destruct Hi as (Hm & Hinv & Hpc & ->). destruct (G pc S Hm Hinv) as (cc & e & A' & Ec & Hm' & Hinv' & Hcase).
    rewrite (Heq cc e Ec). eexists _, _, A', []. split; [done|]. split; [by split_and!|]. apply Hone.
    destruct Hcase as [?|(t & ? & ? & _)]; [by left|right; eauto].
  - destruct Hi as (S0 & Hm & Hinv & Hv & -> & ->). destruct (G CIdle S0 Hm Hinv) as (cc & e & A' & Ec & Hm' & Hinv' & Hcase).
    rewrite (Heq cc e Ec). eexists _, _, (fst (y_finish now ok v A')), [(SL (LOp (OStep now)), snd (y_finish now ok v A'))].
    split; [done|]. split; [exists A'; by split_and!|].
    destruct Hcase as [[-> ->]|(t & -> & HA' & Hcase)]; [unfold ysim; cbn; done|].
    unfold ysim. cbn [y_history map concat y_hist1 y_is_step is_step app]. rewrite s_run_one. cbn [fst snd combine].
    rewrite (y_isr_step (fst _)), y_finish_keeps.
    destruct Hcase as [(-> & Hev & Hlt)|(-> & Hev & Hlt)]; rewrite Hev.
    + rewrite decide_False by done. done.
    + rewrite decide_True by done. rewrite y_finish_irq. done.
Qed.

Lemma ystep_sim s S pend yl : yinv s S pend ->
  exists s' os S' pend', ystep cf s yl = Ok (s', os) /\ yinv s' S' pend' /\ ysim S pend os S' pend'.
Proof.
  intros Hi.
  assert (Hskip : forall s', s' = s -> exists s'' os S' pend', Ok (s', @nil yout) = Ok (s'', os) /\ yinv s'' S' pend' /\ ysim S pend os S' pend').
  { intros s' ->. eexists _, _, S, pend. split; [done|]. split; [done|]. unfold ysim. cbn. by rewrite app_nil_r. }
  destruct yl as [t| |l| |].
  - eapply (y_isr_ok s S pend (LPut t)); [done|eauto|]. intros c e E. cbn [ystep]. by rewrite E.
  - eapply (y_isr_ok s S pend LP); [done|eauto|]. intros c e E. cbn [ystep]. by rewrite E.
  - (* main *)
    destruct s as [m p c]. cbn [ystep y_c y_m y_p]. destruct c; [|by apply Hskip|by apply Hskip].
    destruct (y_excluded l) eqn:Hex; [by apply Hskip|].
    unfold yinv in Hi. cbn [y_c y_m y_p] in Hi. destruct Hi as (Hm & Hinv & ->).
    destruct (y_is_step l) eqn:Hs.
    + destruct l as [[o| |]|]; try discriminate. destruct o; try discriminate.
      eexists _, _, S, []. split; [done|]. split; [|done]. split; [done|]. split; [|done].
      destruct Hinv as (H1 & H2 & H3). by split_and!.
    + destruct (sstep_ok cf qc Hcf m S l Hm) as (m' & E & Hm').
      pose proof (y_main_irq m S l m' _ Hm Hex Hs E) as Hirq. pose proof (y_main_airq S l Hex Hs) as Hai.
      assert (Hmatch : forall A (f : Z -> A) (g : A), match l with SL (LOp (OStep now)) => f now | _ => g end = g).
      { intros A f g. destruct l as [[o| |]|]; try done. destruct o; try done; discriminate Hs. }
      rewrite Hmatch, E. cbn [bind]. eexists _, _, (fst (s_step cf qc S l)), []. split; [done|]. split.
      * unfold yinv. cbn [y_c y_m y_p]. split; [done|]. rewrite Hirq, Hai. done.
      * unfold ysim. cbn [y_history map concat y_hist1 app]. rewrite Hs. cbn [app]. rewrite s_run_one. cbn [fst snd combine y_results map concat y_result1 app].
        split; [done|]. split; [done|]. by rewrite app_nil_r.
  - (* an access of mu_spsc_get *)
    destruct s as [m p c]. cbn [ystep y_c y_m y_p]. destruct c as [|now pc|]; [by apply Hskip| |by apply Hskip].
    unfold yinv in Hi. cbn [y_c y_m y_p] in Hi. destruct Hi as (Hm & Hinv & Hpc & ->).
    destruct (cstep_ok n _ _ LC Hinv) as (c' & e & l' & E & Hinv' & Hf). rewrite E. cbn [bind].
    assert (Hp' : c_p c' = p).
    { destruct pc; cbn [cstep c_c c_q c_p] in E; try (injection E as <- <-; done).
      - destruct (h =? _); injection E as <- <-; done.
      - destruct (ld _ _); cbn [bind] in E; try discriminate. injection E as <- <-. done. }
    assert (He : (exists ok v, e = [RespGet ok v] /\ c_c c' = CIdle /\ (ok = false -> v = NULL)) \/ (e = [] /\ c_c c' <> CIdle)).
    { destruct pc; cbn [cstep c_c c_q c_p] in E; try done; try (injection E as <- <-; right; done).
      - destruct (h =? _); injection E as <- <-; [left|by right]. exists false, NULL. done.
      - destruct (ld _ _); cbn [bind] in E; try discriminate. injection E as <- <-. by right.
      - injection E as <- <-. left. exists true, v. done. }
    destruct c' as [q' p' pc']. cbn [c_q c_p c_c] in *. subst p'.
    destruct He as [(ok & v & -> & -> & Hv)|[-> Hpc']].
    + simpl in Hf. eexists _, _, _, _. split; [done|]. split.
      * unfold yinv. cbn [y_c y_m y_p]. exists (y_set_airq S l'). split_and!.
        -- apply smrep_set; [done|]. by destruct Hinv'.
        -- exact Hinv'.
        -- done.
        -- reflexivity.
        -- reflexivity.
      * unfold ysim. cbn [y_history map concat y_hist1 app]. rewrite s_run_one, y_step_finish. cbn [fst snd combine].
        destruct (y_airq S) as [|x l] eqn:El; simpl in Hf; injection Hf as <- <- <-.
        -- rewrite <- El, y_set_airq_id. done.
        -- done.
    + eexists _, _, S, []. split; [done|]. simpl in Hf. injection Hf as <-. split; [|done].
      unfold yinv. cbn [y_c y_m y_p]. split; [|done].
      rewrite <- (y_set_airq_id S). apply smrep_set; [done|]. by destruct Hinv'.
  - (* the rest of the step *)
    destruct s as [m p c]. cbn [ystep y_c y_m y_p]. destruct c as [| |now ok v]; [by apply Hskip|by apply Hskip|].
    unfold yinv in Hi. cbn [y_c y_m y_p] in Hi. destruct Hi as (S0 & Hm & Hinv & Hv & -> & ->).
    destruct (y_cont_ok now ok v m S0 Hm Hv) as (m' & -> & Hm' & Hirq). cbn [bind].
    eexists _, _, _, []. split; [done|]. split.
    + unfold yinv. cbn [y_c y_m y_p]. split; [exact Hm'|]. rewrite Hirq, y_finish_keeps. done.
    + done.
Qed.

Lemma y_history_app a b : y_history (a ++ b) = y_history a ++ y_history b.
Proof. unfold y_history. by rewrite map_app, concat_app. Qed.
Lemma y_results_app a b : y_results (a ++ b) = y_results a ++ y_results b.
Proof. unfold y_results. by rewrite map_app, concat_app. Qed.
Lemma ysim_trans S pend os1 S1 p1 os2 S2 p2 : ysim S pend os1 S1 p1 -> ysim S1 p1 os2 S2 p2 -> ysim S pend (os1 ++ os2) S2 p2.
Proof.
  intros (H1 & H2 & H3) (G1 & G2 & G3). unfold ysim. rewrite y_history_app, y_results_app, s_run_app. cbn [fst snd].
  rewrite H1. rewrite (combine_app' k Hk (y_history os1) (y_history os2) (snd (s_run cf qc S (y_history os1)))) by (symmetry; apply s_run_length). split; [done|]. unfold y_on_isr, y_on_main in *.
  rewrite !filter_app. split; [by rewrite H2, G2|]. by rewrite app_assoc, H3, <- !app_assoc, G3.
Qed.
Lemma yrun_sim : forall yls s S pend, yinv s S pend ->
  exists s' os S' pend', yrun cf s yls = Ok (s', os) /\ yinv s' S' pend' /\ ysim S pend os S' pend'.
Proof.
  induction yls as [|yl yls IH]; intros s S pend Hi; cbn [yrun].
  - eexists _, _, S, pend. split; [done|]. split; [done|]. unfold ysim. cbn. by rewrite app_nil_r.
  - destruct (ystep_sim s S pend yl Hi) as (s1 & o1 & S1 & p1 & -> & Hi1 & Hs1). cbn [bind].
    destruct (IH s1 S1 p1 Hi1) as (s2 & o2 & S2 & p2 & -> & Hi2 & Hs2). cbn [bind].
    eexists _, _, S2, p2. split; [done|]. split; [done|]. by eapply ysim_trans.
Qed.
End proof.

Lemma ystart_inv cf tm conf k : config_ok cf -> conf_ok cf conf -> 1 <= k -> MAX_IRQ cf = 2 ^ k ->
  yinv cf (qconf_of conf) (ystart cf tm conf) (s_start tm) [].
Proof.
  intros Hcf Hq Hk HkM. unfold yinv, ystart. cbn [y_c y_m y_p]. split; [by apply smach0_ok|]. split; [|done].
  destruct (istart_inv cf Hcf k Hk HkM tm) as (_ & H & _). exact H.
Qed.

(** ** C98 *)
(** Every interleaving is defined, and is equivalent to a sequential history of the whole
    system (to which C90, C91 and C96 apply): each call takes effect at one point between
    its start and its end ([y_history]); the results on the interrupt side are those of
    this history, in order, and so are the results on the main side - those of tasks and of
    message queues included - except that the last step may have taken effect without
    having entered user code yet. *)
Theorem C98_linearizable : forall cf tm conf k sched, config_ok cf -> conf_ok cf conf -> 1 <= k -> MAX_IRQ cf = 2 ^ k ->
  exists st os m evs, yrun cf (ystart cf tm conf) sched = Ok (st, os) /\
    srun cf (smach0 cf tm conf) (y_history os) = Ok (m, evs) /\
    let z := combine (y_history os) evs in
    y_on_isr z = y_on_isr (y_results os) /\
    (y_on_main z = y_on_main (y_results os) \/
     exists now ok v ev, y_c st = MGot now ok v /\ y_on_main z = y_on_main (y_results os) ++ [(SL (LOp (OStep now)), ev)]).
Proof.
  intros cf tm conf k sched Hcf Hq Hk HkM.
  destruct (yrun_sim cf (qconf_of conf) Hcf k Hk HkM sched _ _ _ (ystart_inv cf tm conf k Hcf Hq Hk HkM)) as (st & os & S' & pend' & E & Hi & H1 & H2 & H3).
  destruct (C90_system cf tm conf (y_history os) Hcf Hq) as (m & Em).
  exists st, os, m. eexists. split; [done|]. split; [exact Em|]. cbn zeta. split; [done|]. simpl in H3. rewrite H3.
  unfold yinv in Hi. destruct (y_c st) as [|now pc|now ok v] eqn:Ec.
  - destruct Hi as (_ & _ & ->). left. by rewrite app_nil_r.
  - destruct Hi as (_ & _ & _ & ->). left. by rewrite app_nil_r.
  - destruct Hi as (S0 & _ & _ & _ & _ & ->). right. eauto 10.
Qed.
Print Assumptions C98_linearizable.

(** The protocol of C91, with interrupts: for every return, [l] being the last call the
    main side made before it - [isrs] are the mu_sched_from_isr calls that interrupts made
    in between -: the notification function of [q] returns after a mu_sched_immed(c) that
    succeeded, the consumer's function after a mu_mqueue_get(q) that found [q] empty. *)
Definition protocol_isr (cf : config) (conf : Z -> list Z * Z * Z) (tm : Z -> task) (q c : Z) (ls : list slabel) : Prop :=
  forall before l isrs rest, ls = before ++ l :: isrs ++ SL LReturn :: rest ->
    y_is_isr l = false -> Forall (fun i => y_is_isr i = true) isrs ->
    let ev := snd (s_step cf (qconf_of conf) (s_after cf conf tm before) l) in
    let s := s_after cf conf tm (before ++ [l]) in
    (put_notification q s -> l = SL (LOp (OImmed c)) /\ ev = [SRet (SRes (RErr SCHED_NONE))]) /\
    (consumer_run c s -> l = SQ q QGet /\ ev = [SRet (SQRes (QItem false NULL))]).

(** what a mu_sched_from_isr leaves alone *)
Lemma isr_keeps cf qc s t : let s' := fst (s_step cf qc s (SL (LOp (OIsr t)))) in
  ss_q s' = ss_q s /\ ss_stack s' = ss_stack s /\ imm_of s' = imm_of s.
Proof. cbn [s_step aop]. unfold lift, imm_of. cbn [fst]. by destruct (decide _). Qed.
Lemma isrs_keep cf conf tm : forall isrs ls, Forall (fun i => y_is_isr i = true) isrs ->
  let s := s_after cf conf tm ls in let s' := s_after cf conf tm (ls ++ isrs) in
  ss_q s' = ss_q s /\ ss_stack s' = ss_stack s /\ imm_of s' = imm_of s.
Proof.
  induction isrs as [|i isrs IH] using rev_ind; intros ls H; cbv zeta.
  - by rewrite app_nil_r.
  - apply Forall_app in H as [H Hi]. apply Forall_inv in Hi. rewrite app_assoc, s_after_snoc.
    destruct (IH ls H) as (E1 & E2 & E3). destruct i as [[o| |]|]; try discriminate. destruct o; try discriminate.
    destruct (isr_keeps cf (qconf_of conf) (s_after cf conf tm (ls ++ isrs)) t) as (F1 & F2 & F3).
    rewrite F1, F2, F3. done.
Qed.
(** the last call before a point of a history that was not made by an interrupt *)
Lemma last_main (ls : list slabel) : (exists before l isrs, ls = before ++ l :: isrs /\ y_is_isr l = false /\ Forall (fun i => y_is_isr i = true) isrs) \/
  Forall (fun i => y_is_isr i = true) ls.
Proof.
  induction ls as [|l ls IH] using rev_ind; [right; constructor|].
  destruct (y_is_isr l) eqn:E.
  - destruct IH as [(b & l0 & i & -> & H1 & H2)|H].
    + left. exists b, l0, (i ++ [l]). split; [by rewrite <- app_assoc|]. split; [done|]. apply Forall_app. split; [done|]. by constructor.
    + right. apply Forall_app. split; [done|]. by constructor.
  - left. exists ls, l, []. split; [done|]. split; [done|]. constructor.
Qed.

Lemma wakeup_isr cf conf tm q c : c <> NULL -> qc_put (qconf_of conf q) <> NULL ->
  forall ls, Forall no_reset ls -> protocol_isr cf conf tm q c ls -> covered q c (s_after cf conf tm ls).
Proof.
  intros Hc Hput ls Hn Hp.
  assert (HC : forall l1 l2, ls = l1 ++ l2 -> covered q c (s_after cf conf tm l1)).
  { induction l1 as [|l l1 IH] using rev_ind; intros l2 E; [intros H; by destruct H|]. rewrite s_after_snoc.
    apply covered_step; try done.
    - rewrite Forall_forall in Hn. apply Hn. rewrite E. rewrite !elem_of_app, elem_of_list_singleton. eauto.
    - eapply IH. rewrite E, <- app_assoc. done.
    - intros ->. destruct (last_main l1) as [(before & l & isrs & -> & Hl & Hi)|Hi].
      2:{ destruct (isrs_keep cf conf tm l1 [] Hi) as (E1 & E2 & E3). cbn [app] in *.
          split; [intros (t & r & Hx)|intros (r & Hx)]; rewrite E2 in Hx; discriminate. }
      rewrite <- !app_assoc in E. cbn [app] in E. destruct (Hp before l isrs l2 E Hl Hi) as [H1 H2].
      change (l :: isrs) with ([l] ++ isrs). rewrite app_assoc.
      destruct (isrs_keep cf conf tm isrs (before ++ [l]) Hi) as (E1 & E2 & E3). split; intros Hx.
      + destruct H1 as [-> He]. { destruct Hx as (t & r & Hx). exists t, r. by rewrite <- E2. }
        rewrite E3, s_after_snoc. unfold imm_of. cbn [s_step] in *. unfold lift in *.
        cbn [fst snd aop] in *. unfold a_immed in *. destruct (decide _); [|discriminate]. cbn. apply in_app_iff. right. by left.
      + destruct H2 as [-> He]. { destruct Hx as (r & Hx). exists r. by rewrite <- E2. }
        rewrite E1, s_after_snoc, queue_label. rewrite Z.eqb_refl. cbn [fifo_run fifo_step].
        cbn [s_step fifo_step] in He. destruct (ss_q (s_after cf conf tm before) q) as [|x m]; [done|].
        exfalso. cbn [fst snd] in He. destruct (decide _); [discriminate|]. destruct (decide _); discriminate. }
  apply (HC ls []). by rewrite app_nil_r.
Qed.

(** the outputs never contain a reset *)
Lemma history_no_reset cf : forall sched s st os, yrun cf s sched = Ok (st, os) -> Forall no_reset (y_history os).
Proof.
  assert (HE : forall e, Forall no_reset (y_history (concat (map y_put_out e)))).
  { induction e as [|x e IH]; [constructor|]. cbn [map concat]. unfold y_history. rewrite map_app, concat_app. apply Forall_app. split; [|exact IH].
    destruct x; simpl; repeat constructor. }
  induction sched as [|yl sched IH]; intros s st os E; cbn [yrun] in E.
  - injection E as <- <-. constructor.
  - destruct (ystep cf s yl) as [[s1 o1]| |] eqn:E1; try discriminate. cbn [bind] in E.
    destruct (yrun cf s1 sched) as [[s2 o2]| |] eqn:E2; try discriminate. cbn [bind] in E. injection E as <- <-.
    unfold y_history. rewrite map_app, concat_app. apply Forall_app. split; [|by eapply IH].
    change (Forall no_reset (y_history o1)). destruct yl as [t| |l| |]; cbn [ystep] in E1.
    + destruct (cstep _ _) as [[cc e]| |]; try discriminate. cbn [bind] in E1. injection E1 as <- <-. apply HE.
    + destruct (cstep _ _) as [[cc e]| |]; try discriminate. cbn [bind] in E1. injection E1 as <- <-. apply HE.
    + destruct (y_c s); try (injection E1 as <- <-; apply Forall_nil_2).
      destruct (y_excluded l) eqn:Hx; [injection E1 as <- <-; apply Forall_nil_2|].
      assert (Hl : no_reset l). { destruct l as [[o| |]|]; try done. by destruct o. }
      assert (HD : forall ev, Forall no_reset (y_history [YDone l ev])).
      { intros ev. unfold y_history. cbn [map concat y_hist1]. destruct (y_is_step l); [apply Forall_nil_2|].
        apply Forall_cons_2; [exact Hl|apply Forall_nil_2]. }
      assert (Hs : (let* '(m', ev) := sstep cf (y_m s) l in Ok (MkY m' (y_p s) MNone, [YDone l ev])) = Ok (s1, o1) -> Forall no_reset (y_history o1)).
      { destruct (sstep cf (y_m s) l) as [[m' ev]| |]; try discriminate. cbn [bind]. intros [= <- <-]. apply HD. }
      destruct l as [[o| |]|]; [destruct o|..]; try (exact (Hs E1)). injection E1 as <- <-. apply Forall_nil_2.
    + destruct (y_c s) as [|now pc|]; try (injection E1 as <- <-; apply Forall_nil_2).
      destruct (cstep _ _) as [[cc e]| |]; try discriminate. cbn [bind] in E1.
      destruct e as [|[] [|? ?]]; injection E1 as <- <-; try apply Forall_nil_2; apply Forall_cons_2; [exact I|apply Forall_nil_2].
    + destruct (y_c s) as [| |now ok v]; try (injection E1 as <- <-; apply Forall_nil_2).
      destruct (ssettle _ _) as [[m' ev]| |]; try discriminate. cbn [bind] in E1. injection E1 as <- <-. apply Forall_nil_2.
Qed.

(** With the protocol, interrupts do not make a wake-up get lost either: whenever the main
    program is in control - no user function in progress, mu_sched_step not under way -
    mu_mqueue_is_empty(q) returns true or the consumer is in the immediate queue; at that
    point interrupts may be anywhere inside mu_sched_from_isr. *)
Theorem C98_no_lost_wakeup : forall cf tm conf k q c sched st os,
  config_ok cf -> conf_ok cf conf -> 1 <= k -> MAX_IRQ cf = 2 ^ k ->
  c <> NULL -> snd (fst (conf q)) <> NULL ->
  yrun cf (ystart cf tm conf) sched = Ok (st, os) ->
  protocol_isr cf conf tm q c (y_history os) ->
  y_c st = MNone -> sm_stack (y_m st) = [] ->
  (exists st', ystep cf st (YMain (SQ q QIsEmpty)) = Ok (st', [YDone (SQ q QIsEmpty) [SRet (SQRes (QBool true))]])) \/
  In c (a_imm (w_sys (ss_w (s_after cf conf tm (y_history os))))).
Proof.
  intros cf tm conf k q c sched st os Hcf Hq Hk HkM Hc Hput E Hp Hy Hs.
  assert (Hput' : qc_put (qconf_of conf q) <> NULL). { unfold qconf_of. by destruct (conf q) as [[? ?] ?]. }
  destruct (yrun_sim cf (qconf_of conf) Hcf k Hk HkM sched _ _ _ (ystart_inv cf tm conf k Hcf Hq Hk HkM)) as (st' & os' & S' & pend' & E' & Hi & H1 & _).
  rewrite E in E'. injection E' as <- <-. unfold yinv in Hi. rewrite Hy in Hi. destruct Hi as (Hm & Hinv & _).
  change (fst (s_run cf (qconf_of conf) (s_start tm) (y_history os))) with (s_after cf conf tm (y_history os)) in H1. subst S'.
  pose proof (wakeup_isr cf conf tm q c Hc Hput' (y_history os) (history_no_reset cf _ _ _ _ E) Hp) as Hcov.
  destruct (ss_q (s_after cf conf tm (y_history os)) q) as [|x l] eqn:Eq.
  - left. destruct (sstep_ok cf (qconf_of conf) Hcf (y_m st) _ (SQ q QIsEmpty) Hm) as (m' & Es & _).
    cbn [ystep y_excluded]. rewrite Hy, Es. cbn [bind s_step fifo_step]. rewrite Eq. cbn [notify_of]. rewrite decide_True by done.
    eexists. reflexivity.
  - right. destruct Hcov as [H|H]; [by rewrite Eq|exact H|]. exfalso.
    destruct Hm as [_ Hstk]. rewrite Hs in Hstk. apply Forall2_nil_inv_l in Hstk. rewrite Hstk in H. by apply Exists_nil in H.
Qed.
Print Assumptions C98_no_lost_wakeup.

(** queue 7, notification task 100, consumer 300, as in C91.  An interrupt schedules task 9
    while the consumer is about to return, another one (task 8) in the middle of the step
    that ran the consumer. *)
Definition ex98 : list ylabel :=
  [YMain (SQ 7 (QPut 1)); YMain (SL (LOp (OImmed 300))); YPut 9; YMain (SL LReturn); YMain (SL (LOp (OStep 0)));
   YC; YP; YC; YCont; YP; YMain (SQ 7 QGet); YMain (SQ 7 QGet); YP; YP; YP; YMain (SL LReturn);
   YMain (SL (LOp (OStep 0))); YC; YC; YPut 8; YC; YP; YC; YC; YC; YCont; YMain (SL LReturn)].
Example C98_example : exists st, yrun ex_cf (ystart ex_cf ex_tm ex91_conf) ex98 = Ok (st,
   [YDone (SQ 7 (QPut 1)) [SCall (UTask 1100 100)]; YDone (SL (LOp (OImmed 300))) [SRet (SRes (RErr SCHED_NONE))];
    YDone (SL LReturn) [SRet (SQRes (QBool true))]; YTook 0; YDone (SL (LOp (OStep 0))) [SCall (UTask 1300 300)];
    YDone (SQ 7 QGet) [SRet (SQRes (QItem true 1))]; YDone (SQ 7 QGet) [SRet (SQRes (QItem false 0))];
    YDone (SL (LOp (OIsr 9))) [SRet (SRes (RErr SCHED_NONE))]; YDone (SL LReturn) [SRet (SRes RUnit)];
    YTook 0; YDone (SL (LOp (OStep 0))) [SCall (UTask 1009 9)]; YDone (SL LReturn) [SRet (SRes RUnit)]]) /\
   y_c st = MNone /\ sm_stack (y_m st) = [] /\ y_p st <> PIdle.
Proof. eexists. split; [vm_compute; reflexivity|]. split; [reflexivity|]. split; [reflexivity|discriminate]. Qed.
Example C98_example_protocol :
  match yrun ex_cf (ystart ex_cf ex_tm ex91_conf) ex98 with
  | Ok (_, os) => protocol_isr ex_cf ex91_conf ex_tm 7 300 (y_history os)
  | _ => False end.
Proof.
  set (os := match yrun ex_cf (ystart ex_cf ex_tm ex91_conf) ex98 with Ok (_, os) => y_history os | _ => [] end).
  assert (E0 : os = [SQ 7 (QPut 1); SL (LOp (OImmed 300)); SL LReturn; SL (LOp (OStep 0)); SQ 7 QGet; SQ 7 QGet;
                     SL (LOp (OIsr 9)); SL LReturn; SL (LOp (OStep 0)); SL LReturn]) by (vm_compute; reflexivity).
  assert (G : protocol_isr ex_cf ex91_conf ex_tm 7 300 os).
  { rewrite E0. clear. intros before l isrs rest E Hl Hi.
    do 10 (destruct before as [|b before];
      [injection E as <- E; first [discriminate Hl|
       destruct isrs as [|i1 isrs];
        [first [discriminate E|split; [intros (t & r & Hx)|intros (r & Hx)]; first [vm_compute; done|vm_compute in Hx; discriminate]]
        |first [discriminate E|injection E as <- E; apply Forall_inv in Hi as Hi1; first [discriminate Hi1|
           apply Forall_inv_tail in Hi; destruct isrs as [|i2 isrs];
            [first [discriminate E|split; [intros (t & r & Hx)|intros (r & Hx)]; first [vm_compute; done|vm_compute in Hx; discriminate]]
            |first [discriminate E|injection E as <- E; apply Forall_inv in Hi as Hi2; discriminate Hi2]]]]]]
      |injection E as <- E]).
    destruct before; discriminate. }
  subst os. destruct (yrun ex_cf (ystart ex_cf ex_tm ex91_conf) ex98) as [[st os]| |] eqn:Er; [exact G|vm_compute in Er; discriminate|vm_compute in Er; discriminate].
Qed.
