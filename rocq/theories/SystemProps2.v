(** * The whole system: the scheduler's side of C90, and property C96 *)
From Verif Require Import CSem FifoSpec QueueModel SpscModel MqueueModel MqueueSpec TaskModel SchedModel SchedSpec SchedProofs SchedProps SchedProps2 SchedProps3 SchedNested QueueProofs.
From Verif Require Import SystemModel SystemSpec SystemProofs SystemProps.

(** ** C90: the scheduler does not notice the queues *)
(** The labels of a history that concern the scheduler and the task objects: all but the
    queue calls, and the returns of functions entered by queue calls. *)
Definition sched_label (s : ssys) (l : slabel) : list label :=
  match l with
  | SL LReturn => match ss_stack s with FS _ :: _ => [LReturn] | _ => [] end
  | SL l => [l]
  | SQ _ _ => []
  end.
Fixpoint sched_part (cf : config) (qc : Z -> qconf) (s : ssys) (ls : list slabel) : list label :=
  match ls with
  | [] => []
  | l :: ls => sched_label s l ++ sched_part cf qc (fst (s_step cf qc s l)) ls
  end.
(** and their events, among the events [evs] of the whole history *)
Fixpoint sched_events (cf : config) (qc : Z -> qconf) (s : ssys) (ls : list slabel) (evs : list (list sevent)) : list (list sevent) :=
  match ls, evs with
  | l :: ls, e :: evs => match sched_label s l with [] => [] | _ => [e] end ++ sched_events cf qc (fst (s_step cf qc s l)) ls evs
  | _, _ => []
  end.

Section alone.
Context (cf : config) (qc : Z -> qconf).
Notation BT := (by_time (precedes cf)).
Definition fs_of (stk : list sframe) : list frame := concat (map (fun f => match f with FS f => [f] | _ => [] end) stk).
Definition agrees (s : ssys) (a : astate) : Prop := ss_w s = as_w a /\ fs_of (ss_stack s) = as_stack a.

Lemma fs_of_app a b : fs_of (a ++ b) = fs_of a ++ fs_of b.
Proof. unfold fs_of. by rewrite map_app, concat_app. Qed.
Lemma fs_of_FS l : fs_of (map FS l) = l.
Proof. induction l as [|x l IH]; [done|]. unfold fs_of in *. cbn [map concat app]. by rewrite IH. Qed.
(** a call does not look at the functions in progress below it *)
Definition on_top (r : aout) (stk : list frame) : aout :=
  MkOut (MkAs (as_w (ao_state r)) (as_stack (ao_state r) ++ stk)) (ao_evs r) (ao_in r) (ao_out r) (ao_drop r).
Lemma aop_on_top w stk o : aop cf BT w stk o = on_top (aop cf BT w [] o) stk.
Proof.
  assert (Hi : forall t, a_immed cf w stk t = on_top (a_immed cf w [] t) stk) by (intros t; unfold a_immed; by destruct (decide _)).
  assert (Hd : forall t at_, a_defer cf BT w stk t at_ = on_top (a_defer cf BT w [] t at_) stk) by (intros t at_; unfold a_defer; by destruct (decide _)).
  destruct o; cbn [aop]; try done.
  - destruct (choose _ _ _ _) as [[t g] a]. by destruct (decide _).
  - destruct (decide _); [apply Hi|done].
  - by destruct (decide _).
  - by destruct (decide _).
  - destruct (decide _); [done|]. by destruct (decide _).
Qed.
Lemma areturn_on_top w stk f : areturn cf w stk f = on_top (areturn cf w [] f) stk.
Proof. destruct f; cbn [areturn]; try done. unfold a_immed. by destruct (decide _). Qed.

Lemma agrees_step s a l : agrees s a ->
  agrees (fst (s_step cf qc s l)) (fst (arun cf BT a (sched_label s l))) /\
  match sched_label s l with [] => True | _ => map (map sevent_of) (snd (arun cf BT a (sched_label s l))) = [snd (s_step cf qc s l)] end.
Proof.
  intros [Hw Hs]. destruct l as [[o| |tm]|q o]; cbn [sched_label].
  - cbn [arun]. cbn [fst snd s_step astep]. rewrite <- Hw, <- Hs, (aop_on_top (ss_w s) (fs_of (ss_stack s)) o). unfold lift. cbn [fst snd on_top ao_state ao_evs as_w as_stack map].
    split; [|done]. split; [done|]. cbn [ss_stack]. by rewrite fs_of_app, fs_of_FS.
  - cbn [s_step]. destruct (ss_stack s) as [|f stk] eqn:Es.
    + cbn [arun fst snd]. split; [|done]. split; [done|]. by rewrite Es.
    + destruct f as [f|q t r|q t r].
      * cbn [arun]. cbn [astep]. change (f :: fs_of stk = as_stack a) in Hs. rewrite <- Hs, <- Hw, (areturn_on_top (ss_w s) (fs_of stk) f).
        unfold lift. cbn [fst snd on_top ao_state ao_evs as_w as_stack map]. split; [|done]. split; [done|]. cbn [ss_stack]. by rewrite fs_of_app, fs_of_FS.
      * cbn [arun fst snd]. split; [|done]. split; [done|]. exact Hs.
      * cbn [arun fst snd]. split; [|done]. split; [done|]. exact Hs.
  - cbn [arun astep s_step fst snd ao_state ao_evs map]. split; [|done]. split; [|done]. cbn [ss_w as_w]. by rewrite Hw.
  - cbn [arun fst snd]. split; [|done]. cbn [s_step]. destruct (fifo_step _ _ _) as [r l].
    destruct (decide _); [done|]. destruct (decide _); split; done.
Qed.
Lemma agrees_run : forall ls s a, agrees s a ->
  agrees (fst (s_run cf qc s ls)) (fst (arun cf BT a (sched_part cf qc s ls))) /\
  map (map sevent_of) (snd (arun cf BT a (sched_part cf qc s ls))) = sched_events cf qc s ls (snd (s_run cf qc s ls)).
Proof.
  induction ls as [|l ls IH]; intros s a Ha; [done|]. destruct (agrees_step s a l Ha) as [H1 H2].
  cbn [sched_part sched_events s_run]. rewrite arun_app. cbn [fst snd].
  destruct (IH _ _ H1) as [H3 H4]. destruct (s_step cf qc s l) as [s1 e1] eqn:E. cbn [fst snd] in *.
  destruct (s_run cf qc s1 ls) as [s2 e2]. cbn [fst snd] in *. split; [done|]. rewrite map_app, H4. f_equal.
  destruct (sched_label s l) as [|l0 ll] eqn:El; [done|]. exact H2.
Qed.
End alone.

(** Without its queue calls, and with nothing else changed, the history produces exactly the
    same events in the scheduler alone, and leaves it in the same state. *)
Theorem C90_scheduler_alone : forall cf tm conf ls, config_ok cf -> conf_ok cf conf ->
  let part := sched_part cf (qconf_of conf) (s_start tm) ls in
  exists m evs m' evs', srun cf (smach0 cf tm conf) ls = Ok (m, evs) /\
    mrun cf (machine0 cf tm) part = Ok (m', evs') /\
    map (map sevent_of) evs' = sched_events cf (qconf_of conf) (s_start tm) ls evs /\
    ss_w (s_after cf conf tm ls) = as_w (after cf (by_time (precedes cf)) tm part).
Proof.
  intros cf tm conf ls Hcf Hq part. destruct (run_ok cf tm Hcf part) as (m & E & _).
  destruct (C90_system cf tm conf ls Hcf Hq) as (m' & E').
  destruct (agrees_run cf (qconf_of conf) ls (s_start tm) (astate0 tm)) as [[H1 _] H2]; [done|].
  eexists m', _, m, _. split; [exact E'|]. split; [exact E|]. split; [exact H2|]. exact H1.
Qed.
Print Assumptions C90_scheduler_alone.
(** in the example of C90: three of the ten labels are the scheduler's; none of the returns is *)
Example C90_alone_example :
  sched_part ex_cf (qconf_of ex90_conf) (s_start ex_tm) ex90 = [LOp (OHooks 0 50 0); LOp (OImmed 9); LOp (OStep 0)].
Proof. vm_compute. reflexivity. Qed.

(** ** C96: a message waits for a bounded number of steps *)
Definition s_steps (ls : list slabel) : nat :=
  steps (concat (map (fun l => match l with SL l => [l] | SQ _ _ => [] end) ls)).
(** no reset, and no interrupt or deferred task is scheduled *)
Definition s_no_preempt (l : slabel) : Prop := match l with SL l => no_preempt l | SQ _ _ => True end.

Lemma steps_app l1 l2 : steps (l1 ++ l2) = (steps l1 + steps l2)%nat.
Proof. unfold steps. by rewrite filter_app, app_length. Qed.
Lemma sched_label_steps s l : steps (sched_label s l) = steps (match l with SL l => [l] | SQ _ _ => [] end).
Proof. destruct l as [[o| |tm]|q o]; try done. cbn [sched_label]. by destruct (ss_stack s) as [|[] ]. Qed.
Lemma sched_part_steps cf qc : forall ls s, steps (sched_part cf qc s ls) = s_steps ls.
Proof.
  induction ls as [|l ls IH]; intros s; [done|]. unfold s_steps. cbn [sched_part map concat]. rewrite !steps_app, IH, sched_label_steps. done.
Qed.
Lemma sched_part_app cf qc : forall l1 l2 s, sched_part cf qc s (l1 ++ l2) =
  sched_part cf qc s l1 ++ sched_part cf qc (fst (s_run cf qc s l1)) l2.
Proof.
  induction l1 as [|l l1 IH]; intros l2 s; [done|]. cbn [sched_part app s_run]. rewrite IH, app_assoc.
  destruct (s_step cf qc s l) as [s1 e]. cbn [fst]. by destruct (s_run cf qc s1 l1).
Qed.
Lemma sched_part_quiet cf qc : forall ls s, Forall s_no_preempt ls -> Forall no_preempt (sched_part cf qc s ls).
Proof.
  induction ls as [|l ls IH]; intros s H; [by apply Forall_nil_2|]. apply Forall_cons in H as [H1 H2]. cbn [sched_part].
  apply Forall_app. split; [|by apply IH]. destruct l as [[o| |tm]|q o]; cbn [sched_label].
  - apply Forall_cons_2; [exact H1|apply Forall_nil_2].
  - destruct (ss_stack s) as [|[] ]; try apply Forall_nil_2. apply Forall_cons_2; [exact I|apply Forall_nil_2].
  - apply Forall_cons_2; [exact I|apply Forall_nil_2].
  - apply Forall_nil_2.
Qed.
(** a step in the scheduler's part comes from a step of the history *)
Lemma sched_part_split cf qc : forall ls s A now B, sched_part cf qc s ls = A ++ LOp (OStep now) :: B ->
  exists lsA lsB, ls = lsA ++ SL (LOp (OStep now)) :: lsB /\ sched_part cf qc s lsA = A.
Proof.
  induction ls as [|l ls IH]; intros s A now B E; [by destruct A|]. cbn [sched_part] in E.
  assert (Hl : sched_label s l = [] \/ exists l', sched_label s l = [l'] /\ (l' = LOp (OStep now) -> l = SL (LOp (OStep now)))).
  { destruct l as [[o| |tm]|q o]; cbn [sched_label].
    - right. eexists. split; [done|]. by intros [= ->].
    - destruct (ss_stack s) as [|[] ]; eauto. right. by eexists.
    - right. by eexists.
    - by left. }
  destruct Hl as [Hl|(l' & Hl & Hs)]; rewrite Hl in E; cbn [app] in E.
  - destruct (IH _ _ _ _ E) as (lsA & lsB & -> & HA). exists (l :: lsA), lsB. split; [done|]. cbn [sched_part]. by rewrite Hl, HA.
  - destruct A as [|a A]; cbn [app] in E; injection E as E1 E2.
    + exists [], ls. split; [|done]. by rewrite Hs.
    + destruct (IH _ _ _ _ E2) as (lsA & lsB & -> & HA). exists (l :: lsA), lsB. split; [done|]. cbn [sched_part]. rewrite Hl, HA. by rewrite E1.
Qed.

(** With the protocol of C91: if the main program is in control and the queue holds a
    message, then one of the next (interrupt tasks) + (deferred tasks) + (immediate tasks)
    steps runs the consumer, whatever else the program does meanwhile, provided that it
    does not reset the scheduler nor schedule further interrupt or deferred tasks. *)
Theorem C96_consumer_runs : forall cf conf tm q c ls, config_ok cf -> conf_ok cf conf ->
  c <> NULL -> snd (fst (conf q)) <> NULL ->
  Forall no_reset ls -> protocol cf conf tm q c ls ->
  let s := s_after cf conf tm ls in
  let a := w_sys (ss_w s) in
  let bound := (length (a_irq a) + length (a_def a) + length (a_imm a))%nat in
  ss_stack s = [] -> semits cf tm conf ls (SQ q QIsEmpty) [SRet (SQRes (QBool false))] ->
  forall ls', Forall s_no_preempt ls' -> (bound <= s_steps ls')%nat ->
  exists lsA now lsB u, ls' = lsA ++ SL (LOp (OStep now)) :: lsB /\ (s_steps lsA < bound)%nat /\
    semits cf tm conf (ls ++ lsA) (SL (LOp (OStep now))) [SCall u] /\ call_task u = c.
Proof.
  intros cf conf tm q c ls Hcf Hq Hc Hput Hn Hp s a bound Hs He ls' Hnp Hst.
  assert (Hin : In c (a_imm a)).
  { destruct (C91_no_lost_wakeup cf conf tm q c ls Hcf Hq Hc Hput Hn Hp Hs) as [Hx|Hx]; [|exact Hx]. exfalso.
    destruct He as (m1 & e1 & E1 & _), Hx as (m2 & e2 & E2 & _). rewrite E1 in E2. injection E2 as _ E2.
    apply app_inj_tail in E2 as [_ E2]. discriminate. }
  apply elem_of_list_In, elem_of_list_lookup in Hin as [k Hk].
  set (part := sched_part cf (qconf_of conf) (s_start tm)).
  destruct (agrees_run cf (qconf_of conf) ls (s_start tm) (astate0 tm)) as [[Hw _] _]; [done|].
  change (ss_w s = as_w (after cf (by_time (precedes cf)) tm (part ls))) in Hw.
  assert (Ha : queues (after cf (by_time (precedes cf)) tm (part ls)) = a) by (unfold queues; by rewrite <- Hw).
  destruct (C46_immediate_latency cf tm (part ls) k c Hcf) with (ls' := sched_part cf (qconf_of conf) s ls')
    as (A & now & B & ev & E & HA & Hem & Hrun & _).
  - by rewrite Ha.
  - by apply sched_part_quiet.
  - rewrite Ha, sched_part_steps. apply lookup_lt_Some in Hk. unfold bound in Hst. lia.
  - rewrite Ha in HA. apply sched_part_split in E as (lsA & lsB & -> & <-). rewrite sched_part_steps in HA.
    assert (Epart : part ls ++ sched_part cf (qconf_of conf) s lsA = part (ls ++ lsA)) by (unfold part; by rewrite sched_part_app).
    rewrite Epart in Hem, Hrun.
    assert (Hlt := lookup_lt_Some _ _ _ Hk).
    destruct (agrees_run cf (qconf_of conf) (ls ++ lsA) (s_start tm) (astate0 tm)) as [Hag _]; [done|].
    destruct (agrees_step cf (qconf_of conf) _ _ (SL (LOp (OStep now))) Hag) as [_ Hev]. cbn [sched_label arun snd map] in Hev.
    apply emits_is in Hem; [|done].
    pose proof (semits_ok cf tm conf (ls ++ lsA) (SL (LOp (OStep now))) Hcf Hq) as Hse.
    fold part in Hev. fold (s_after cf conf tm (ls ++ lsA)) in Hev.
    change (fst (arun cf (by_time (precedes cf)) (astate0 tm) (part (ls ++ lsA)))) with (after cf (by_time (precedes cf)) tm (part (ls ++ lsA))) in Hev.
    rewrite <- Hem in Hev. assert (Hev' : map sevent_of ev = snd (s_step cf (qconf_of conf) (s_after cf conf tm (ls ++ lsA)) (SL (LOp (OStep now))))) by congruence. rewrite <- Hev' in Hse.
    destruct Hrun as [[? _]|[(_ & _ & ->)|(_ & _ & ->)]]; [done| |].
    + exists lsA, now, lsB. eexists. split; [done|]. split; [unfold bound; lia|]. split; [exact Hse|done].
    + exists lsA, now, lsB. eexists. split; [done|]. split; [unfold bound; lia|]. split; [exact Hse|done].
Qed.
Print Assumptions C96_consumer_runs.

(** And when the consumer's function returns, every message ever accepted by the queue has
    been taken out, oldest first (if nobody reset the queue). *)
Theorem C96_all_taken : forall cf conf tm q c ls, config_ok cf -> conf_ok cf conf ->
  protocol cf conf tm q c (ls ++ [SL LReturn]) -> consumer_run c (s_after cf conf tm ls) ->
  ~ In QReset (calls_on q ls) ->
  let os := fst (fifo_run (Z.of_nat (length (fst (fst (conf q))))) [] (calls_on q ls)) in
  gets_of (calls_on q ls) os = puts_of (calls_on q ls) os.
Proof.
  intros cf conf tm q c ls Hcf Hq Hp Hc Hnr os.
  destruct ls as [|l ls _] using rev_ind; [by destruct Hc as (r & Hx)|].
  destruct (Hp ls l []) as [_ H2]; [by rewrite <- app_assoc|]. destruct (H2 Hc) as [-> Hev].
  assert (Hcap : qc_cap (qconf_of conf q) = Z.of_nat (length (fst (fst (conf q))))) by (unfold qconf_of; by destruct (conf q) as [[? ?] ?]).
  pose proof (queue_after cf conf tm q (ls ++ [SQ q QGet])) as Hqa. rewrite Hcap in Hqa. fold os in Hqa.
  rewrite s_after_snoc, queue_label, Z.eqb_refl in Hqa. cbn [fifo_run fifo_step] in Hqa.
  cbn [s_step fifo_step] in Hev.
  destruct (ss_q (s_after cf conf tm ls) q) as [|x m].
  2:{ exfalso. destruct (decide _); [discriminate|]. destruct (decide _); discriminate. }
  cbn [snd] in Hqa. destruct (fifo_run _ [] (calls_on q (ls ++ [SQ q QGet]))) as [os' l'] eqn:E. cbn [snd] in Hqa. subst l'.
  apply fifo_conserve in E; [|done]. rewrite app_nil_r in E. unfold os. cbn [fst]. exact E.
Qed.
Print Assumptions C96_all_taken.

(** The example of C91: after two messages (six labels), the consumer is queued twice, so
    the first of two steps runs it; when it returns, both messages have been taken. *)
Example C96_example :
  let ls := take 6 ex91 in let s := s_after ex_cf ex91_conf ex_tm ls in let a := w_sys (ss_w s) in
  protocol ex_cf ex91_conf ex_tm 7 300 ls /\ ss_stack s = [] /\ Forall s_no_preempt (drop 6 ex91 ++ [SL (LOp (OStep 0))]) /\
  s_steps (drop 6 ex91 ++ [SL (LOp (OStep 0))]) = (length (a_irq a) + length (a_def a) + length (a_imm a))%nat /\
  consumer_run 300 (s_after ex_cf ex91_conf ex_tm (take 10 ex91)) /\
  gets_of (calls_on 7 (take 10 ex91)) (fst (fifo_run 2 [] (calls_on 7 (take 10 ex91)))) = [1; 2].
Proof.
  split; [|split; [by vm_compute|split; [repeat (apply Forall_cons_2; [exact I|]); apply Forall_nil_2|split; [by vm_compute|split; [eexists; vm_compute; reflexivity|by vm_compute]]]]].
  intros before l rest E. destruct C91_example as [Hp _]. apply (Hp before l (rest ++ drop 6 ex91)).
  rewrite <- (take_drop 6 ex91), E at 1. rewrite <- app_assoc. done.
Qed.
