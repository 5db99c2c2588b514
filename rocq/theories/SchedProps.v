(** * mu_sched: properties C39-C41, C43, C44, C47, C49, C59.

    Vocabulary.  A history is a list of [label]s run by the machine of SchedModel.v from
    power-up ([machine0]): API calls made by the main program, by running tasks or by hooks,
    at any nesting; returns of user functions; writes to task objects.  [after] (SchedSpec.v)
    gives the queues of the specification after the history. *)
From Verif Require Import CSem FifoSpec TaskModel SchedModel SchedSpec SchedProofs SchedOrder.

(** Real execution: after the history [ls], the label [l] produces the events [ev]. *)
Definition emits (cf : config) (tm : Z -> task) (ls : list label) (l : label) (ev : list event) : Prop :=
  exists m evs, mrun cf (machine0 cf tm) (ls ++ [l]) = Ok (m, evs ++ [ev]) /\ length evs = length ls.

(** From here on, the real scheduler cannot be told from the specification in state [s]. *)
Definition behaves_as (cf : config) (m : machine) (s : astate) : Prop :=
  forall ls, exists m', mrun cf m ls = Ok (m', snd (arun cf (by_time (precedes cf)) s ls)).

(** At every moment of the history the pending times are strictly weakly ordered by
    mu_time_precedes (true of any sane clock: see C40_linear_clock and C59). *)
Definition ordered (cf : config) (tm : Z -> task) (ls : list label) : Prop :=
  forall ls1 ls2, ls = ls1 ++ ls2 ->
    strict_weak (precedes cf) (times (a_def (queues (after cf (by_arrival (precedes cf)) tm ls1)))).

(** The events by which a step or call runs task [t] in state [s]: nothing for NULL, else
    one user function is entered: the call hook if there is one, else the task itself. *)
Definition runs (s : astate) (t : Z) (ev : list event) : Prop :=
  (t = NULL /\ ev = [ERet RUnit]) \/
  (t <> NULL /\ w_call_hook (as_w s) = NULL /\ ev = [ECall (UTask (t_fn (w_tasks (as_w s) t)) t)]) \/
  (t <> NULL /\ w_call_hook (as_w s) <> NULL /\ ev = [ECall (UCallHook (w_call_hook (as_w s)) t)]).

(** ** glue *)
Lemma arun_app cf dc s l1 l2 :
  arun cf dc s (l1 ++ l2) = (fst (arun cf dc (fst (arun cf dc s l1)) l2),
                             snd (arun cf dc s l1) ++ snd (arun cf dc (fst (arun cf dc s l1)) l2)).
Proof.
  revert s. induction l1 as [|l l1 IH]; intros s; cbn [arun app].
  - cbn [fst snd app]. by destruct (arun cf dc s l2).
  - rewrite IH. destruct (arun cf dc (ao_state (astep cf dc s l)) l1) as [s' es]. simpl. done.
Qed.
Lemma arun_snoc cf dc s l1 l :
  arun cf dc s (l1 ++ [l]) = (ao_state (astep cf dc (fst (arun cf dc s l1)) l),
                              snd (arun cf dc s l1) ++ [ao_evs (astep cf dc (fst (arun cf dc s l1)) l)]).
Proof. rewrite arun_app. done. Qed.
Lemma after_snoc cf dc tm ls l : after cf dc tm (ls ++ [l]) = ao_state (astep cf dc (after cf dc tm ls) l).
Proof. unfold after. rewrite arun_snoc. done. Qed.
Lemma after_app cf dc tm ls l2 : after cf dc tm (ls ++ l2) = fst (arun cf dc (after cf dc tm ls) l2).
Proof. unfold after. rewrite arun_app. done. Qed.
Lemma arun_length cf dc : forall ls s, length (snd (arun cf dc s ls)) = length ls.
Proof.
  induction ls as [|l ls IH]; intros s; [done|]. cbn [arun]. specialize (IH (ao_state (astep cf dc s l))).
  destruct (arun _ _ _ ls). simpl in *. lia.
Qed.
Lemma mrun_app cf : forall l1 m l2 m1 e1, mrun cf m l1 = Ok (m1, e1) ->
  mrun cf m (l1 ++ l2) = (let* '(m2, e2) := mrun cf m1 l2 in Ok (m2, e1 ++ e2)).
Proof.
  induction l1 as [|l l1 IH]; intros m l2 m1 e1 H; cbn [mrun app] in *.
  - injection H as <- <-. destruct (mrun cf m l2) as [[]| |]; done.
  - destruct (mstep cf m l) as [[m' e]| |]; try discriminate. cbn [bind] in *.
    destruct (mrun cf m' l1) as [[m2 e2]| |] eqn:E; try discriminate. cbn [bind] in H. injection H as <- <-.
    rewrite (IH m' l2 m2 e2 E). destruct (mrun cf m2 l2) as [[]| |]; done.
Qed.

Section glue.
Context (cf : config) (tm : Z -> task) (Hcf : config_ok cf).
Notation BT := (by_time (precedes cf)).
Notation BA := (by_arrival (precedes cf)).

Lemma mrep_behaves m s : mrep cf m s -> behaves_as cf m s.
Proof. intros H ls. destruct (mrun_ok cf Hcf ls m s H) as (m' & E & _). eauto. Qed.
Lemma run_ok ls : exists m, mrun cf (machine0 cf tm) ls = Ok (m, snd (arun cf BT (astate0 tm) ls)) /\
  mrep cf m (after cf BT tm ls).
Proof. apply mrun_ok; [done|]. by apply machine0_ok. Qed.
Lemma emits_time ls l : emits cf tm ls l (ao_evs (astep cf BT (after cf BT tm ls) l)).
Proof.
  destruct (run_ok (ls ++ [l])) as (m & E & _). rewrite arun_snoc in E. eexists _, _. split; [exact E|].
  apply arun_length.
Qed.

Lemma tview0 : tview cf (astate0 tm) = astate0 tm.
Proof. done. Qed.
Lemma after_same ls : ordered cf tm ls -> after cf BT tm ls = tview cf (after cf BA tm ls).
Proof.
  intros Ho. unfold after. rewrite <- tview0 at 1. rewrite arun_same; [done|]. exact Ho.
Qed.
Lemma ordered_here ls : ordered cf tm ls -> strict_weak (precedes cf) (times (a_def (queues (after cf BA tm ls)))).
Proof. intros Ho. apply (Ho ls []). by rewrite app_nil_r. Qed.
Lemma emits_arrival ls l : ordered cf tm ls -> emits cf tm ls l (ao_evs (astep cf BA (after cf BA tm ls) l)).
Proof.
  intros Ho. pose proof (emits_time ls l) as H. rewrite after_same in H by done.
  rewrite astep_same in H by (by apply ordered_here). exact H.
Qed.
Lemma runs_call s t ev : t <> NULL -> ev = [snd (enter (as_w s) t true)] -> runs s t ev.
Proof. intros Ht ->. unfold enter, runs. destruct (decide _); right; [left|right]; done. Qed.
Lemma runs_step s t gone (a' : asched) :
  runs s t (ao_evs (if decide (t = NULL)
      then with_out (ret (with_sys (as_w s) (a_with_curr a' NULL)) (as_stack s) RUnit) [] gone []
      else with_out (call (with_sys (as_w s) (a_with_curr a' t)) (as_stack s) (enter (as_w s) t true)) [] gone [])).
Proof. destruct (decide (t = NULL)); [by left|]. by apply runs_call. Qed.
Lemma queues_step s t gone (a' : asched) :
  queues (ao_state (if decide (t = NULL)
      then with_out (ret (with_sys (as_w s) (a_with_curr a' NULL)) (as_stack s) RUnit) [] gone []
      else with_out (call (with_sys (as_w s) (a_with_curr a' t)) (as_stack s) (enter (as_w s) t true)) [] gone []))
  = a_with_curr a' t.
Proof. destruct (decide (t = NULL)); [by subst|done]. Qed.
Lemma step_shape dc s now :
  let '(t, gone, a') := choose cf dc now (queues s) in
  runs s t (ao_evs (astep cf dc s (LOp (OStep now)))) /\
  queues (ao_state (astep cf dc s (LOp (OStep now)))) = a_with_curr a' t /\
  ao_out (astep cf dc s (LOp (OStep now))) = gone.
Proof.
  cbn [astep aop]. unfold queues at 1. destruct (choose cf dc now (w_sys (as_w s))) as [[t gone] a'].
  split; [apply runs_step|]. split; [apply queues_step|]. by destruct (decide _).
Qed.
End glue.

(** ** C40 *)
(** All observable events are those of the scheduler that keeps the deferred tasks in order
    of acceptance and always takes the earliest, the first accepted among equals. *)
Theorem C40_deferred_order : forall cf tm ls, config_ok cf -> ordered cf tm ls ->
  exists m, mrun cf (machine0 cf tm) ls = Ok (m, snd (arun cf (by_arrival (precedes cf)) (astate0 tm) ls)).
Proof.
  intros cf tm ls Hcf Ho. destruct (run_ok cf tm Hcf ls) as (m & E & _). exists m. rewrite E.
  rewrite <- (tview0 cf). rewrite arun_same by exact Ho. done.
Qed.
Print Assumptions C40_deferred_order.
(** In particular, what mu_sched_next_task returns. *)
Theorem C40_next_task : forall cf tm ls, config_ok cf -> ordered cf tm ls ->
  let d := a_def (queues (after cf (by_arrival (precedes cf)) tm ls)) in
  exists t, emits cf tm ls (LOp ONext) [ERet (RTask t)] /\
    ((d = [] /\ t = NULL) \/ exists at_ rest, is_earliest (precedes cf) d (at_, t) rest).
Proof.
  intros cf tm ls Hcf Ho d. pose proof (emits_arrival cf tm Hcf ls (LOp ONext) Ho) as H.
  cbn [astep aop ret ao_evs by_arrival d_next] in H. eexists. split; [exact H|].
  fold (queues (after cf (by_arrival (precedes cf)) tm ls)). fold d.
  destruct (earliest (precedes cf) d) as [[[at_ t] rest]|] eqn:E.
  - right. exists at_, rest. apply earliest_spec; [|done]. by apply ordered_here.
  - apply earliest_None in E. by left.
Qed.
Print Assumptions C40_next_task.
(** With a clock that does not wrap around there is nothing to assume. *)
Lemma ltb_strict_weak P : strict_weak Z.ltb P.
Proof. split_and!; intros; lia. Qed.
Theorem C40_linear_clock : forall cf tm ls, config_ok cf -> precedes cf = Z.ltb ->
  exists m, mrun cf (machine0 cf tm) ls = Ok (m, snd (arun cf (by_arrival Z.ltb) (astate0 tm) ls)).
Proof.
  intros cf tm ls Hcf E. rewrite <- E. apply C40_deferred_order; [done|].
  intros ls1 ls2 _. rewrite E. apply ltb_strict_weak.
Qed.
Print Assumptions C40_linear_clock.

Definition ex_cf : config := MkConfig P32 4 4 4 Z.ltb Z.add.
Lemma ex_cf_ok : config_ok ex_cf.
Proof. unfold config_ok, valid_cap, int_max. vm_compute. intuition (try congruence). Qed.
Definition ex_tm : Z -> task := fun t => MkTask (1000 + t) 0 0.
(** three entries, two of equal time, one removed; then two steps *)
Definition ex_hist : list label :=
  [LOp (ODefer 11 20); LOp (ODefer 12 10); LOp (ODefer 13 10); LOp (ODefer 14 5); LOp (ORemove 14)].
Example C40_example :
  exists m, mrun ex_cf (machine0 ex_cf ex_tm) (ex_hist ++ [LOp ONext; LOp (OStep 10); LReturn; LOp ONext; LOp (OStep 30); LReturn; LOp ONext])
   = Ok (m, [[ERet (RErr SCHED_NONE)]; [ERet (RErr SCHED_NONE)]; [ERet (RErr SCHED_NONE)]; [ERet (RErr SCHED_NONE)]; [ERet (RErr SCHED_NONE)];
     [ERet (RTask 12)]; [ECall (UTask 1012 12)]; [ERet RUnit]; [ERet (RTask 13)]; [ECall (UTask 1013 13)]; [ERet RUnit]; [ERet (RTask 11)]]).
Proof. eexists. vm_compute. reflexivity. Qed.
Example C40_example_ordered : ordered ex_cf ex_tm ex_hist /\
  a_def (queues (after ex_cf (by_arrival Z.ltb) ex_tm ex_hist)) = [(20, 11); (10, 12); (10, 13)].
Proof. split; [|reflexivity]. intros ls1 ls2 _. apply ltb_strict_weak. Qed.

(** ** C39 *)
Theorem C39_step_priority : forall cf tm ls now, config_ok cf -> ordered cf tm ls ->
  let dc := by_arrival (precedes cf) in
  let s := after cf dc tm ls in
  let q := queues s in
  let q' := queues (after cf dc tm (ls ++ [LOp (OStep now)])) in
  strict_weak (precedes cf) (fun x => x = now \/ times (a_def q) x) ->
  Forall (fun e => snd e <> NULL) (a_def q) ->
  exists ev t, emits cf tm ls (LOp (OStep now)) ev /\ runs s t ev /\
    ((* an interrupt task is queued: the oldest *)
     (exists irq, a_irq q = t :: irq /\ q' = MkA irq (a_imm q) (a_def q) t (a_idle q)) \/
     (* else a deferred task is due: the earliest *)
     (a_irq q = [] /\ exists at_ rest, is_earliest (precedes cf) (a_def q) (at_, t) rest /\
        precedes cf now at_ = false /\ q' = MkA [] (a_imm q) rest t (a_idle q)) \/
     (* else, all deferred tasks being in the future: the oldest immediate task *)
     (a_irq q = [] /\ Forall (fun e => precedes cf now (fst e) = true) (a_def q) /\
        exists imm, a_imm q = t :: imm /\ q' = MkA [] imm (a_def q) t (a_idle q)) \/
     (* else the idle task *)
     (a_irq q = [] /\ Forall (fun e => precedes cf now (fst e) = true) (a_def q) /\ a_imm q = [] /\
        t = a_idle q /\ q' = MkA [] [] (a_def q) t (a_idle q))).
Proof.
  intros cf tm ls now Hcf Ho dc s q q' Hsw Hnn.
  exists (ao_evs (astep cf dc s (LOp (OStep now)))).
  pose proof (step_shape cf dc s now) as Hsh. fold q in Hsh.
  assert (Hq' : q' = queues (ao_state (astep cf dc s (LOp (OStep now))))) by (subst q'; by rewrite after_snoc).
  rewrite <- Hq' in Hsh. clear Hq'.
  unfold choose in Hsh. destruct (a_irq q) as [|t irq] eqn:Ei.
  2:{ destruct Hsh as (Hr & Hq & _). exists t. split; [by apply emits_arrival|]. split; [done|]. left. exists irq. split; [done|].
      rewrite Hq. done. }
  unfold due in Hsh. cbn [dc by_arrival d_next] in Hsh.
  assert (Hsw' : strict_weak (precedes cf) (times (a_def q))) by (by apply ordered_here).
  destruct (earliest (precedes cf) (a_def q)) as [[[at_ t] rest]|] eqn:Ee.
  - pose proof (earliest_spec _ _ Hsw' _ _ Ee) as Hearl.
    destruct (precedes cf now at_) eqn:Ep.
    + assert (Hall : Forall (fun e => precedes cf now (fst e) = true) (a_def q)).
      { destruct Hearl as (l1 & l2 & E1 & -> & Hl1 & Hl2). apply Forall_forall. intros x Hx.
        destruct Hsw as (Hi & Ht & Hn).
        assert (Hmem : forall y, y ∈ a_def q -> fst y = now \/ times (a_def q) (fst y)).
        { intros y Hy. right. unfold times. apply in_map. by apply elem_of_list_In. }
        assert (He : at_ = now \/ times (a_def q) at_) by (apply (Hmem (at_, t)); rewrite E1; apply elem_of_app; right; left).
        specialize (Hmem x Hx).
        rewrite E1 in Hx. apply elem_of_app in Hx as [Hx|Hx].
        - rewrite Forall_forall in Hl1. apply (Ht now at_ (fst x)); auto; by left.
        - apply elem_of_cons in Hx as [->|Hx]; [done|]. rewrite Forall_forall in Hl2. specialize (Hl2 x Hx). simpl in Hl2.
          destruct (precedes cf now (fst x)) eqn:Ex; [done|]. rewrite <- Ep. symmetry. eapply (Hn now (fst x) at_); auto; by left. }
      rewrite decide_False in Hsh by (by intros ?).
      destruct (a_imm q) as [|t' imm] eqn:Em; destruct Hsh as (Hr & Hq & _).
      * exists (a_idle q). split; [by apply emits_arrival|]. split; [done|]. do 3 right. rewrite Hq. 
        destruct q; simpl in *; subst; done.
      * exists t'. split; [by apply emits_arrival|]. split; [done|]. right; right; left. split; [done|]. split; [done|].
        exists imm. rewrite Hq. destruct q; simpl in *; subst; done.
    + assert (Ht : t <> NULL).
      { destruct Hearl as (l1 & l2 & E1 & _). rewrite E1 in Hnn. apply Forall_app in Hnn as [_ Hnn]. by inversion Hnn. }
      rewrite decide_True in Hsh by done. destruct Hsh as (Hr & Hq & _).
      exists t. split; [by apply emits_arrival|]. split; [done|]. right; left. split; [done|].
      exists at_, rest. split; [done|]. split; [done|]. rewrite Hq. destruct q; simpl in *; subst; done.
  - apply earliest_None in Ee. rewrite Ee.
    rewrite decide_False in Hsh by (by intros ?).
    destruct (a_imm q) as [|t' imm] eqn:Em; destruct Hsh as (Hr & Hq & _).
    + exists (a_idle q). split; [by apply emits_arrival|]. split; [done|]. do 3 right. rewrite Hq.
      destruct q; simpl in *; subst; done.
    + exists t'. split; [by apply emits_arrival|]. split; [done|]. right; right; left. split; [done|]. split; [constructor|].
      exists imm. rewrite Hq. destruct q; simpl in *; subst; done.
Qed.
Print Assumptions C39_step_priority.

(** What happens after the first user function: once the call hook returns the task's
    function is called, exactly once; when this returns, mu_sched_step returns. *)
Theorem C39_step_completes : forall cf tm ls t stk, config_ok cf ->
  let s := after cf (by_time (precedes cf)) tm ls in
  (as_stack s = FStepHook t :: stk ->
     emits cf tm ls LReturn [ECall (UTask (t_fn (w_tasks (as_w s) t)) t)] /\
     as_stack (after cf (by_time (precedes cf)) tm (ls ++ [LReturn])) = FStepFn t :: stk) /\
  (as_stack s = FStepFn t :: stk ->
     emits cf tm ls LReturn [ERet RUnit] /\
     as_stack (after cf (by_time (precedes cf)) tm (ls ++ [LReturn])) = stk).
Proof.
  intros cf tm ls t stk Hcf s. pose proof (emits_time cf tm Hcf ls LReturn) as H. fold s in H.
  rewrite after_snoc. fold s. cbn [astep] in *.
  split; intros E; rewrite E in *; cbn [areturn call ret ao_evs ao_state as_stack fst snd] in *; done.
Qed.
Print Assumptions C39_step_completes.

(** all four cases, with a call hook in the last *)
Example C39_example :
  exists m, mrun ex_cf (machine0 ex_cf ex_tm)
    [LOp (OSetIdle 9); LOp (OImmed 3); LOp (ODefer 2 10); LOp (OIsr 1);
     LOp (OStep 10); LReturn; LOp (OStep 10); LReturn; LOp (OStep 10); LReturn; LOp (OHooks 0 77 0); LOp (OStep 10); LReturn; LReturn]
   = Ok (m, [[ERet RUnit]; [ERet (RErr SCHED_NONE)]; [ERet (RErr SCHED_NONE)]; [ERet (RErr SCHED_NONE)];
     [ECall (UTask 1001 1)]; [ERet RUnit]; [ECall (UTask 1002 2)]; [ERet RUnit]; [ECall (UTask 1003 3)]; [ERet RUnit]; [ERet RUnit];
     [ECall (UCallHook 77 9)]; [ECall (UTask 1009 9)]; [ERet RUnit]]).
Proof. eexists. vm_compute. reflexivity. Qed.
Example C39_example_hyps : let q := queues (after ex_cf (by_arrival Z.ltb) ex_tm ex_hist) in
  strict_weak Z.ltb (fun x => x = 15 \/ times (a_def q) x) /\ Forall (fun e => snd e <> NULL) (a_def q).
Proof. split; [apply ltb_strict_weak|]. vm_compute. repeat constructor; done. Qed.

(** ** C41: for every function mu_time_precedes whatsoever *)
Theorem C41_not_early : forall cf tm ls now, config_ok cf ->
  let dc := by_time (precedes cf) in
  let s := after cf dc tm ls in
  let d := a_def (queues s) in
  let d' := a_def (queues (after cf dc tm (ls ++ [LOp (OStep now)]))) in
  exists ev, emits cf tm ls (LOp (OStep now)) ev /\
    ((* no deferred task leaves the queue *) d' = d \/
     (* one does: its time is not after now; it is the one that runs, unless it is NULL *)
     exists at_ t, d = (at_, t) :: d' /\ precedes cf now at_ = false /\ (t <> NULL -> runs s t ev)) /\
    (* while all pending times are in the future, none is taken *)
    (Forall (fun e => precedes cf now (fst e) = true) d -> d' = d).
Proof.
  intros cf tm ls now Hcf dc s d d'. eexists. split; [by apply emits_time|].
  pose proof (step_shape cf dc s now) as Hsh. fold s.
  assert (Hd' : d' = a_def (queues (ao_state (astep cf dc s (LOp (OStep now)))))) by (subst d'; by rewrite after_snoc).
  fold dc. set (ev := ao_evs _) in *. rewrite Hd'. clear Hd' d'.
  unfold choose in Hsh. destruct (a_irq (queues s)) as [|t irq] eqn:Ei.
  2:{ destruct Hsh as (Hr & -> & _). cbn [a_with_curr a_with_irq a_def]. split; [by left|done]. }
  unfold due in Hsh. cbn [dc by_time d_next] in Hsh. fold d in Hsh.
  destruct d as [|[at_ t] rest] eqn:Ed.
  - rewrite decide_False in Hsh by (by intros ?).
    destruct (a_imm (queues s)) as [|t' imm] eqn:Em; destruct Hsh as (Hr & -> & _); cbn [a_with_curr a_with_imm a_def]; fold d; rewrite Ed;
      (split; [by left|done]).
  - destruct (precedes cf now at_) eqn:Ep.
    + rewrite decide_False in Hsh by (by intros ?).
      destruct (a_imm (queues s)) as [|t' imm] eqn:Em; destruct Hsh as (Hr & -> & _); cbn [a_with_curr a_with_imm a_def]; fold d; rewrite Ed;
      (split; [by left|done]).
    + split.
      * right. exists at_, t. destruct (decide (t <> NULL)) as [Ht|Ht].
        -- destruct Hsh as (Hr & -> & _). cbn [a_with_curr a_with_def a_def]. done.
        -- destruct (a_imm _) as [|t' imm] eqn:Em; destruct Hsh as (Hr & -> & _); cbn [a_with_curr a_with_imm a_with_def a_def];
             (split; [done|]; split; [done|]; intros H; done).
      * intros HF. inversion HF as [|? ? Hx]; subst. simpl in Hx. congruence.
Qed.
Print Assumptions C41_not_early.
Example C41_example : exists m, mrun ex_cf (machine0 ex_cf ex_tm)
    [LOp (ODefer 2 10); LOp (OStep 9); LOp (OStep 10)]
  = Ok (m, [[ERet (RErr SCHED_NONE)]; [ERet RUnit]; [ECall (UTask 1002 2)]]).
Proof. eexists. vm_compute. reflexivity. Qed.

(** ** C43 *)
Lemma filter_nil_iff (d : list (Z * Z)) t : filter (fun e : Z * Z => snd e = t) d = [] <-> ~ exists at_, In (at_, t) d.
Proof.
  split.
  - intros H (at_ & Hin). apply elem_of_list_In in Hin.
    assert (Hx : (at_, t) ∈ filter (fun e : Z * Z => snd e = t) d) by (by apply elem_of_list_filter).
    rewrite H in Hx. by apply elem_of_nil in Hx.
  - intros H. destruct (filter _ d) as [|[a b] l] eqn:E; [done|]. exfalso. apply H.
    assert (Hx : (a, b) ∈ filter (fun e : Z * Z => snd e = t) d) by (rewrite E; by left).
    apply elem_of_list_filter in Hx as [Hb Hx]. simpl in Hb. subst. exists a. by apply elem_of_list_In.
Qed.
Theorem C43_remove_deferred : forall cf tm ls t, config_ok cf ->
  let s := after cf (by_time (precedes cf)) tm ls in
  let q := queues s in
  exists m evs m' r, 
    mrun cf (machine0 cf tm) ls = Ok (m, evs) /\ behaves_as cf m s /\
    mstep cf m (LOp (ORemove t)) = Ok (m', [ERet (RErr r)]) /\
    (* afterwards: the entries for other tasks, in the same order; nothing else changed *)
    behaves_as cf m' (MkAs (with_sys (as_w s)
        (MkA (a_irq q) (a_imm q) (filter (fun e => snd e <> t) (a_def q)) (a_curr q) (a_idle q))) (as_stack s)) /\
    (r = SCHED_NONE /\ (exists at_, In (at_, t) (a_def q)) \/
     r = SCHED_NOT_FOUND /\ ~ exists at_, In (at_, t) (a_def q)).
Proof.
  intros cf tm ls t Hcf s q. destruct (run_ok cf tm Hcf ls) as (m & E & Hm). fold s in Hm.
  destruct (mstep_ok cf Hcf m s (LOp (ORemove t)) Hm) as (m' & E' & Hm').
  exists m, (snd (arun cf (by_time (precedes cf)) (astate0 tm) ls)), m'. cbn [astep aop] in E', Hm'.
  unfold with_out, ret in E', Hm'. cbn [ao_evs ao_state] in E', Hm'.
  eexists. split; [done|]. split; [by apply mrep_behaves|]. split; [exact E'|]. split; [by apply mrep_behaves|].
  fold (queues s). fold q.
  destruct (decide (filter (fun e : Z * Z => snd e = t) (a_def q) = [])) as [H|H].
  - right. split; [done|]. by apply filter_nil_iff.
  - left. split; [done|]. destruct (filter _ (a_def q)) as [|[a b] l] eqn:El; [done|].
    assert (Hx : (a, b) ∈ filter (fun e : Z * Z => snd e = t) (a_def q)) by (rewrite El; by left).
    apply elem_of_list_filter in Hx as [Hb Hx]. simpl in Hb. subst. exists a. by apply elem_of_list_In.
Qed.
Print Assumptions C43_remove_deferred.
Example C43_example : exists m, mrun ex_cf (machine0 ex_cf ex_tm)
    [LOp (ODefer 2 10); LOp (ODefer 3 11); LOp (ODefer 2 12); LOp (ODefer 4 13); LOp (ORemove 2); LOp (ORemove 2);
     LOp (OStep 20); LReturn; LOp (OStep 20); LReturn; LOp (OStep 20)]
  = Ok (m, [[ERet (RErr SCHED_NONE)]; [ERet (RErr SCHED_NONE)]; [ERet (RErr SCHED_NONE)]; [ERet (RErr SCHED_NONE)];
            [ERet (RErr SCHED_NONE)]; [ERet (RErr SCHED_NOT_FOUND)];
            [ECall (UTask 1003 3)]; [ERet RUnit]; [ECall (UTask 1004 4)]; [ERet RUnit]; [ERet RUnit]]).
Proof. eexists. vm_compute. reflexivity. Qed.

(** ** C44 *)
(** Which call schedules which task where: its queue length and limit *)
Definition full_now (cf : config) (q : asched) (o : op) : Prop :=
  match o with
  | OImmed _ => Z.of_nat (length (a_imm q)) = MAX_IMMED cf
  | OIsr _ => Z.of_nat (length (a_irq q)) = MAX_IRQ cf - 1
  | ODefer _ _ | ODeferFor _ _ _ => Z.of_nat (length (a_def q)) = MAX_DEFERRED cf
  | _ => False
  end.
Definition scheduling (o : op) : Prop :=
  match o with OImmed _ | OIsr _ | ODefer _ _ | ODeferFor _ _ _ => True | _ => False end.
(** the queues after the call was accepted *)
Definition accepted (cf : config) (q : asched) (o : op) (q' : asched) : Prop :=
  match o with
  | OImmed t => q' = MkA (a_irq q) (a_imm q ++ [t]) (a_def q) (a_curr q) (a_idle q)
  | OIsr t => q' = MkA (a_irq q ++ [t]) (a_imm q) (a_def q) (a_curr q) (a_idle q)
  | ODefer t at_ => exists d1 d2, a_def q = d1 ++ d2 /\
      q' = MkA (a_irq q) (a_imm q) (d1 ++ (at_, t) :: d2) (a_curr q) (a_idle q)
  | ODeferFor t now dt => exists d1 d2, a_def q = d1 ++ d2 /\
      q' = MkA (a_irq q) (a_imm q) (d1 ++ (offset cf now dt, t) :: d2) (a_curr q) (a_idle q)
  | _ => False
  end.

Lemma irq_capacity_pow2 n k : 1 <= k -> n = 2 ^ k -> irq_capacity n = n - 1.
Proof.
  intros Hk ->. unfold irq_capacity. rewrite Z.log2_pow2, Z.eqb_refl by lia.
  assert (2 ^ 1 <= 2 ^ k) by (apply Z.pow_le_mono_r; lia). destruct (Z.leb_spec 2 (2 ^ k)); [done|lia].
Qed.
Lemma ins_split prec e d : exists d1 d2, d = d1 ++ d2 /\ ins prec e d = d1 ++ e :: d2.
Proof.
  induction d as [|x d (d1 & d2 & E1 & E2)]; [by exists [], []|]. cbn [ins]. destruct (prec _ _).
  - exists [], (x :: d). done.
  - exists (x :: d1), d2. rewrite E2, E1. done.
Qed.

Definition within (cf : config) (q : asched) : Prop :=
  Z.of_nat (length (a_imm q)) <= MAX_IMMED cf /\
  Z.of_nat (length (a_irq q)) <= irq_capacity (MAX_IRQ cf) /\
  Z.of_nat (length (a_def q)) <= MAX_DEFERRED cf.
Lemma choose_within cf now q : within cf q ->
  let '(_, _, q') := choose cf (by_time (precedes cf)) now q in within cf q'.
Proof.
  intros (H1 & H2 & H3). unfold choose. destruct (a_irq q) as [|x irq] eqn:E.
  - unfold due. cbn [by_time d_next]. destruct (a_def q) as [|[at_ t] d] eqn:Ed.
    + rewrite decide_False by (by intros ?). destruct (a_imm q) eqn:Em; unfold within; cbn [a_with_imm a_irq a_imm a_def]; rewrite ?E, ?Ed, ?Em; simpl in *; lia.
    + destruct (precedes cf now at_).
      * rewrite decide_False by (by intros ?). destruct (a_imm q) eqn:Em; unfold within; cbn [a_with_imm a_irq a_imm a_def]; rewrite ?E, ?Ed, ?Em; simpl in *; lia.
      * destruct (decide _); [|cbn [a_with_def a_imm]; destruct (a_imm q) eqn:Em]; unfold within; cbn [a_with_imm a_with_def a_irq a_imm a_def]; rewrite ?E, ?Ed, ?Em; simpl in *; lia.
  - unfold within. cbn [a_with_irq a_irq a_imm a_def]. simpl in *. lia.
Qed.
Lemma step_within cf s l : config_ok cf -> within cf (queues s) -> within cf (queues (ao_state (astep cf (by_time (precedes cf)) s l))).
Proof.
  intros Hcf Hw. assert (Hc0 : 0 <= irq_capacity (MAX_IRQ cf)) by (unfold irq_capacity; destruct (_ && _) eqn:E; lia).
  destruct Hcf as (HMD & HMI & HMM & _).
  destruct s as [w stk]. unfold queues in *. cbn [as_w] in *.
  assert (Him : forall stk t, within cf (w_sys (as_w (ao_state (a_immed cf w stk t))))).
  { intros stk' t. unfold a_immed. destruct (decide _); [|done]. unfold within in *. simpl. rewrite app_length. simpl. lia. }
  assert (Hdf : forall t at_, within cf (w_sys (as_w (ao_state (a_defer cf (by_time (precedes cf)) w stk t at_))))).
  { intros t at_. unfold a_defer. destruct (decide _); [|done]. unfold within in *. simpl. rewrite ins_length. lia. }
  destruct l as [o| |m]; cbn [astep as_w as_stack].
  - destruct o; cbn [aop]; try done; try (by auto).
    + unfold within. simpl. lia.
    + unfold within. simpl. lia.
    + pose proof (choose_within cf now (w_sys w) Hw) as H. destruct (choose _ _ _ _) as [[t g] q']. by destruct (decide _).
    + destruct (decide _); [auto|done].
    + destruct (decide _); [|done]. unfold within in *. simpl. rewrite app_length. simpl. lia.
    + unfold within in *. simpl. pose proof (filter_length (fun e : Z * Z => snd e <> t) (a_def (w_sys w))). lia.
    + by destruct (decide _).
    + by repeat destruct (decide _).
  - destruct stk as [|f stk]; [done|]. destruct f; cbn [areturn]; done.
  - done.
Qed.
Lemma after_within cf tm ls : config_ok cf -> within cf (queues (after cf (by_time (precedes cf)) tm ls)).
Proof.
  intros Hcf. induction ls as [|l ls IH] using rev_ind.
  - destruct Hcf as (HMD & HMI & HMM & _). unfold within, after. simpl. unfold irq_capacity. destruct (_ && _) eqn:E; lia.
  - rewrite after_snoc. by apply step_within.
Qed.

Theorem C44_full : forall cf tm ls o, config_ok cf -> (exists k, 1 <= k /\ MAX_IRQ cf = 2 ^ k) -> scheduling o ->
  let s := after cf (by_time (precedes cf)) tm ls in
  let q := queues s in
  exists m evs m' r,
    mrun cf (machine0 cf tm) ls = Ok (m, evs) /\ behaves_as cf m s /\
    mstep cf m (LOp o) = Ok (m', [ERet (RErr r)]) /\
    ((full_now cf q o /\ r = SCHED_FULL /\ behaves_as cf m' s) \/
     (~ full_now cf q o /\ r = SCHED_NONE /\
        exists q', accepted cf q o q' /\ behaves_as cf m' (MkAs (with_sys (as_w s) q') (as_stack s)))) /\
    (* the limits are never exceeded *)
    Z.of_nat (length (a_imm q)) <= MAX_IMMED cf /\ Z.of_nat (length (a_irq q)) <= MAX_IRQ cf - 1 /\
    Z.of_nat (length (a_def q)) <= MAX_DEFERRED cf.
Proof.
  intros cf tm ls o Hcf (k & Hk & HkM) Ho s q. destruct (run_ok cf tm Hcf ls) as (m & E & Hm). fold s in Hm.
  pose proof (irq_capacity_pow2 _ _ Hk HkM) as Hcap.
  pose proof (after_within cf tm ls Hcf) as (W1 & W2 & W3). fold s in W1, W2, W3. fold q in W1, W2, W3. rewrite Hcap in W2.
  destruct (mstep_ok cf Hcf m s (LOp o) Hm) as (m' & E' & Hm').
  exists m, (snd (arun cf (by_time (precedes cf)) (astate0 tm) ls)), m'.
  assert (Hs : s = MkAs (as_w s) (as_stack s)) by (by destruct s).
  destruct o; try done; cbn [astep aop] in E', Hm'.
  - unfold a_immed in *. fold (queues s) in E', Hm'. fold q in E', Hm'.
    destruct (decide _) in E', Hm'; unfold with_out, ret in E', Hm'; cbn [ao_evs ao_state] in E', Hm'; eexists;
      (split; [done|]; split; [by apply mrep_behaves|]; split; [exact E'|]; split; [|done]).
    + right. split; [simpl; lia|]. split; [done|]. eexists. split; [done|]. by apply mrep_behaves.
    + left. split; [simpl; lia|]. split; [done|]. rewrite Hs. by apply mrep_behaves.
  - fold (queues s) in E', Hm'. fold q in E', Hm'. rewrite Hcap in E', Hm'.
    destruct (decide _) in E', Hm'; unfold with_out, ret in E', Hm'; cbn [ao_evs ao_state] in E', Hm'; eexists;
      (split; [done|]; split; [by apply mrep_behaves|]; split; [exact E'|]; split; [|done]).
    + right. split; [simpl; lia|]. split; [done|]. eexists. split; [done|]. by apply mrep_behaves.
    + left. split; [simpl; lia|]. split; [done|]. rewrite Hs. by apply mrep_behaves.
  - unfold a_defer in *. fold (queues s) in E', Hm'. fold q in E', Hm'. cbn [by_time d_put] in E', Hm'.
    destruct (decide _) in E', Hm'; unfold with_out, ret in E', Hm'; cbn [ao_evs ao_state] in E', Hm'; eexists;
      (split; [done|]; split; [by apply mrep_behaves|]; split; [exact E'|]; split; [|done]).
    + right. split; [simpl; lia|]. split; [done|].
      destruct (ins_split (precedes cf) (at_, t) (a_def q)) as (d1 & d2 & Hd & Hi).
      eexists. split; [exists d1, d2; split; [exact Hd|reflexivity]|]. rewrite <- Hi. by apply mrep_behaves.
    + left. split; [simpl; lia|]. split; [done|]. rewrite Hs. by apply mrep_behaves.
  - unfold a_defer in *. fold (queues s) in E', Hm'. fold q in E', Hm'. cbn [by_time d_put] in E', Hm'.
    destruct (decide _) in E', Hm'; unfold with_out, ret in E', Hm'; cbn [ao_evs ao_state] in E', Hm'; eexists;
      (split; [done|]; split; [by apply mrep_behaves|]; split; [exact E'|]; split; [|done]).
    + right. split; [simpl; lia|]. split; [done|].
      destruct (ins_split (precedes cf) (offset cf now dt, t) (a_def q)) as (d1 & d2 & Hd & Hi).
      eexists. split; [exists d1, d2; split; [exact Hd|reflexivity]|]. rewrite <- Hi. by apply mrep_behaves.
    + left. split; [simpl; lia|]. split; [done|]. rewrite Hs. by apply mrep_behaves.
Qed.
Print Assumptions C44_full.
Example C44_example : (exists k, 1 <= k /\ MAX_IRQ ex_cf = 2 ^ k) /\
  exists m, mrun ex_cf (machine0 ex_cf ex_tm) [LOp (OIsr 1); LOp (OIsr 2); LOp (OIsr 3); LOp (OIsr 4);
     LOp (OImmed 1); LOp (OImmed 2); LOp (OImmed 3); LOp (OImmed 4); LOp (OImmed 5);
     LOp (ODefer 1 4); LOp (ODefer 2 3); LOp (ODeferFor 3 1 1); LOp (ODefer 4 1); LOp (ODefer 5 0)]
  = Ok (m, map (fun r => [ERet (RErr r)]) [SCHED_NONE; SCHED_NONE; SCHED_NONE; SCHED_FULL; SCHED_NONE; SCHED_NONE; SCHED_NONE; SCHED_NONE; SCHED_FULL;
       SCHED_NONE; SCHED_NONE; SCHED_NONE; SCHED_NONE; SCHED_FULL]).
Proof. split; [by exists 2|]. eexists. vm_compute. reflexivity. Qed.

(** ** C47 *)
Theorem C47_reset : forall cf tm ls now, config_ok cf ->
  let s := after cf (by_time (precedes cf)) tm ls in
  (* the idle task [i] before the reset is kept; no task is current or deferred; the next
     step runs only the idle task *)
  exists m evs ev, mrun cf (machine0 cf tm) (ls ++ [LOp OGetIdle; LOp OReset; LOp OCurrent; LOp ONext; LOp OGetIdle; LOp (OStep now)]) =
      Ok (m, evs ++ [[ERet (RTask (a_idle (queues s)))]; [ERet RUnit]; [ERet (RTask NULL)]; [ERet (RTask NULL)]; [ERet (RTask (a_idle (queues s)))]; ev]) /\
    runs s (a_idle (queues s)) ev /\
  (* and from then on it behaves as a scheduler with empty queues and this idle task *)
  exists m1 e1, mrun cf (machine0 cf tm) (ls ++ [LOp OReset]) = Ok (m1, e1) /\
    behaves_as cf m1 (MkAs (with_sys (as_w s) (MkA [] [] [] NULL (a_idle (queues s)))) (as_stack s)).
Proof.
  intros cf tm ls now Hcf s.
  destruct (run_ok cf tm Hcf (ls ++ [LOp OGetIdle; LOp OReset; LOp OCurrent; LOp ONext; LOp OGetIdle; LOp (OStep now)])) as (m & E & _).
  rewrite arun_app in E. fold (after cf (by_time (precedes cf)) tm ls) in E. fold s in E.
  exists m, (snd (arun cf (by_time (precedes cf)) (astate0 tm) ls)). eexists. split.
  - rewrite E. cbn [arun snd astep aop with_out ret ao_state ao_evs as_w as_stack by_time d_next with_sys w_sys a_def a_idle a_curr].
    reflexivity.
  - split.
    + unfold choose. cbn [a_irq a_def]. unfold due. cbn [by_time d_next]. rewrite decide_False by (by intros ?). cbn [a_imm a_idle].
      destruct (decide _) as [Hn|Hn]; [left; split; done|]. by apply runs_call.
    + destruct (run_ok cf tm Hcf (ls ++ [LOp OReset])) as (m1 & E1 & Hm1). eexists _, _. split; [exact E1|].
      rewrite after_snoc in Hm1. by apply mrep_behaves.
Qed.
Print Assumptions C47_reset.
(** mu_sched_init also clears the idle task *)
Theorem C47_init : forall cf tm ls now, config_ok cf ->
  let s := after cf (by_time (precedes cf)) tm ls in
  exists m evs, mrun cf (machine0 cf tm) (ls ++ [LOp OInit; LOp OCurrent; LOp ONext; LOp OGetIdle; LOp (OStep now)]) =
      Ok (m, evs ++ [[ERet RUnit]; [ERet (RTask NULL)]; [ERet (RTask NULL)]; [ERet (RTask NULL)]; [ERet RUnit]]) /\
  exists m1 e1, mrun cf (machine0 cf tm) (ls ++ [LOp OInit]) = Ok (m1, e1) /\
    behaves_as cf m1 (MkAs (with_sys (as_w s) (MkA [] [] [] NULL NULL)) (as_stack s)).
Proof.
  intros cf tm ls now Hcf s.
  destruct (run_ok cf tm Hcf (ls ++ [LOp OInit; LOp OCurrent; LOp ONext; LOp OGetIdle; LOp (OStep now)])) as (m & E & _).
  rewrite arun_app in E. fold (after cf (by_time (precedes cf)) tm ls) in E. fold s in E.
  exists m, (snd (arun cf (by_time (precedes cf)) (astate0 tm) ls)). split.
  - rewrite E. cbn [arun snd astep aop with_out ret ao_state ao_evs as_w as_stack by_time d_next with_sys w_sys a_def a_idle a_curr].
    unfold choose. cbn [a_irq a_def]. unfold due. cbn [by_time d_next]. rewrite decide_False by (by intros ?). cbn [a_imm a_idle].
    rewrite decide_True by done. reflexivity.
  - destruct (run_ok cf tm Hcf (ls ++ [LOp OInit])) as (m1 & E1 & Hm1). eexists _, _. split; [exact E1|].
    rewrite after_snoc in Hm1. by apply mrep_behaves.
Qed.
Print Assumptions C47_init.
Example C47_example : exists m, mrun ex_cf (machine0 ex_cf ex_tm)
    [LOp (OSetIdle 9); LOp (OImmed 3); LOp (ODefer 2 10); LOp (OIsr 1); LOp OReset; LOp (OStep 50); LReturn; LOp (OImmed 4); LOp (OStep 50)]
  = Ok (m, [[ERet RUnit]; [ERet (RErr SCHED_NONE)]; [ERet (RErr SCHED_NONE)]; [ERet (RErr SCHED_NONE)]; [ERet RUnit];
            [ECall (UTask 1009 9)]; [ERet RUnit]; [ERet (RErr SCHED_NONE)]; [ECall (UTask 1004 4)]]).
Proof. eexists. vm_compute. reflexivity. Qed.

(** ** C49 *)
Theorem C49_bad_irq_size : forall cf tm ls t, config_ok cf -> (~ exists k, 1 <= k /\ MAX_IRQ cf = 2 ^ k) ->
  let s := after cf (by_time (precedes cf)) tm ls in
  (* the interrupt queue stays empty; the rest works as specified, see also C39-C47 *)
  a_irq (queues s) = [] /\
  exists m evs m', mrun cf (machine0 cf tm) ls = Ok (m, evs) /\ behaves_as cf m s /\
    mstep cf m (LOp (OIsr t)) = Ok (m', [ERet (RErr SCHED_FULL)]) /\ behaves_as cf m' s /\
    w_sys (m_w m') = w_sys (m_w m).
Proof.
  intros cf tm ls t Hcf Hno s.
  assert (Hcap : irq_capacity (MAX_IRQ cf) = 0).
  { unfold irq_capacity. destruct (_ && _) eqn:E; [|done]. exfalso. apply Hno. apply andb_true_iff in E as [E1 E2].
    apply pow2_log2; [lia|]. lia. }
  pose proof (after_within cf tm ls Hcf) as (_ & W2 & _). fold s in W2. rewrite Hcap in W2.
  assert (Hi : a_irq (queues s) = []) by (destruct (a_irq (queues s)); simpl in *; [done|lia]).
  split; [done|]. destruct (run_ok cf tm Hcf ls) as (m & E & Hm). fold s in Hm.
  destruct (mstep_ok cf Hcf m s (LOp (OIsr t)) Hm) as (m' & E' & Hm').
  eexists _, _, m'. split; [exact E|]. split; [by apply mrep_behaves|].
  cbn [astep aop] in E', Hm'. fold (queues s) in E', Hm'. rewrite Hi, Hcap in E', Hm'. simpl length in E', Hm'.
  rewrite decide_False in E', Hm' by lia. cbn [ret ao_evs ao_state] in *. split; [done|]. split.
  - replace s with (MkAs (as_w s) (as_stack s)) by (by destruct s). by apply mrep_behaves.
  - destruct Hm as ((_ & _ & _ & _ & (Hirq & _)) & _). fold (queues s) in Hirq. rewrite Hi in Hirq.
    cbn [mstep api] in E'. unfold simple, mu_sched_from_isr in E'.
    pose proof (irq_put_ok _ _ _ t Hirq) as Hput. rewrite Hcap in Hput.
    destruct Hput as [(? & _)|(_ & Hp)]; [simpl in *; lia|]. rewrite Hp in E'. cbn [bind plift] in E'.
    injection E' as <-. simpl. by destruct (w_sys (m_w m)).
Qed.
Print Assumptions C49_bad_irq_size.
Definition bad_cf : config := MkConfig P64 4 6 4 Z.ltb Z.add.
Example C49_example : config_ok bad_cf /\ (~ exists k, 1 <= k /\ MAX_IRQ bad_cf = 2 ^ k) /\
  exists m, mrun bad_cf (machine0 bad_cf ex_tm) [LOp (OIsr 1); LOp (OImmed 2); LOp (OStep 0); LReturn; LOp (OStep 0)] =
    Ok (m, [[ERet (RErr SCHED_FULL)]; [ERet (RErr SCHED_NONE)]; [ECall (UTask 1002 2)]; [ERet RUnit]; [ERet RUnit]]).
Proof.
  split; [unfold config_ok, valid_cap, int_max; vm_compute; intuition (try congruence)|]. split.
  - intros (k & Hk & E). cbn [bad_cf MAX_IRQ] in E. assert (k < 3) by (apply (Z.pow_lt_mono_r_iff 2); lia).
    assert (k = 1 \/ k = 2) as [-> | ->] by lia; discriminate E.
  - eexists. vm_compute. reflexivity.
Qed.
