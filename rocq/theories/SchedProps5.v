(** * mu_sched: property C82 (vocabulary: SchedProps.v, SchedProps2.v) *)
From Verif Require Import CSem FifoSpec TaskModel SchedModel SchedSpec SchedProofs SchedOrder SchedProps SchedProps2.

(** ** C82: mu_sched_current_task after any history, nested steps included *)
(** One variable, written when a step picks a task, and cleared when any step returns
    and on reset and init.  [st]: the API calls in progress. *)
Definition current1 (st : list (op * Z)) (cur : Z) (l : label) (ev : list event) : Z :=
  match l, ev with
  | LOp OInit, _ | LOp OReset, _ => NULL
  | LOp (OStep _), [ECall c] => call_task c
  | _, _ => match returned st l ev with Some (OStep _, _) => NULL | _ => cur end
  end.
Fixpoint current (st : list (op * Z)) (cur : Z) (ls : list label) (evs : list (list event)) : Z :=
  match ls, evs with
  | l :: ls, ev :: evs => current (in_progress st l ev) (current1 st cur l ev) ls evs
  | _, _ => cur
  end.

Lemma current_label cf st s l : Forall2 frame_op st (as_stack s) ->
  a_curr (queues (ao_state (astep cf (by_time (precedes cf)) s l))) =
  current1 st (a_curr (queues s)) l (ao_evs (astep cf (by_time (precedes cf)) s l)).
Proof.
  intros Hst. destruct s as [w stk]. unfold queues. cbn [as_w as_stack] in *.
  assert (Him : forall stk t, a_curr (w_sys (as_w (ao_state (a_immed cf w stk t)))) = a_curr (w_sys w) /\
            exists r, ao_evs (a_immed cf w stk t) = [ERet r]).
  { intros stk' t'. unfold a_immed. destruct (decide _); eauto. }
  destruct l as [o| |m]; cbn [astep as_w as_stack].
  - destruct o; cbn [aop]; try done.
    + destruct (choose _ _ _ _) as [[x g] q'].
      destruct (decide _) as [->|Hx]; [done|]. unfold enter. by destruct (decide _).
    + destruct (decide _); [|done]. destruct (Him stk t) as (-> & r & ->). done.
    + destruct (Him stk t) as (-> & r & ->). done.
    + by destruct (decide _).
    + unfold a_defer. by destruct (decide _).
    + unfold a_defer. by destruct (decide _).
    + destruct (decide _); [done|]. unfold enter. by destruct (decide _).
    + destruct (decide _); [done|]. by destruct (decide _).
  - inversion Hst as [|[o x] f st' stk' He Hr]; subst; [done|].
    destruct f; cbn [areturn]; try done; simpl in He.
    + destruct He as [[now ->] ->]. done.
    + by subst o.
    + by subst o.
    + subst o. destruct (Him stk' t) as (-> & r & ->). done.
  - done.
Qed.

Lemma current_run cf : forall ls st s, Forall2 frame_op st (as_stack s) ->
  a_curr (queues (fst (arun cf (by_time (precedes cf)) s ls))) =
  current st (a_curr (queues s)) ls (snd (arun cf (by_time (precedes cf)) s ls)).
Proof.
  induction ls as [|l ls IH]; intros st s Hst; [done|]. cbn [arun].
  specialize (IH _ _ (progress_ok cf st s l Hst)). rewrite (current_label cf st s l Hst) in IH.
  destruct (arun cf _ (ao_state _) ls) as [s' es]. exact IH.
Qed.

Theorem C82_current_task_exact : forall cf tm ls, config_ok cf ->
  exists m evs, mrun cf (machine0 cf tm) ls = Ok (m, evs) /\
    emits cf tm ls (LOp OCurrent) [ERet (RTask (current [] NULL ls evs))].
Proof.
  intros cf tm ls Hcf. destruct (run_ok cf tm Hcf ls) as (m & E & _). eexists _, _. split; [exact E|].
  pose proof (emits_time cf tm Hcf ls (LOp OCurrent)) as He. cbn [astep aop ret ao_evs] in He.
  fold (queues (after cf (by_time (precedes cf)) tm ls)) in He. unfold after in He.
  rewrite (current_run cf ls [] (astate0 tm)) in He by constructor. exact He.
Qed.
Print Assumptions C82_current_task_exact.
(** task 1 calls step, which runs task 2, which returns: the current task is NULL though
    task 1 is still running; then task 1 calls step again, which runs 3 *)
Definition ex82 : list label := [LOp (OImmed 1); LOp (OImmed 2); LOp (OImmed 3); LOp (OStep 0); LOp (OStep 0); LReturn; LOp OCurrent; LOp (OStep 0)].
Example C82_example : match mrun ex_cf (machine0 ex_cf ex_tm) ex82 with
  | Ok (_, evs) => current [] NULL ex82 evs = 3 /\ current [] NULL (take 6 ex82) evs = 0 /\ current [] NULL (take 5 ex82) evs = 2
  | _ => False end.
Proof. vm_compute. done. Qed.
