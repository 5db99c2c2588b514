(** * Specification of the scheduler: three plain lists, an idle task and the stack of
    user functions in progress.  From the model it takes only the vocabulary of API calls
    and events (op, label, event, task objects); none of its functions on scheduler state.

    How the deferred tasks are kept is a parameter, the [discipline].  Two are given:
    [by_time] keeps them in execution order; [by_arrival] keeps them in the order in which
    they were accepted and looks for the earliest one when needed. *)
From Verif Require Import CSem FifoSpec TaskModel SchedModel.

Record asched := MkA {
  a_irq : list Z;          (* oldest first *)
  a_imm : list Z;          (* oldest first *)
  a_def : list (Z * Z);    (* (time, task) *)
  a_curr : Z; a_idle : Z }.

Record discipline := MkDisc {
  d_put : Z * Z -> list (Z * Z) -> list (Z * Z);
  d_next : list (Z * Z) -> option ((Z * Z) * list (Z * Z)) }.

Section disciplines.
Context (precedes : Z -> Z -> bool).
(** execution order: a new entry goes in front of the first one that is later *)
Fixpoint ins (e : Z * Z) (l : list (Z * Z)) : list (Z * Z) :=
  match l with
  | [] => [e]
  | x :: l' => if precedes (fst e) (fst x) then e :: l else x :: ins e l'
  end.
Definition by_time : discipline :=
  MkDisc ins (fun l => match l with [] => None | e :: l' => Some (e, l') end).
(** arrival order: the earliest entry, the first accepted among equals, and the others *)
Fixpoint earliest (l : list (Z * Z)) : option ((Z * Z) * list (Z * Z)) :=
  match l with
  | [] => None
  | x :: l' => match earliest l' with
               | None => Some (x, [])
               | Some (y, r) => if precedes (fst y) (fst x) then Some (y, x :: r) else Some (x, l')
               end
  end.
Definition by_arrival : discipline := MkDisc (fun e l => l ++ [e]) earliest.
End disciplines.

(** Library calls waiting for user code to return *)
Inductive frame :=
| FStepHook (t : Z)      (* mu_sched_step: call hook running, task t is next *)
| FStepFn (t : Z)        (* mu_sched_step: task t running *)
| FCallHook (t : Z) | FCallFn (t : Z)  (* the same for a direct mu_task_call *)
| FState (t s : Z)       (* mu_task_set_state: state hook running *)
| FTransfer (t : Z).     (* mu_sched_transfer: transfer hook running *)

Record astate := MkAs { as_w : world asched; as_stack : list frame }.

(** Result of one label: new state, events, and for the accounting of C42 the tasks that
    were accepted into, taken out of (to be run) and dropped from the queues. *)
Record aout := MkOut {
  ao_state : astate; ao_evs : list event; ao_in : list Z; ao_out : list Z; ao_drop : list Z }.

(** number of interrupt tasks that can be pending: one less than the table size when this
    is a power of two (at least 2); otherwise none *)
Definition irq_capacity (n : Z) : Z := if (2 <=? n) && (2 ^ Z.log2 n =? n) then n - 1 else 0.

Section spec.
Context (cf : config) (dc : discipline).
Notation AW := (world asched).

Definition a_with_irq (a : asched) l := MkA l (a_imm a) (a_def a) (a_curr a) (a_idle a).
Definition a_with_imm (a : asched) l := MkA (a_irq a) l (a_def a) (a_curr a) (a_idle a).
Definition a_with_def (a : asched) l := MkA (a_irq a) (a_imm a) l (a_curr a) (a_idle a).
Definition a_with_curr (a : asched) t := MkA (a_irq a) (a_imm a) (a_def a) t (a_idle a).
Definition a_with_idle (a : asched) t := MkA (a_irq a) (a_imm a) (a_def a) (a_curr a) t.

Definition queued (a : asched) : list Z := a_irq a ++ map snd (a_def a) ++ a_imm a.

(** The deferred entry that is due at time [now], and the remaining entries *)
Definition due (now : Z) (l : list (Z * Z)) : option (Z * list (Z * Z)) :=
  match d_next dc l with
  | Some ((at_, t), rest) => if precedes cf now at_ then None else Some (t, rest)
  | None => None
  end.

(** The task mu_sched_step runs (NULL: none), the tasks leaving the queues, and the queues
    afterwards.  A due NULL entry is discarded and the immediate queue is tried. *)
Definition choose (now : Z) (a : asched) : Z * list Z * asched :=
  match a_irq a with
  | t :: irq => (t, [t], a_with_irq a irq)
  | [] =>
    let '(t, gone, a) := match due now (a_def a) with
                         | Some (t, rest) => (t, [t], a_with_def a rest)
                         | None => (NULL, [], a)
                         end in
    if decide (t <> NULL) then (t, gone, a)
    else match a_imm a with
         | t :: imm => (t, gone ++ [t], a_with_imm a imm)
         | [] => (a_idle a, gone, a)
         end
  end.

(** The user functions entered to run task [t]: the call hook first, if installed *)
Definition enter (w : AW) (t : Z) (in_step : bool) : frame * event :=
  if decide (w_call_hook w = NULL)
  then (if in_step then FStepFn t else FCallFn t, ECall (UTask (t_fn (w_tasks w t)) t))
  else (if in_step then FStepHook t else FCallHook t, ECall (UCallHook (w_call_hook w) t)).

Definition ret (w : AW) (stk : list frame) (o : obs) : aout := MkOut (MkAs w stk) [ERet o] [] [] [].
Definition call (w : AW) (stk : list frame) (fe : frame * event) : aout := MkOut (MkAs w (fst fe :: stk)) [snd fe] [] [] [].
Definition with_out (r : aout) (i o d : list Z) : aout := MkOut (ao_state r) (ao_evs r) i o d.

Definition a_immed (w : AW) (stk : list frame) (t : Z) : aout :=
  let a := w_sys w in
  if decide (Z.of_nat (length (a_imm a)) < MAX_IMMED cf)
  then with_out (ret (with_sys w (a_with_imm a (a_imm a ++ [t]))) stk (RErr SCHED_NONE)) [t] [] []
  else ret w stk (RErr SCHED_FULL).
Definition a_defer (w : AW) (stk : list frame) (t at_ : Z) : aout :=
  let a := w_sys w in
  if decide (Z.of_nat (length (a_def a)) < MAX_DEFERRED cf)
  then with_out (ret (with_sys w (a_with_def a (d_put dc (at_, t) (a_def a)))) stk (RErr SCHED_NONE)) [t] [] []
  else ret w stk (RErr SCHED_FULL).

Definition aop (w : AW) (stk : list frame) (o : op) : aout :=
  let a := w_sys w in
  match o with
  | OInit => with_out (ret (with_sys w (MkA [] [] [] NULL NULL)) stk RUnit) [] [] (queued a)
  | OReset => with_out (ret (with_sys w (MkA [] [] [] NULL (a_idle a))) stk RUnit) [] [] (queued a)
  | OStep now =>
      let '(t, gone, a) := choose now a in
      if decide (t = NULL)
      then with_out (ret (with_sys w (a_with_curr a NULL)) stk RUnit) [] gone []
      else with_out (call (with_sys w (a_with_curr a t)) stk (enter w t true)) [] gone []
  | OSetIdle t => ret (with_sys w (a_with_idle a t)) stk RUnit
  | OGetIdle => ret w stk (RTask (a_idle a))
  | OCurrent => ret w stk (RTask (a_curr a))
  | ONext => ret w stk (RTask (match d_next dc (a_def a) with Some (e, _) => snd e | None => NULL end))
  | OWait t => ret w stk (RErr SCHED_NONE)
  | OTransfer t =>
      if decide (w_transfer_hook w = NULL) then a_immed w stk t
      else call w stk (FTransfer t, ECall (UTransferHook (w_transfer_hook w) t))
  | OImmed t => a_immed w stk t
  | OIsr t =>
      if decide (Z.of_nat (length (a_irq a)) < irq_capacity (MAX_IRQ cf))
      then with_out (ret (with_sys w (a_with_irq a (a_irq a ++ [t]))) stk (RErr SCHED_NONE)) [t] [] []
      else ret w stk (RErr SCHED_FULL)
  | ODefer t at_ => a_defer w stk t at_
  | ODeferFor t now dt => a_defer w stk t (offset cf now dt)
  | ORemove t =>
      let keep := filter (fun e => snd e <> t) (a_def a) in
      let gone := filter (fun e => snd e = t) (a_def a) in
      with_out (ret (with_sys w (a_with_def a keep)) stk
        (RErr (if decide (gone = []) then SCHED_NOT_FOUND else SCHED_NONE))) [] [] (map snd gone)
  | OCall t => if decide (t = NULL) then ret w stk RUnit else call w stk (enter w t false)
  | OSetState t s =>
      if decide (t = NULL) then ret w stk (RTask t)
      else if decide (w_set_state_hook w = NULL)
      then ret (with_tasks w (tput (w_tasks w) t (MkTask (t_fn (w_tasks w t)) s (t_info (w_tasks w t))))) stk (RTask t)
      else call w stk (FState t s, ECall (UStateHook (w_set_state_hook w) t s))
  | OHooks x y z => ret (MkW (w_tasks w) x y z a) stk RUnit
  end.

(** a user function returns into the library *)
Definition areturn (w : AW) (stk : list frame) (f : frame) : aout :=
  match f with
  | FStepHook t => call w stk (FStepFn t, ECall (UTask (t_fn (w_tasks w t)) t))
  | FStepFn t => ret (with_sys w (a_with_curr (w_sys w) NULL)) stk RUnit
  | FCallHook t => call w stk (FCallFn t, ECall (UTask (t_fn (w_tasks w t)) t))
  | FCallFn t => ret w stk RUnit
  | FState t s =>
      ret (with_tasks w (tput (w_tasks w) t (MkTask (t_fn (w_tasks w t)) s (t_info (w_tasks w t))))) stk (RTask t)
  | FTransfer t => a_immed w stk t
  end.

Definition astep (s : astate) (l : label) : aout :=
  match l with
  | LOp o => aop (as_w s) (as_stack s) o
  | LReturn => match as_stack s with
               | f :: stk => areturn (as_w s) stk f
               | [] => MkOut s [] [] [] []
               end
  | LPoke tm => MkOut (MkAs (with_tasks (as_w s) tm) (as_stack s)) [] [] [] []
  end.
Fixpoint arun (s : astate) (ls : list label) : astate * list (list event) :=
  match ls with
  | [] => (s, [])
  | l :: ls => let r := astep s l in
               let '(s', es) := arun (ao_state r) ls in (s', ao_evs r :: es)
  end.
Definition astate0 (tm : Z -> task) : astate := MkAs (MkW tm 0 0 0 (MkA [] [] [] NULL NULL)) [].
End spec.

(** Configurations covered: table sizes at least 1 that the C types can hold *)
Definition config_ok (cf : config) : Prop :=
  1 <= MAX_DEFERRED cf <= int_max /\ 1 <= MAX_IRQ cf <= 65535 /\
  1 <= MAX_IMMED cf /\ valid_cap (plat_ cf) (MAX_IMMED cf).

(** the queues of the specification after a history, from power-up *)
Definition after (cf : config) (dc : discipline) (tm : Z -> task) (ls : list label) : astate :=
  fst (arun cf dc (astate0 tm) ls).
Definition queues (s : astate) : asched := w_sys (as_w s).
