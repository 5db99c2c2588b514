(** * The whole system: mu_sched.c, mu_task.c and any number of mu_mqueue.c queues linked
    together.  A queue's notification tasks run through the real mu_task_call (so through
    the call hook), and all user functions (tasks, notification tasks, hooks) may make any
    API call of the scheduler, of the tasks and of any queue. *)
From Verif Require Import CSem FifoSpec QueueModel SpscModel TaskModel MqueueModel SchedModel.

(** the static scheduler state of mu_sched.c and the queue objects, by address *)
Record sys := MkSys { y_sched : sched; y_q : Z -> mmq }.

(** Scheduler and task code does not touch queue objects: it runs on the world without
    them, and the queues are as user code left them when it returns. *)
Definition down (w : world sys) : world sched :=
  MkW (w_tasks w) (w_set_state_hook w) (w_call_hook w) (w_transfer_hook w) (y_sched (w_sys w)).
Definition up (qs : Z -> mmq) (w : world sched) : world sys :=
  MkW (w_tasks w) (w_set_state_hook w) (w_call_hook w) (w_transfer_hook w) (MkSys (w_sys w) qs).
Fixpoint embed {A} (qs : Z -> mmq) (pr : prog sched A) : prog sys A :=
  match pr with
  | PRet a w => PRet a (up qs w)
  | PCall c w k => PCall c (up qs w) (fun w' => embed (y_q (w_sys w')) (k (down w')))
  | PUB => PUB
  | PNoFuel => PNoFuel
  end.

Definition set_q (w : world sys) (q : Z) (m : mmq) : world sys :=
  with_sys w (MkSys (y_sched (w_sys w)) (fun a => if a =? q then m else y_q (w_sys w) a)).

(** In mu_mqueue_put and access_queue (mu_mqueue.c:74-90, 103-123) mu_task_call is the last
    thing done before [return true]: run the function of MqueueModel.v with a callback that
    only notes the task (NULL: none), then call mu_task_call on that task. *)
Definition note (t : Z) (m : mmq) (_ : Z) : res (mmq * Z) := Ok (m, t).
Definition notify (t : Z) (w : world sys) (o : qobs) : prog sys qobs :=
  pbind (mu_task_call t w) (fun _ w => PRet o w).

(** one mu_mqueue call (mu_mqueue.c:58-98) on the queue at address [q] *)
Definition qapi (p : plat) (q : Z) (o : qop) (w : world sys) : prog sys qobs :=
  let m := y_q (w_sys w) q in
  match o with
  | QPut x => plift (mu_mqueue_put p note (fun z => z) m NULL x)
                (fun '(b, m, t) => notify t (set_q w q m) (QBool b))
  | QGet => plift (mu_mqueue_get p note (fun _ z => z) m NULL)
                (fun '(b, e, m, t) => notify t (set_q w q m) (QItem b e))
  | QPeek => plift (mu_mqueue_peek p note (fun _ z => z) m NULL)
                (fun '(b, e, m, t) => PRet (QItem b e) (set_q w q m))
  | QReset => PRet QUnit (set_q w q (mu_mqueue_reset m))
  | QCount => PRet (QNum (mu_mqueue_count m)) w
  | QCapacity => PRet (QNum (mu_mqueue_capacity m)) w
  | QIsEmpty => PRet (QBool (mu_mqueue_is_empty m)) w
  | QIsFull => PRet (QBool (mu_mqueue_is_full m)) w
  end.

(** ** Histories: as in SchedModel.v, plus the calls on queues *)
Inductive slabel := SL (l : label) | SQ (q : Z) (o : qop).
Inductive sobs := SRes (o : obs) | SQRes (o : qobs).
(** what can be seen: a user function is entered, or an API call returns *)
Inductive sevent := SCall (c : ucall) | SRet (o : sobs).

Notation W := (world sys).
Record smach := MkSM { sm_w : W; sm_stack : list (W -> prog sys sobs) }.

Definition ssettle (pr : prog sys sobs) (stk : list (W -> prog sys sobs)) : res (smach * list sevent) :=
  match pr with
  | PRet o w => Ok (MkSM w stk, [SRet o])
  | PCall c w k => Ok (MkSM w (k :: stk), [SCall c])
  | PUB => UB
  | PNoFuel => NoFuel
  end.
Definition wrap {A} (f : A -> sobs) (pr : prog sys A) : prog sys sobs := pbind pr (fun a w => PRet (f a) w).
Definition sstep (cf : config) (m : smach) (l : slabel) : res (smach * list sevent) :=
  match l with
  | SL (LOp o) => ssettle (wrap SRes (embed (y_q (w_sys (sm_w m))) (api cf o (down (sm_w m))))) (sm_stack m)
  | SQ q o => ssettle (wrap SQRes (qapi (plat_ cf) q o (sm_w m))) (sm_stack m)
  | SL LReturn => match sm_stack m with
                  | k :: stk => ssettle (k (sm_w m)) stk
                  | [] => Ok (m, [])
                  end
  | SL (LPoke tm) => Ok (MkSM (with_tasks (sm_w m) tm) (sm_stack m), [])
  end.
Fixpoint srun (cf : config) (m : smach) (ls : list slabel) : res (smach * list (list sevent)) :=
  match ls with
  | [] => Ok (m, [])
  | l :: ls => let* '(m, e) := sstep cf m l in
               let* '(m, es) := srun cf m ls in Ok (m, e :: es)
  end.

(** Queue [q] has been initialised with [conf q] = (storage, on_put, on_get); the
    capacity is the length of the storage. *)
Definition qstart (conf : Z -> list Z * Z * Z) (q : Z) : mmq :=
  let '(storage, on_put, on_get) := conf q in
  mu_mqueue_init storage (Z.of_nat (length storage)) on_put on_get.
(** power-up: zeroed statics and arbitrary task objects; then mu_sched_init and mu_mqueue_init *)
Definition smach0 (cf : config) (tm : Z -> task) (conf : Z -> list Z * Z * Z) : smach :=
  MkSM (MkW tm 0 0 0 (MkSys (mu_sched_init cf (sched_static cf)) (qstart conf))) [].
