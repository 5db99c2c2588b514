(** * Specification of the whole system: the three task lists and the task objects of
    SchedSpec.v, one list of messages per queue, and the stack of user functions in
    progress. *)
From Verif Require Import CSem FifoSpec MqueueSpec TaskModel SchedModel SchedSpec SystemModel.

(** A library call waiting for user code: one of the scheduler or of the tasks, or a
    queue call that will return [r] after notifying task [t]. *)
Inductive sframe := FS (f : frame) | FQHook (q t : Z) (r : qobs) | FQFn (q t : Z) (r : qobs).

Record ssys := MkSS { ss_w : world asched; ss_q : Z -> list Z; ss_stack : list sframe }.

(** configuration of a queue: capacity, task to notify on put, task to notify on get *)
Record qconf := MkQC { qc_cap : Z; qc_put : Z; qc_get : Z }.

Section spec.
Context (cf : config) (qc : Z -> qconf).

Definition sevent_of (e : event) : sevent := match e with ECall c => SCall c | ERet o => SRet (SRes o) end.
(** a step of the scheduler's specification, on top of the frames [stk] *)
Definition lift (s : ssys) (stk : list sframe) (r : aout) : ssys * list sevent :=
  (MkSS (as_w (ao_state r)) (ss_q s) (map FS (as_stack (ao_state r)) ++ stk), map sevent_of (ao_evs r)).
Definition upd (f : Z -> list Z) (q : Z) (l : list Z) : Z -> list Z := fun a => if a =? q then l else f a.

Definition s_step (s : ssys) (l : slabel) : ssys * list sevent :=
  let w := ss_w s in
  let dc := by_time (precedes cf) in
  match l with
  | SL (LOp o) => lift s (ss_stack s) (aop cf dc w [] o)
  | SL (LPoke tm) => (MkSS (with_tasks w tm) (ss_q s) (ss_stack s), [])
  | SL LReturn =>
      match ss_stack s with
      | [] => (s, [])
      | FS f :: stk => lift s stk (areturn cf w [] f)
      | FQHook q t r :: stk => (MkSS w (ss_q s) (FQFn q t r :: stk), [SCall (UTask (t_fn (w_tasks w t)) t)])
      | FQFn q t r :: stk => (MkSS w (ss_q s) stk, [SRet (SQRes r)])
      end
  | SQ q o =>
      (* the queue is a FIFO; a successful put or get then runs the notification task, if
         there is one, the call hook first, if installed *)
      let '(r, l) := fifo_step (qc_cap (qc q)) (ss_q s q) o in
      let t := notify_of (qc_put (qc q)) (qc_get (qc q)) o r in
      let qs := upd (ss_q s) q l in
      if decide (t = NULL) then (MkSS w qs (ss_stack s), [SRet (SQRes r)])
      else if decide (w_call_hook w = NULL)
      then (MkSS w qs (FQFn q t r :: ss_stack s), [SCall (UTask (t_fn (w_tasks w t)) t)])
      else (MkSS w qs (FQHook q t r :: ss_stack s), [SCall (UCallHook (w_call_hook w) t)])
  end.
Fixpoint s_run (s : ssys) (ls : list slabel) : ssys * list (list sevent) :=
  match ls with
  | [] => (s, [])
  | l :: ls => let '(s, e) := s_step s l in
               let '(s, es) := s_run s ls in (s, e :: es)
  end.
Definition s_start (tm : Z -> task) : ssys := MkSS (as_w (astate0 tm)) (fun _ => []) [].
End spec.

(** the configuration described by the storages and tasks passed to mu_mqueue_init *)
Definition qconf_of (conf : Z -> list Z * Z * Z) (q : Z) : qconf :=
  let '(storage, on_put, on_get) := conf q in MkQC (Z.of_nat (length storage)) on_put on_get.
Definition conf_ok (cf : config) (conf : Z -> list Z * Z * Z) : Prop :=
  forall q, valid_cap (plat_ cf) (qc_cap (qconf_of conf q)).
