(** * Model of mulib/mu_sched.c (all functions), on top of the models of mu_spsc.c,
    mu_queue.c and mu_task.c; and the machine that runs histories of API calls, in which
    user functions called by the library make further API calls. *)
From Verif Require Import CSem FifoSpec QueueModel SpscModel TaskModel.

(** mu_sched.h: mu_sched_err_t *)
Inductive sched_err := SCHED_NONE | SCHED_FULL | SCHED_NOT_FOUND.

(** mu_sched.c:47-58 and 81-84: deferred_task_t is a pair (at, task); the static storage
    [s_irq_store] / [s_immed_store] is inside the queue structs once initialised. *)
Record sched := MkSched {
  sc_irq : spsc;            (* s_sched.irq_tasks *)
  sc_immed : mqueue;        (* s_sched.immed_tasks *)
  sc_deferred : list (Z * Z); (* s_deferred_tasks *)
  sc_dcount : Z;            (* s_sched.deferred_task_count *)
  sc_curr : Z;              (* s_sched.curr_task *)
  sc_idle : Z }.            (* s_sched.idle_task *)

(** Compile-time configuration and platform functions: MU_SCHED_MAX_* of mu_sched.h:102-112,
    mu_time_precedes and mu_time_offset of mu_platform.h.  [mu_time_now] is an input: the
    value it returns is an argument of the functions that call it. *)
Record config := MkConfig {
  plat_ : plat; MAX_DEFERRED : Z; MAX_IRQ : Z; MAX_IMMED : Z;
  precedes : Z -> Z -> bool; offset : Z -> Z -> Z }.

Section model.
Context (cf : config).
Notation p := (plat_ cf).

Definition with_irq (s : sched) (q : spsc) : sched :=
  MkSched q (sc_immed s) (sc_deferred s) (sc_dcount s) (sc_curr s) (sc_idle s).
Definition with_immed (s : sched) (q : mqueue) : sched :=
  MkSched (sc_irq s) q (sc_deferred s) (sc_dcount s) (sc_curr s) (sc_idle s).
Definition with_deferred (s : sched) (d : list (Z * Z)) (n : Z) : sched :=
  MkSched (sc_irq s) (sc_immed s) d n (sc_curr s) (sc_idle s).
Definition with_curr (s : sched) (t : Z) : sched :=
  MkSched (sc_irq s) (sc_immed s) (sc_deferred s) (sc_dcount s) t (sc_idle s).
Definition with_idle (s : sched) (t : Z) : sched :=
  MkSched (sc_irq s) (sc_immed s) (sc_deferred s) (sc_dcount s) (sc_curr s) t.

(** static storage before mu_sched_init: all zero *)
Definition sched_static : sched :=
  MkSched (MkS [] 0 0 0) (MkQ [] 0 0 0) (replicate (Z.to_nat (MAX_DEFERRED cf)) (0, 0)) 0 0 0.

(** mu_sched.c:89-96.  The size is converted to uint16_t for mu_spsc_init.  The contents
    of the two stores at re-initialisation are irrelevant; they are modelled as zeros. *)
Definition mu_sched_init (s : sched) : sched :=
  let '(_, irq) := mu_spsc_init (sc_irq s) (replicate (Z.to_nat (MAX_IRQ cf)) 0) (to_u16 (MAX_IRQ cf)) in
  let s := with_irq s irq in
  let s := with_immed s (mu_queue_init (replicate (Z.to_nat (MAX_IMMED cf)) 0) (MAX_IMMED cf)) in
  let s := with_deferred s (sc_deferred s) 0 in
  let s := with_curr s NULL in
  with_idle s NULL.

(** mu_sched.c:98-103 *)
Definition mu_sched_reset (s : sched) : sched :=
  let '(_, irq) := mu_spsc_reset (sc_irq s) in
  let s := with_irq s irq in
  let s := with_immed s (mu_queue_reset (sc_immed s)) in
  let s := with_deferred s (sc_deferred s) 0 in
  with_curr s NULL.

(** mu_sched.c:205-211: the index of the next deferred task, [None] if there is none *)
Definition next_deferred_task (s : sched) : option Z :=
  if 0 <? sc_dcount s then Some (to_size p (sc_dcount s - 1)) else None.

(** mu_sched.c:213-228 *)
Definition fetch_runnable_deferred_task (now : Z) (s : sched) : res (Z * sched) :=
  match next_deferred_task s with
  | Some i =>
    let* e := ld (sc_deferred s) i in
    if negb (precedes cf now (fst e)) then
      let s := with_deferred s (sc_deferred s) (to_size p (sc_dcount s - 1)) in
      let* e := ld (sc_deferred s) i in
      Ok (snd e, s)
    else Ok (NULL, s)
  | None => Ok (NULL, s)
  end.

(** mu_sched.c:108-124: what mu_sched_step does once mu_spsc_get has returned [err] and
    stored the item in curr_task, up to mu_task_call *)
Definition step_rest (now : Z) (err : spsc_err) (s : sched) : res sched :=
  match err with
  | SPSC_NONE => Ok s
  | _ =>
    let* '(t, s) := fetch_runnable_deferred_task now s in
    let s := with_curr s t in
    if negb (t =? NULL) then Ok s
    else
      let* '(ok, v, q) := mu_queue_get p (sc_immed s) in
      let s := with_curr (with_immed s q) v in
      if ok then Ok s else Ok (with_curr s (sc_idle s))
  end.
(** mu_sched.c:106-124: the choice made by mu_sched_step *)
Definition step_choose (now : Z) (s : sched) : res sched :=
  let* '(err, v, irq) := mu_spsc_get (sc_irq s) in
  step_rest now err (with_curr (with_irq s irq) v).

Notation W := (world sched).
(** mu_sched.c:126-128 *)
Definition step_call (w : W) (s : sched) : prog sched unit :=
  pbind (mu_task_call (sc_curr s) (with_sys w s))
    (fun _ w => PRet tt (with_sys w (with_curr (w_sys w) NULL))).
(** mu_sched.c:105-129 *)
Definition mu_sched_step (now : Z) (w : W) : prog sched unit :=
  plift (step_choose now (w_sys w)) (step_call w).

(** mu_sched.c:131, 133, 135 *)
Definition mu_sched_get_idle_task (s : sched) : Z := sc_idle s.
Definition mu_sched_set_idle_task (t : Z) (s : sched) : sched := with_idle s t.
Definition mu_sched_current_task (s : sched) : Z := sc_curr s.

(** mu_sched.c:137-143 *)
Definition mu_sched_next_task (s : sched) : res Z :=
  match next_deferred_task s with
  | None => Ok NULL
  | Some i => let* e := ld (sc_deferred s) i in Ok (snd e)
  end.

(** mu_sched.c:145-148 *)
Definition mu_sched_wait (t : Z) : sched_err := SCHED_NONE.

(** mu_sched.c:155-162 *)
Definition mu_sched_immed (t : Z) (s : sched) : res (sched_err * sched) :=
  let* '(ok, q) := mu_queue_put p (sc_immed s) t in
  if negb ok then Ok (SCHED_FULL, with_immed s q) else Ok (SCHED_NONE, with_immed s q).

(** mu_sched.c:150-153 *)
Definition mu_sched_transfer (to_task : Z) (w : W) : prog sched sched_err :=
  pbind (mu_task_call_transfer_hook to_task w) (fun _ w =>
    plift (mu_sched_immed to_task (w_sys w)) (fun '(e, s) => PRet e (with_sys w s))).

(** mu_sched.c:164-170 *)
Definition mu_sched_from_isr (t : Z) (s : sched) : res (sched_err * sched) :=
  let* '(err, q) := mu_spsc_put (sc_irq s) t in
  match err with
  | SPSC_FULL => Ok (SCHED_FULL, with_irq s q)
  | _ => Ok (SCHED_NONE, with_irq s q)
  end.

(** mu_sched.c:237-247: the search loop, [i] counting down *)
Fixpoint defer_search (i : nat) (d : list (Z * Z)) (at_ : Z) : res Z :=
  match i with
  | O => Ok 0
  | S i' =>
    let* e := ld d (Z.of_nat i') in
    if precedes cf at_ (fst e) then Ok (Z.of_nat i) else defer_search i' d at_
  end.
(** mu_sched.c:230-265.  memmove counts elements of type deferred_task_t. *)
Definition defer_aux (t at_ : Z) (s : sched) : res (sched_err * sched) :=
  if sc_dcount s =? MAX_DEFERRED cf then Ok (SCHED_FULL, s)
  else
    let* i := defer_search (Z.to_nat (sc_dcount s)) (sc_deferred s) at_ in
    let to_move := to_int (to_size p (sc_dcount s - i)) in
    let* d := (if 0 <? to_move then memmove (sc_deferred s) (i + 1) i to_move else Ok (sc_deferred s)) in
    let* d := st d i (at_, t) in
    Ok (SCHED_NONE, with_deferred s d (to_size p (sc_dcount s + 1))).

(** mu_sched.c:172-174 *)
Definition mu_sched_defer_until (t at_ : Z) (s : sched) : res (sched_err * sched) := defer_aux t at_ s.
(** mu_sched.c:176-179 *)
Definition mu_sched_defer_for (t now in_ : Z) (s : sched) : res (sched_err * sched) :=
  let at_ := offset cf now in_ in
  defer_aux t at_ s.

(** mu_sched.c:184-198: the loop, [i] counting down *)
Fixpoint remove_loop (i : nat) (t : Z) (d : list (Z * Z)) (cnt : Z) (err : sched_err)
  : res (list (Z * Z) * Z * sched_err) :=
  match i with
  | O => Ok (d, cnt, err)
  | S i' =>
    let* e := ld d (Z.of_nat i') in
    if snd e =? t then
      let to_move := to_size p (cnt - Z.of_nat i) in
      let* d := (if 0 <? to_move then memmove d (Z.of_nat i') (Z.of_nat i) to_move else Ok d) in
      remove_loop i' t d (to_size p (cnt - 1)) SCHED_NONE
    else remove_loop i' t d cnt err
  end.
(** mu_sched.c:181-200 *)
Definition mu_sched_remove_deferred_task (t : Z) (s : sched) : res (sched_err * sched) :=
  let* '(d, n, err) := remove_loop (Z.to_nat (sc_dcount s)) t (sc_deferred s) (sc_dcount s) SCHED_NOT_FOUND in
  Ok (err, with_deferred s d n).
End model.

(** ** The machine: histories of API calls.

    [m_stack] holds the library calls that are waiting for a user function to return,
    innermost first; user code runs on top of it (or the main program, when it is empty).
    Labels: the running code makes an API call; the running user function returns; the
    running code overwrites task objects.  An interrupt is the call [OIsr] at any point
    between two API calls (interrupts inside API calls: SchedIsr.v). *)
Inductive op :=
| OInit | OReset | OStep (now : Z) | OSetIdle (t : Z) | OGetIdle | OCurrent | ONext
| OWait (t : Z) | OTransfer (t : Z) | OImmed (t : Z) | OIsr (t : Z)
| ODefer (t at_ : Z) | ODeferFor (t now dt : Z) | ORemove (t : Z)
| OCall (t : Z) | OSetState (t s : Z) | OHooks (set_state call transfer : Z).

Inductive obs := RUnit | RErr (e : sched_err) | RTask (t : Z).
(** what can be seen: a user function is entered, or an API call returns *)
Inductive event := ECall (c : ucall) | ERet (o : obs).

Inductive label := LOp (o : op) | LReturn | LPoke (m : Z -> task).

Notation W := (world sched).
Record machine := MkM { m_w : W; m_stack : list (W -> prog sched obs) }.

Definition pmap {S A B} (m : prog S A) (f : A -> B) : prog S B := pbind m (fun a w => PRet (f a) w).
(** a library function that calls no user code *)
Definition simple {A} (w : W) (m : res (A * sched)) (f : A -> obs) : prog sched obs :=
  plift m (fun '(a, s) => PRet (f a) (with_sys w s)).

Definition api (cf : config) (o : op) (w : W) : prog sched obs :=
  let s := w_sys w in
  match o with
  | OInit => PRet RUnit (with_sys w (mu_sched_init cf s))
  | OReset => PRet RUnit (with_sys w (mu_sched_reset s))
  | OStep now => pmap (mu_sched_step cf now w) (fun _ => RUnit)
  | OSetIdle t => PRet RUnit (with_sys w (mu_sched_set_idle_task t s))
  | OGetIdle => PRet (RTask (mu_sched_get_idle_task s)) w
  | OCurrent => PRet (RTask (mu_sched_current_task s)) w
  | ONext => plift (mu_sched_next_task cf s) (fun t => PRet (RTask t) w)
  | OWait t => PRet (RErr (mu_sched_wait t)) w
  | OTransfer t => pmap (mu_sched_transfer cf t w) RErr
  | OImmed t => simple w (mu_sched_immed cf t s) RErr
  | OIsr t => simple w (mu_sched_from_isr t s) RErr
  | ODefer t at_ => simple w (mu_sched_defer_until cf t at_ s) RErr
  | ODeferFor t now dt => simple w (mu_sched_defer_for cf t now dt s) RErr
  | ORemove t => simple w (mu_sched_remove_deferred_task cf t s) RErr
  | OCall t => pmap (mu_task_call t w) (fun _ => RUnit)
  | OSetState t st => pmap (mu_task_set_state t st w) RTask
  | OHooks a b c => PRet RUnit (mu_task_install_transfer_hook c
                     (mu_task_install_call_hook b (mu_task_install_set_state_hook a w)))
  end.

(** run library code until it returns or enters user code *)
Definition settle (pr : prog sched obs) (stk : list (W -> prog sched obs)) : res (machine * list event) :=
  match pr with
  | PRet o w => Ok (MkM w stk, [ERet o])
  | PCall c w k => Ok (MkM w (k :: stk), [ECall c])
  | PUB => UB
  | PNoFuel => NoFuel
  end.
Definition mstep (cf : config) (m : machine) (l : label) : res (machine * list event) :=
  match l with
  | LOp o => settle (api cf o (m_w m)) (m_stack m)
  | LReturn => match m_stack m with
               | k :: stk => settle (k (m_w m)) stk
               | [] => Ok (m, [])       (* the main program: nothing to return from *)
               end
  | LPoke tm => Ok (MkM (with_tasks (m_w m) tm) (m_stack m), [])
  end.
Fixpoint mrun (cf : config) (m : machine) (ls : list label) : res (machine * list (list event)) :=
  match ls with
  | [] => Ok (m, [])
  | l :: ls => let* '(m, e) := mstep cf m l in
               let* '(m, es) := mrun cf m ls in Ok (m, e :: es)
  end.

(** power-up: zeroed statics, arbitrary task objects; then mu_sched_init *)
Definition machine0 (cf : config) (tm : Z -> task) : machine :=
  MkM (MkW tm 0 0 0 (mu_sched_init cf (sched_static cf))) [].
