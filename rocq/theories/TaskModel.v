(** * Model of mulib/mu_task.c (all functions).

    Task objects live in a memory indexed by their address; address 0 is NULL.
    Simplification: every non-NULL [mu_task_t *] handed to the library designates a live
    task object (with a callable function), so the memory is a total function.  Function
    pointers are numbers, 0 is NULL.

    Library code that calls user functions is a [prog]: a tree whose [PCall] nodes are the
    calls to user code.  What the user function does to the world is decided by whoever
    runs the program: the continuation takes the world after the call.  [S] is the state
    of the rest of the system (for mu_sched, the scheduler). *)
From Verif Require Import CSem FifoSpec.

(** mu_task.h:68-72 *)
Record task := MkTask { t_fn : Z; t_state : Z; t_info : Z }.

(** mu_task.c:42-46: the three static hook variables, and the task objects *)
Record world (S : Type) := MkW {
  w_tasks : Z -> task; w_set_state_hook : Z; w_call_hook : Z; w_transfer_hook : Z; w_sys : S }.
Arguments MkW {S}. Arguments w_tasks {S}. Arguments w_set_state_hook {S}.
Arguments w_call_hook {S}. Arguments w_transfer_hook {S}. Arguments w_sys {S}.

(** Calls to user code: function pointer and arguments *)
Inductive ucall :=
| UTask (fn task : Z)                  (* task->fn(task) *)
| UCallHook (fn task : Z)              (* s_call_hook(task) *)
| UStateHook (fn task state : Z)       (* s_set_state_hook(task, state) *)
| UTransferHook (fn task : Z).         (* s_transfer_hook(task) *)

Inductive prog (S A : Type) :=
| PRet (a : A) (w : world S)
| PCall (c : ucall) (w : world S) (k : world S -> prog S A)
| PUB
| PNoFuel.
Arguments PRet {S A}. Arguments PCall {S A}. Arguments PUB {S A}. Arguments PNoFuel {S A}.

Fixpoint pbind {S A B} (m : prog S A) (f : A -> world S -> prog S B) : prog S B :=
  match m with
  | PRet a w => f a w
  | PCall c w k => PCall c w (fun w => pbind (k w) f)
  | PUB => PUB
  | PNoFuel => PNoFuel
  end.
(** a [res] computation inside a program *)
Definition plift {S A B} (m : res A) (f : A -> prog S B) : prog S B :=
  match m with Ok a => f a | UB => PUB | NoFuel => PNoFuel end.
Definition ucallp {S} (c : ucall) (w : world S) : prog S unit := PCall c w (fun w => PRet tt w).

Section model.
Context {S : Type}.
Notation W := (world S).

Definition with_tasks (w : W) (m : Z -> task) : W :=
  MkW m (w_set_state_hook w) (w_call_hook w) (w_transfer_hook w) (w_sys w).
Definition with_sys (w : W) (s : S) : W :=
  MkW (w_tasks w) (w_set_state_hook w) (w_call_hook w) (w_transfer_hook w) s.
(** store a task object at address [t] *)
Definition tput (m : Z -> task) (t : Z) (v : task) : Z -> task := fun a => if a =? t then v else m a.

(** mu_task.c:51-58 *)
Definition mu_task_init (t fn initial_state user_info : Z) (w : W) : Z * W :=
  (t, with_tasks w (tput (w_tasks w) t (MkTask fn initial_state user_info))).
(** mu_task.c:60-70 *)
Definition mu_task_install_set_state_hook (fn : Z) (w : W) : W :=
  MkW (w_tasks w) fn (w_call_hook w) (w_transfer_hook w) (w_sys w).
Definition mu_task_install_call_hook (fn : Z) (w : W) : W :=
  MkW (w_tasks w) (w_set_state_hook w) fn (w_transfer_hook w) (w_sys w).
Definition mu_task_install_transfer_hook (fn : Z) (w : W) : W :=
  MkW (w_tasks w) (w_set_state_hook w) (w_call_hook w) fn (w_sys w).

(** mu_task.c:72-82 *)
Definition mu_task_call (t : Z) (w : W) : prog S unit :=
  if negb (t =? NULL) then
    pbind (if negb (w_call_hook w =? NULL) then ucallp (UCallHook (w_call_hook w) t) w else PRet tt w)
      (fun _ w => ucallp (UTask (t_fn (w_tasks w t)) t) w)
  else PRet tt w.

(** mu_task.c:84, 86 *)
Definition mu_task_get_fn (t : Z) (w : W) : Z := t_fn (w_tasks w t).
Definition mu_task_get_state (t : Z) (w : W) : Z := t_state (w_tasks w t).

(** mu_task.c:88-99 *)
Definition mu_task_set_state (t state : Z) (w : W) : prog S Z :=
  if negb (t =? NULL) then
    pbind (if negb (w_set_state_hook w =? NULL) then ucallp (UStateHook (w_set_state_hook w) t state) w else PRet tt w)
      (fun _ w =>
        let o := w_tasks w t in
        PRet t (with_tasks w (tput (w_tasks w) t (MkTask (t_fn o) state (t_info o)))))
  else PRet t w.

(** mu_task.c:101-107 *)
Definition mu_task_get_user_info (t : Z) (w : W) : Z := t_info (w_tasks w t).
Definition mu_task_set_user_info (t user_info : Z) (w : W) : W :=
  let o := w_tasks w t in
  with_tasks w (tput (w_tasks w) t (MkTask (t_fn o) (t_state o) user_info)).

(** mu_task.c:109-114 *)
Definition mu_task_call_transfer_hook (to_task : Z) (w : W) : prog S unit :=
  if negb (w_transfer_hook w =? NULL) then ucallp (UTransferHook (w_transfer_hook w) to_task) w
  else PRet tt w.
End model.

(** mu_task.h:58-61 MU_TASK_CTX: subtract the offset of the slot from its address
    (byte addresses modulo the pointer width). *)
Definition MU_TASK_CTX (p : plat) (task_pointer slot_offset : Z) : Z := to_size p (task_pointer - slot_offset).
