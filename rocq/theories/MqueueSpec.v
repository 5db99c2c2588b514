(** * Specification of mu_mqueue with notifications, without reference to the model *)
From stdpp Require Import base list numbers.
From Coq Require Import ZArith.
From Verif Require Import FifoSpec.
Open Scope Z_scope.

(** What happens around one queue, in time order. *)
Inductive mev :=
| EUpd (op : qop) (o : qobs)  (* a call takes effect; its result will be [o] *)
| ENotify (t : Z)             (* notification task [t] starts *)
| EDone (t : Z)               (* notification task [t] returns *)
| ERet (op : qop) (o : qobs). (* the call returns [o] to its caller *)

(** The updates, in the order in which they take effect. *)
Fixpoint upd_ops (tr : list mev) : list qop :=
  match tr with [] => [] | EUpd op _ :: tr => op :: upd_ops tr | _ :: tr => upd_ops tr end.
Fixpoint upd_obs (tr : list mev) : list qobs :=
  match tr with [] => [] | EUpd _ o :: tr => o :: upd_obs tr | _ :: tr => upd_obs tr end.

(** The task to notify after a call with this result (0 = nobody). *)
Definition notify_of (on_put on_get : Z) (op : qop) (o : qobs) : Z :=
  match op, o with
  | QPut _, QBool true => on_put
  | QGet, QItem true _ => on_get
  | _, _ => 0
  end.

(** Well-formed traces: a body is a sequence of calls; a call takes effect, then
    notifies the right task exactly once if there is one to notify (the task's
    own calls are a body), then returns the result it had when it took effect. *)
Inductive wf_body (on_put on_get : Z) : list mev -> Prop :=
| wb_nil : wf_body on_put on_get []
| wb_call tr1 tr2 : wf_call on_put on_get tr1 -> wf_body on_put on_get tr2 ->
    wf_body on_put on_get (tr1 ++ tr2)
with wf_call (on_put on_get : Z) : list mev -> Prop :=
| wc_quiet op o : notify_of on_put on_get op o = 0 ->
    wf_call on_put on_get [EUpd op o; ERet op o]
| wc_notify op o t body : notify_of on_put on_get op o = t -> t <> 0 ->
    wf_body on_put on_get body ->
    wf_call on_put on_get (EUpd op o :: ENotify t :: body ++ [EDone t; ERet op o]).
