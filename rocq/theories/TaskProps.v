(** * mu_task: properties C37, C38.

    User code is unrestricted: [prun] lets every call to user code end in any world. *)
From Verif Require Import CSem FifoSpec TaskModel.

(** A complete execution of library code: the calls made to user code, in order, each
    with the world at the call and the (arbitrary) world at its return; then the result. *)
Inductive prun {S A} : prog S A -> list (ucall * world S * world S) -> A * world S -> Prop :=
| prun_ret a w : prun (PRet a w) [] (a, w)
| prun_call c w k w' tr o : prun (k w') tr o -> prun (PCall c w k) ((c, w, w') :: tr) o.

(** no execution meets undefined behaviour *)
Inductive psafe {S A} : prog S A -> Prop :=
| psafe_ret a w : psafe (PRet a w)
| psafe_call c w k : (forall w', psafe (k w')) -> psafe (PCall c w k).

(** ** C37 *)
Theorem C37_task_call : forall S (w : world S) t tr o,
  prun (mu_task_call t w) tr o ->
  (t = NULL -> tr = [] /\ o = (tt, w)) /\
  (t <> NULL -> w_call_hook w = NULL ->
     exists w', tr = [(UTask (t_fn (w_tasks w t)) t, w, w')] /\ o = (tt, w')) /\
  (t <> NULL -> w_call_hook w <> NULL ->
     exists w1 w', tr = [(UCallHook (w_call_hook w) t, w, w1); (UTask (t_fn (w_tasks w1 t)) t, w1, w')] /\ o = (tt, w')).
Proof.
  intros S w t tr o H. unfold mu_task_call in H.
  destruct (Z.eqb_spec t NULL) as [->|Hne]; simpl in H.
  - inversion H; subst. done.
  - split; [done|]. destruct (Z.eqb_spec (w_call_hook w) NULL) as [Hh|Hh]; simpl in H.
    + split; [|done]. intros _ _. inversion H as [|???? ?? H1]; subst. inversion H1; subst. eauto.
    + split; [done|]. intros _ _. inversion H as [|???? ?? H1]; subst. simpl in H1.
      inversion H1 as [|???? ?? H2]; subst. inversion H2; subst. eauto.
Qed.
Print Assumptions C37_task_call.
Theorem C37_task_call_safe : forall S (w : world S) t, psafe (mu_task_call t w).
Proof.
  intros S w t. unfold mu_task_call. destruct (negb _); [|constructor].
  destruct (negb _); simpl; repeat (constructor; intros; simpl).
Qed.
Print Assumptions C37_task_call_safe.

Definition ex_tasks : Z -> task := tput (tput (fun _ => MkTask 99 0 0) 1 (MkTask 11 5 0)) 2 (MkTask 12 6 0).
(** the hook replaces the task's function before it is called *)
Example C37_example :
  let w := MkW ex_tasks 0 77 0 tt in
  let w1 := MkW (tput ex_tasks 1 (MkTask 55 5 0)) 0 77 0 tt in
  prun (mu_task_call 1 w) [(UCallHook 77 1, w, w1); (UTask 55 1, w1, w)] (tt, w) /\
  prun (mu_task_call 0 w) [] (tt, w).
Proof. split; repeat constructor. Qed.

(** ** C38 *)
(** Everything but "no effect when the state is the same". *)
Theorem C38_set_state_partial : forall S (w : world S) t s tr o,
  prun (mu_task_set_state t s w) tr o ->
  (t = NULL -> tr = [] /\ o = (t, w)) /\
  (t <> NULL -> exists w1 w',
     (* the hook, if installed, runs once, with the new state, while the old state is still in place *)
     (w_set_state_hook w = NULL -> tr = [] /\ w1 = w) /\
     (w_set_state_hook w <> NULL -> tr = [(UStateHook (w_set_state_hook w) t s, w, w1)]) /\
     (* the task is returned; its state is set; nothing else changes after the hook *)
     o = (t, w') /\ w_tasks w' t = MkTask (t_fn (w_tasks w1 t)) s (t_info (w_tasks w1 t)) /\
     (forall t', t' <> t -> w_tasks w' t' = w_tasks w1 t') /\
     w_set_state_hook w' = w_set_state_hook w1 /\ w_call_hook w' = w_call_hook w1 /\
     w_transfer_hook w' = w_transfer_hook w1 /\ w_sys w' = w_sys w1).
Proof.
  intros S w t s tr o H. unfold mu_task_set_state in H.
  destruct (Z.eqb_spec t NULL) as [->|Hne]; simpl in H.
  - inversion H; subst. done.
  - split; [done|]. intros _. destruct (Z.eqb_spec (w_set_state_hook w) NULL) as [Hh|Hh]; simpl in H.
    + inversion H; subst. eexists w, _. split_and!; try done; simpl; unfold tput.
      * by rewrite Z.eqb_refl.
      * intros t' Ht'. by destruct (Z.eqb_spec t' t).
    + inversion H as [|? ? ? w1 ? ? H1]; subst. inversion H1; subst. eexists w1, _. split_and!; try done; simpl; unfold tput.
      * by rewrite Z.eqb_refl.
      * intros t' Ht'. by destruct (Z.eqb_spec t' t).
Qed.
Print Assumptions C38_set_state_partial.
Theorem C38_set_state_safe : forall S (w : world S) t s, psafe (mu_task_set_state t s w).
Proof.
  intros S w t s. unfold mu_task_set_state. destruct (negb _); [|constructor].
  destruct (negb _); simpl; repeat (constructor; intros; simpl).
Qed.
Print Assumptions C38_set_state_safe.
(** Without a hook, setting the state a task already has leaves every task as it was. *)
Theorem C38_same_state_no_hook : forall S (w : world S) t tr o,
  w_set_state_hook w = NULL -> prun (mu_task_set_state t (t_state (w_tasks w t)) w) tr o ->
  tr = [] /\ fst o = t /\ forall t', w_tasks (snd o) t' = w_tasks w t'.
Proof.
  intros S w t tr o Hh H. apply C38_set_state_partial in H as [H1 H2].
  destruct (decide (t = NULL)) as [Hn|Hn].
  - destruct (H1 Hn) as [-> ->]. done.
  - destruct (H2 Hn) as (w1 & w' & H3 & _ & -> & H4 & H5 & _). destruct (H3 Hh) as [-> ->].
    split; [done|]. split; [done|]. intros t'. simpl. destruct (decide (t' = t)) as [->|Hne]; [|by apply H5].
    rewrite H4. by destruct (w_tasks w t).
Qed.
Print Assumptions C38_same_state_no_hook.
(** mu_task.h says the call has no effect when the state is already the new one; yet the
    hook is called in that case, whatever the task. *)
Theorem C38_same_state_refuted : forall S (w : world S) t, t <> NULL -> w_set_state_hook w <> NULL ->
  forall tr o, prun (mu_task_set_state t (t_state (w_tasks w t)) w) tr o -> tr <> [].
Proof.
  intros S w t Hn Hh tr o H. apply C38_set_state_partial in H as [_ H2].
  destruct (H2 Hn) as (w1 & w' & _ & H4 & _). rewrite (H4 Hh). done.
Qed.
Print Assumptions C38_same_state_refuted.
Example C38_example : exists o,
  prun (mu_task_set_state 1 5 (MkW ex_tasks 88 0 0 tt))
    [(UStateHook 88 1 5, MkW ex_tasks 88 0 0 tt, MkW ex_tasks 88 0 0 tt)] o /\
  t_state (w_tasks (snd o) 1) = 5 /\ t_state (w_tasks (snd o) 2) = 6.
Proof. eexists. split; [repeat constructor|]. done. Qed.

(** ** Which hook is "the installed one"
    The hook that a call runs is the one passed to the installation function of its own
    kind, and to no other, since: installing one kind changes neither the other two nor any
    task.  [installed h w] is the world in which the hooks of the three kinds have been
    installed, in this order. *)
Definition installed {S} (set_state call transfer : Z) (w : world S) : world S :=
  mu_task_install_transfer_hook transfer
    (mu_task_install_call_hook call (mu_task_install_set_state_hook set_state w)).

Theorem C37_installed_hook : forall S (w0 : world S) hs hc ht t tr o,
  t <> NULL -> prun (mu_task_call t (installed hs hc ht w0)) tr o ->
  (hc = NULL -> exists v v', tr = [(UTask (t_fn (w_tasks w0 t)) t, v, v')] /\ o = (tt, v') /\ w_tasks v = w_tasks w0) /\
  (hc <> NULL -> exists v v1 v',
     tr = [(UCallHook hc t, v, v1); (UTask (t_fn (w_tasks v1 t)) t, v1, v')] /\ o = (tt, v') /\ w_tasks v = w_tasks w0).
Proof.
  intros S w0 hs hc ht t tr o Hn H. apply C37_task_call in H as (_ & H1 & H2). split; intros Hc.
  - destruct (H1 Hn Hc) as (v' & -> & ->). by eexists _, v'.
  - destruct (H2 Hn Hc) as (v1 & v' & -> & ->). by eexists _, v1, v'.
Qed.
Print Assumptions C37_installed_hook.

Theorem C38_installed_hook : forall S (w0 : world S) hs hc ht t s tr o,
  t <> NULL -> prun (mu_task_set_state t s (installed hs hc ht w0)) tr o ->
  (hs = NULL -> tr = []) /\
  (hs <> NULL -> exists v v1, tr = [(UStateHook hs t s, v, v1)] /\ w_tasks v = w_tasks w0).
Proof.
  intros S w0 hs hc ht t s tr o Hn H. apply C38_set_state_partial in H as (_ & H2).
  destruct (H2 Hn) as (w1 & w' & H3 & H4 & _). split; intros Hc.
  - by destruct (H3 Hc).
  - rewrite (H4 Hc). by eexists _, w1.
Qed.
Print Assumptions C38_installed_hook.

(** the hooks of the three kinds are independent: installing them in any order, or one of
    them twice, leaves the last hook of each kind, and every task as it was *)
Theorem C37_install_independent : forall S (w : world S) h h',
  let f := mu_task_install_set_state_hook in
  let g := mu_task_install_call_hook in
  let k := mu_task_install_transfer_hook in
  f h (g h' w) = g h' (f h w) /\ g h (k h' w) = k h' (g h w) /\ f h (k h' w) = k h' (f h w) /\
  f h (f h' w) = f h w /\ g h (g h' w) = g h w /\ k h (k h' w) = k h w /\
  w_tasks (f h w) = w_tasks w /\ w_tasks (g h w) = w_tasks w /\ w_tasks (k h w) = w_tasks w.
Proof. intros. destruct w. by split_and!. Qed.
Print Assumptions C37_install_independent.

Theorem C37_installed_transfer_hook : forall S (w0 : world S) hs hc ht t tr o,
  prun (mu_task_call_transfer_hook t (installed hs hc ht w0)) tr o ->
  (ht = NULL -> tr = []) /\ (ht <> NULL -> exists v v', tr = [(UTransferHook ht t, v, v')] /\ o = (tt, v')).
Proof.
  intros S w0 hs hc ht t tr o H. unfold mu_task_call_transfer_hook in H. cbn in H.
  destruct (Z.eqb_spec ht NULL) as [Hh|Hh]; cbn in H.
  - by inversion H; subst.
  - split; [done|]. intros _. inversion H as [|? ? ? w1 ? ? H1]; subst. inversion H1; subst. by eexists _, _.
Qed.
Print Assumptions C37_installed_transfer_hook.

Example C37_installed_example :
  let w := MkW ex_tasks 0 0 0 tt in
  exists v o, prun (mu_task_call 1 (installed 5 77 6 w)) [(UCallHook 77 1, v, w); (UTask 11 1, w, w)] o.
Proof. eexists _, _. repeat constructor. Qed.
