(** * mu_task in histories: property C72 (vocabulary: SchedProps.v, SchedProps2.v) *)
From Verif Require Import CSem FifoSpec TaskModel SchedModel SchedSpec SchedProofs SchedOrder SchedProps SchedProps2.

(** The task objects as they follow from the history and its events alone: user code may
    overwrite them (mu_task_init, mu_task_set_user_info, direct writes); a mu_task_set_state
    that returns has set the state of its task.  No other API call writes to a task. *)
Definition set_field (tm : Z -> task) (t s : Z) : Z -> task :=
  fun a => if decide (a = t) then MkTask (t_fn (tm t)) s (t_info (tm t)) else tm a.
Definition written (tm : Z -> task) (st : list (op * Z)) (l : label) (ev : list event) : Z -> task :=
  match l with
  | LPoke tm' => tm'
  | _ => match returned st l ev with
         | Some (OSetState t s, _) => if decide (t = NULL) then tm else set_field tm t s
         | _ => tm
         end
  end.
Fixpoint replay (tm : Z -> task) (st : list (op * Z)) (ls : list label) (evs : list (list event)) : Z -> task :=
  match ls, evs with
  | l :: ls, ev :: evs => replay (written tm st l ev) (in_progress st l ev) ls evs
  | _, _ => tm
  end.
(** the hooks (set_state, call, transfer) last installed *)
Definition last_hooks (ls : list label) : Z * Z * Z :=
  fold_left (fun h l => match l with LOp (OHooks x y z) => (x, y, z) | _ => h end) ls (NULL, NULL, NULL).

Section replay.
Context (cf : config).
Notation BT := (by_time (precedes cf)).
Definition live (f : frame) : Prop := match f with FState t _ => t <> NULL | _ => True end.

Lemma a_immed_frame w stk t : let r := a_immed cf w stk t in
  w_tasks (as_w (ao_state r)) = w_tasks w /\ as_stack (ao_state r) = stk /\ exists e, ao_evs r = [ERet e].
Proof. unfold a_immed. destruct (decide _); simpl; eauto. Qed.
Lemma a_defer_frame w stk t at_ : let r := a_defer cf BT w stk t at_ in
  w_tasks (as_w (ao_state r)) = w_tasks w /\ as_stack (ao_state r) = stk /\ exists e, ao_evs r = [ERet e].
Proof. unfold a_defer. destruct (decide _); simpl; eauto. Qed.

Lemma live_step s l : Forall live (as_stack s) -> Forall live (as_stack (ao_state (astep cf BT s l))).
Proof.
  intros H. destruct s as [w stk]. cbn [as_stack] in H.
  destruct l as [o| |m]; cbn [astep as_w as_stack]; [| |done].
  - destruct o; cbn [aop]; try done.
    + destruct (choose _ _ _ _) as [[t' g] q']. unfold enter. destruct (decide _); [done|]. destruct (decide _); by constructor.
    + destruct (decide _); [|by constructor]. destruct (a_immed_frame w stk t) as (_ & -> & _). done.
    + destruct (a_immed_frame w stk t) as (_ & -> & _). done.
    + by destruct (decide _).
    + destruct (a_defer_frame w stk t at_) as (_ & -> & _). done.
    + destruct (a_defer_frame w stk t (offset cf now dt)) as (_ & -> & _). done.
    + destruct (decide _); [done|]. unfold enter. destruct (decide _); by constructor.
    + destruct (decide _); [done|]. destruct (decide _); [done|]. by constructor.
  - inversion H as [|f stk' Hf Hr]; subst; [done|]. destruct f; cbn [areturn]; try done; try by constructor.
    destruct (a_immed_frame w stk' t) as (_ & -> & _). done.
Qed.
Lemma tasks_step st s l tm : Forall2 frame_op st (as_stack s) -> Forall live (as_stack s) ->
  (forall a, w_tasks (as_w s) a = tm a) ->
  forall a, w_tasks (as_w (ao_state (astep cf BT s l))) a = written tm st l (ao_evs (astep cf BT s l)) a.
Proof.
  intros H Hl Ht a. destruct s as [w stk]. cbn [as_stack as_w] in *.
  destruct l as [o| |m]; cbn [astep as_w as_stack]; [| |done].
  - destruct o; cbn [aop]; try apply Ht.
    + destruct (choose _ _ _ _) as [[t' g] q']. unfold enter. destruct (decide _); [apply Ht|]. destruct (decide _); apply Ht.
    + destruct (decide _); [|apply Ht]. destruct (a_immed_frame w stk t) as (-> & _ & er & ->). apply Ht.
    + destruct (a_immed_frame w stk t) as (-> & _ & er & ->). apply Ht.
    + destruct (decide _); apply Ht.
    + destruct (a_defer_frame w stk t at_) as (-> & _ & er & ->). apply Ht.
    + destruct (a_defer_frame w stk t (offset cf now dt)) as (-> & _ & er & ->). apply Ht.
    + destruct (decide _); [apply Ht|]. unfold enter. destruct (decide _); apply Ht.
    + unfold written. destruct (decide (t = NULL)) as [Hn|Hn].
      * simpl. rewrite decide_True by done. apply Ht.
      * destruct (decide _); [|apply Ht]. simpl. rewrite decide_False by done. unfold set_field, tput. rewrite !Ht.
        destruct (Z.eqb_spec a t), (decide (a = t)); done.
  - inversion H as [|[o x] f st' stk' He Hr]; subst; [apply Ht|]. inversion Hl; subst.
    destruct f; cbn [areturn]; try apply Ht.
    + destruct He as [[now E] _]. simpl in E. subst o. apply Ht.
    + simpl in He. subst o. apply Ht.
    + simpl in He. subst o. unfold written. simpl. rewrite decide_False by done. unfold set_field, tput. rewrite !Ht.
      destruct (Z.eqb_spec a t), (decide (a = t)); done.
    + simpl in He. subst o. destruct (a_immed_frame w stk' t) as (-> & _ & er & ->). apply Ht.
Qed.
Lemma replay_run : forall ls st s tm, Forall2 frame_op st (as_stack s) -> Forall live (as_stack s) ->
  (forall a, w_tasks (as_w s) a = tm a) ->
  forall a, w_tasks (as_w (fst (arun cf BT s ls))) a = replay tm st ls (snd (arun cf BT s ls)) a.
Proof.
  induction ls as [|l ls IH]; intros st s tm H Hl Ht a; [apply Ht|]. cbn [arun].
  specialize (IH _ _ _ (progress_ok cf st s l H) (live_step s l Hl) (tasks_step st s l tm H Hl Ht) a).
  destruct (arun cf BT (ao_state (astep cf BT s l)) ls) as [s' es]. exact IH.
Qed.
Lemma hooks_step s l : (w_set_state_hook (as_w (ao_state (astep cf BT s l))), w_call_hook (as_w (ao_state (astep cf BT s l))), w_transfer_hook (as_w (ao_state (astep cf BT s l)))) =
  match l with LOp (OHooks x y z) => (x, y, z) | _ => (w_set_state_hook (as_w s), w_call_hook (as_w s), w_transfer_hook (as_w s)) end.
Proof.
  destruct s as [w stk]. cbn [as_w].
  assert (Him : forall stk t, (w_set_state_hook (as_w (ao_state (a_immed cf w stk t))), w_call_hook (as_w (ao_state (a_immed cf w stk t))), w_transfer_hook (as_w (ao_state (a_immed cf w stk t)))) = (w_set_state_hook w, w_call_hook w, w_transfer_hook w)).
  { intros stk' t'. unfold a_immed. by destruct (decide _). }
  destruct l as [o| |m]; cbn [astep as_w as_stack]; [|destruct stk as [|f stk]; [done|destruct f; cbn [areturn]; try done; apply Him]|done].
  destruct o; cbn [aop]; try done; try apply Him.
  - destruct (choose _ _ _ _) as [[x g] q']. by destruct (decide _).
  - destruct (decide _); [apply Him|done].
  - by destruct (decide _).
  - unfold a_defer. by destruct (decide _).
  - unfold a_defer. by destruct (decide _).
  - by destruct (decide _).
  - by repeat destruct (decide _).
Qed.
Lemma hooks_after tm ls : let w := as_w (after cf BT tm ls) in
  (w_set_state_hook w, w_call_hook w, w_transfer_hook w) = last_hooks ls.
Proof.
  cbn zeta. induction ls as [|l ls IH] using rev_ind; [done|]. rewrite after_snoc, hooks_step, IH.
  unfold last_hooks. rewrite fold_left_app. done.
Qed.
End replay.

(** After any history the getters return what was last written, and the hooks in force are
    those last installed; the scheduler itself never writes to a task object. *)
Theorem C72_task_fields : forall cf tm ls, config_ok cf ->
  exists m evs, mrun cf (machine0 cf tm) ls = Ok (m, evs) /\
    (forall t, mu_task_get_fn t (m_w m) = t_fn (replay tm [] ls evs t) /\
       mu_task_get_state t (m_w m) = t_state (replay tm [] ls evs t) /\
       mu_task_get_user_info t (m_w m) = t_info (replay tm [] ls evs t)) /\
    (w_set_state_hook (m_w m), w_call_hook (m_w m), w_transfer_hook (m_w m)) = last_hooks ls.
Proof.
  intros cf tm ls Hcf. destruct (run_ok cf tm Hcf ls) as (m & E & (H1 & H2 & H3 & H4 & _) & _).
  eexists m, _. split; [exact E|]. split.
  - intros t. unfold mu_task_get_fn, mu_task_get_state, mu_task_get_user_info. rewrite H1.
    unfold after. rewrite (replay_run cf ls [] (astate0 tm) tm) by constructor. done.
  - rewrite H2, H3, H4. apply hooks_after.
Qed.
Print Assumptions C72_task_fields.

(** mu_task_init and mu_task_set_user_info write exactly the fields they name, of exactly
    the task they are given, and mu_task_init returns the task. *)
Theorem C72_task_writers : forall S (w : world S) t fn s info t',
  let (r, w1) := mu_task_init t fn s info w in
  let w2 := mu_task_set_user_info t info w in
  r = t /\
  mu_task_get_fn t w1 = fn /\ mu_task_get_state t w1 = s /\ mu_task_get_user_info t w1 = info /\
  mu_task_get_fn t w2 = mu_task_get_fn t w /\ mu_task_get_state t w2 = mu_task_get_state t w /\ mu_task_get_user_info t w2 = info /\
  (t' <> t -> w_tasks w1 t' = w_tasks w t' /\ w_tasks w2 t' = w_tasks w t') /\
  (forall w', w' = w1 \/ w' = w2 -> w_sys w' = w_sys w /\ w_set_state_hook w' = w_set_state_hook w /\
     w_call_hook w' = w_call_hook w /\ w_transfer_hook w' = w_transfer_hook w).
Proof.
  intros S w t fn s info t'. unfold mu_task_init, mu_task_set_user_info, with_tasks. cbn zeta.
  unfold mu_task_get_fn, mu_task_get_state, mu_task_get_user_info, tput. simpl. rewrite Z.eqb_refl. simpl.
  do 7 (split; [done|]). split.
  - intros Hne. destruct (Z.eqb_spec t' t); done.
  - by intros w' [-> | ->].
Qed.
Print Assumptions C72_task_writers.

(** a nested mu_task_set_state from inside the state hook is overwritten by the outer one *)
Definition ex72 : list label := [LOp (OHooks 88 0 0); LOp (OSetState 1 5); LOp (OHooks 0 0 0); LOp (OSetState 1 6); LOp (OSetState 2 7); LReturn].
Example C72_example : match mrun ex_cf (machine0 ex_cf ex_tm) ex72 with
  | Ok (m, evs) => evs = [[ERet RUnit]; [ECall (UStateHook 88 1 5)]; [ERet RUnit]; [ERet (RTask 1)]; [ERet (RTask 2)]; [ERet (RTask 1)]] /\
      mu_task_get_state 1 (m_w m) = 5 /\ mu_task_get_state 2 (m_w m) = 7 /\ mu_task_get_fn 1 (m_w m) = 1001 /\ last_hooks ex72 = (0, 0, 0)
  | _ => False end.
Proof. vm_compute. done. Qed.

(** MU_TASK_CTX: a context object at address [ctx] with its task slot at offset [off] is
    recovered from the task pointer, for every object that lies within the address space. *)
Theorem C73_task_ctx : forall p ctx off, 0 <= ctx -> 0 <= off -> ctx + off < size_mod p ->
  MU_TASK_CTX p (ctx + off) off = ctx.
Proof. intros p ctx off H1 H2 H3. unfold MU_TASK_CTX. rewrite to_size_id; unfold size_max; lia. Qed.
Print Assumptions C73_task_ctx.
Example C73_example : 0 <= 4294967000 /\ 4294967000 + 12 < size_mod P32 /\ MU_TASK_CTX P32 (4294967000 + 12) 12 = 4294967000.
Proof. vm_compute. split; [|split]; congruence. Qed.
