(** * mu_sched: properties C68-C71 (vocabulary: SchedProps.v) *)
From Verif Require Import CSem FifoSpec TaskModel SchedModel SchedSpec SchedProofs SchedOrder SchedProps SchedProps3.

(** ** C71: the whole scheduler *)
(** No history whatever of API calls, nested in any way, from tasks and hooks, is undefined
    behaviour or fails to terminate, and the events seen are exactly those of the
    specification: three lists, the deferred one kept in execution order. *)
Theorem C71_sched_total : forall cf tm ls, config_ok cf ->
  exists m, mrun cf (machine0 cf tm) ls = Ok (m, snd (arun cf (by_time (precedes cf)) (astate0 tm) ls)) /\
    length (snd (arun cf (by_time (precedes cf)) (astate0 tm) ls)) = length ls.
Proof.
  intros cf tm ls Hcf. destruct (run_ok cf tm Hcf ls) as (m & E & _). exists m. split; [done|]. apply arun_length.
Qed.
Print Assumptions C71_sched_total.
(** nested steps, a reset from inside a running task, a removal from inside a hook *)
Example C71_example : exists m, mrun ex_cf (machine0 ex_cf ex_tm)
   [LOp (OImmed 1); LOp (OImmed 2); LOp (ODefer 3 5); LOp (OHooks 0 77 0); LOp (OStep 0); LOp (ORemove 3); LReturn;
    LOp (OStep 9); LReturn; LOp OReset; LReturn; LReturn; LOp OCurrent; LOp (OStep 9)]
   = Ok (m, replicate 3 [ERet (RErr SCHED_NONE)] ++ [[ERet RUnit]; [ECall (UCallHook 77 1)]; [ERet (RErr SCHED_NONE)];
      [ECall (UTask 1001 1)]; [ECall (UCallHook 77 2)]; [ECall (UTask 1002 2)]; [ERet RUnit]; [ERet RUnit]; [ERet RUnit];
      [ERet (RTask 0)]; [ERet RUnit]]).
Proof. eexists. vm_compute. reflexivity. Qed.

(** ** C68: the idle task *)
(** the argument of the last mu_sched_set_idle_task since the last mu_sched_init (or power-up) *)
Definition last_idle (ls : list label) : Z :=
  fold_left (fun t l => match l with LOp (OSetIdle t') => t' | LOp OInit => NULL | _ => t end) ls NULL.

Section idle.
Context (cf : config).
Notation BT := (by_time (precedes cf)).
Lemma choose_keeps_idle now q : a_idle (snd (choose cf BT now q)) = a_idle q.
Proof.
  unfold choose. destruct (a_irq q); [|done]. destruct (due _ _ _ _) as [[x rest]|].
  - destruct (decide _); [done|]. cbn [a_with_def a_imm]. by destruct (a_imm q).
  - destruct (decide _); [done|]. by destruct (a_imm q).
Qed.
Lemma idle_label s l : a_idle (queues (ao_state (astep cf BT s l))) =
  match l with LOp (OSetIdle t') => t' | LOp OInit => NULL | _ => a_idle (queues s) end.
Proof.
  destruct s as [w stk]. unfold queues. cbn [as_w].
  assert (Him : forall stk t, a_idle (w_sys (as_w (ao_state (a_immed cf w stk t)))) = a_idle (w_sys w)).
  { intros stk' t'. unfold a_immed. by destruct (decide _). }
  assert (Hdf : forall t at_, a_idle (w_sys (as_w (ao_state (a_defer cf BT w stk t at_)))) = a_idle (w_sys w)).
  { intros t' at_. unfold a_defer. by destruct (decide _). }
  destruct l as [o| |m]; cbn [astep as_w as_stack]; [|destruct stk as [|f stk]; [done|destruct f; cbn [areturn]; try done; by rewrite Him]|done].
  destruct o; cbn [aop]; try done; try (by rewrite Him); try (by rewrite Hdf).
  - pose proof (choose_keeps_idle now (w_sys w)) as H. destruct (choose _ _ _ _) as [[x g] q']. simpl in H.
    rewrite <- H. by destruct (decide _).
  - destruct (decide _); [by rewrite Him|done].
  - by destruct (decide _).
  - by destruct (decide _).
  - by repeat destruct (decide _).
Qed.
End idle.
Lemma idle_after cf tm ls : a_idle (queues (after cf (by_time (precedes cf)) tm ls)) = last_idle ls.
Proof.
  induction ls as [|l ls IH] using rev_ind; [done|]. rewrite after_snoc, idle_label, IH.
  unfold last_idle. rewrite fold_left_app. done.
Qed.

(** mu_sched_get_idle_task returns the task last set, whatever happened in between but an
    init; a step with nothing to run runs that task and leaves the queues as they are. *)
Theorem C68_idle_task : forall cf tm ls, config_ok cf ->
  let dc := by_time (precedes cf) in
  let q := queues (after cf dc tm ls) in
  emits cf tm ls (LOp OGetIdle) [ERet (RTask (last_idle ls))] /\
  (forall now, a_irq q = [] -> a_imm q = [] ->
     (forall at_ t, head (a_def q) = Some (at_, t) -> precedes cf now at_ = true) ->
     (exists ev, emits cf tm ls (LOp (OStep now)) ev /\ runs (after cf dc tm ls) (last_idle ls) ev) /\
     queues (after cf dc tm (ls ++ [LOp (OStep now)])) = MkA [] [] (a_def q) (last_idle ls) (last_idle ls)).
Proof.
  intros cf tm ls Hcf dc q. pose proof (idle_after cf tm ls) as Hi. fold dc q in Hi. split.
  { pose proof (emits_time cf tm Hcf ls (LOp OGetIdle)) as H. cbn [astep aop ao_evs ret] in H. fold dc in H.
    unfold q, queues in Hi. rewrite Hi in H. exact H. }
  intros now H1 H2 H3.
  assert (Hc : choose cf dc now q = (last_idle ls, [], q)).
  { unfold choose. rewrite H1. unfold due. cbn [dc by_time d_next]. destruct (a_def q) as [|[at_ x] d] eqn:Ed.
    - rewrite decide_False by (by intros ?). by rewrite H2, Hi.
    - rewrite (H3 at_ x) by done. rewrite decide_False by (by intros ?). by rewrite H2, Hi. }
  pose proof (step_shape cf dc (after cf dc tm ls) now) as Hsh. fold q in Hsh. rewrite Hc in Hsh.
  destruct Hsh as (Hr & Hq & _). split.
  - eexists. split; [by apply emits_time|]. exact Hr.
  - rewrite after_snoc, Hq. unfold a_with_curr. by rewrite H1, H2, Hi.
Qed.
Print Assumptions C68_idle_task.
Definition ex68 : list label := [LOp (OSetIdle 8); LOp OInit; LOp OGetIdle; LOp (OSetIdle 9); LOp (ODefer 3 50); LOp (OImmed 1); LOp (OStep 1); LOp OReset; LReturn; LOp (ODefer 3 50)].
Example C68_example : last_idle ex68 = 9 /\ queues (after ex_cf (by_time Z.ltb) ex_tm ex68) = MkA [] [] [(50, 3)] 0 9 /\
  precedes ex_cf 49 50 = true /\
  exists m, mrun ex_cf (machine0 ex_cf ex_tm) (ex68 ++ [LOp OGetIdle; LOp (OStep 49)]) =
    Ok (m, [[ERet RUnit]; [ERet RUnit]; [ERet (RTask 0)]; [ERet RUnit]; [ERet (RErr SCHED_NONE)]; [ERet (RErr SCHED_NONE)];
            [ECall (UTask 1001 1)]; [ERet RUnit]; [ERet RUnit]; [ERet (RErr SCHED_NONE)]; [ERet (RTask 9)]; [ECall (UTask 1009 9)]]).
Proof. do 3 (split; [reflexivity|]). eexists. vm_compute. reflexivity. Qed.

(** ** C69: mu_sched_transfer and mu_sched_wait *)
(** the transfer hook installed by the history *)
Definition last_transfer_hook (ls : list label) : Z :=
  fold_left (fun h l => match l with LOp (OHooks _ _ h') => h' | _ => h end) ls NULL.
Lemma hook_label cf dc s l : w_transfer_hook (as_w (ao_state (astep cf dc s l))) =
  match l with LOp (OHooks _ _ h) => h | _ => w_transfer_hook (as_w s) end.
Proof.
  destruct s as [w stk]. cbn [as_w].
  assert (Him : forall stk t, w_transfer_hook (as_w (ao_state (a_immed cf w stk t))) = w_transfer_hook w).
  { intros stk' t'. unfold a_immed. by destruct (decide _). }
  assert (Hdf : forall t at_, w_transfer_hook (as_w (ao_state (a_defer cf dc w stk t at_))) = w_transfer_hook w).
  { intros t' at_. unfold a_defer. by destruct (decide _). }
  destruct l as [o| |m]; cbn [astep as_w as_stack]; [|destruct stk as [|f stk]; [done|destruct f; cbn [areturn]; try done; by rewrite Him]|done].
  destruct o; cbn [aop]; try done; try (by rewrite Him); try (by rewrite Hdf).
  - destruct (choose _ _ _ _) as [[x g] q']. by destruct (decide _).
  - destruct (decide _); [by rewrite Him|done].
  - by destruct (decide _).
  - by destruct (decide _).
  - by repeat destruct (decide _).
Qed.
Lemma hook_after cf dc tm ls : w_transfer_hook (as_w (after cf dc tm ls)) = last_transfer_hook ls.
Proof.
  induction ls as [|l ls IH] using rev_ind; [done|]. rewrite after_snoc, hook_label, IH.
  unfold last_transfer_hook. rewrite fold_left_app. done.
Qed.

(** What an attempt to add [t] to the immediate queue does, at the moment it happens. *)
Definition immed_now (cf : config) (q : asched) (t : Z) (ev : list event) (q' : asched) : Prop :=
  if decide (Z.of_nat (length (a_imm q)) < MAX_IMMED cf)
  then ev = [ERet (RErr SCHED_NONE)] /\ q' = MkA (a_irq q) (a_imm q ++ [t]) (a_def q) (a_curr q) (a_idle q)
  else ev = [ERet (RErr SCHED_FULL)] /\ q' = q.

Theorem C69_transfer : forall cf tm ls t, config_ok cf ->
  let dc := by_time (precedes cf) in
  let q := queues (after cf dc tm ls) in
  let h := last_transfer_hook ls in
  (* no hook: the task is made immediate at once *)
  (h = NULL -> exists ev, emits cf tm ls (LOp (OTransfer t)) ev /\
     immed_now cf q t ev (queues (after cf dc tm (ls ++ [LOp (OTransfer t)])))) /\
  (* with a hook: the hook is called, with the task, before anything is scheduled *)
  (h <> NULL -> emits cf tm ls (LOp (OTransfer t)) [ECall (UTransferHook h t)] /\
     queues (after cf dc tm (ls ++ [LOp (OTransfer t)])) = q /\
     (* and when it returns, whatever it did meanwhile ([ls']), the task is made immediate *)
     forall ls', as_stack (after cf dc tm (ls ++ LOp (OTransfer t) :: ls')) = FTransfer t :: as_stack (after cf dc tm ls) ->
     exists ev, emits cf tm (ls ++ LOp (OTransfer t) :: ls') LReturn ev /\
       immed_now cf (queues (after cf dc tm (ls ++ LOp (OTransfer t) :: ls'))) t ev
         (queues (after cf dc tm (ls ++ LOp (OTransfer t) :: ls' ++ [LReturn]))) /\
       as_stack (after cf dc tm (ls ++ LOp (OTransfer t) :: ls' ++ [LReturn])) = as_stack (after cf dc tm ls)).
Proof.
  intros cf tm ls t Hcf dc q h. pose proof (hook_after cf dc tm ls) as Hh. fold h in Hh.
  assert (Him : forall s stk, let r := a_immed cf (as_w s) stk t in immed_now cf (queues s) t (ao_evs r) (queues (ao_state r)) /\ as_stack (ao_state r) = stk).
  { intros s stk. unfold a_immed, immed_now. fold (queues s). by destruct (decide _). }
  split.
  - intros E. eexists. split; [by apply emits_time|]. rewrite after_snoc. fold dc. cbn [astep aop]. rewrite Hh, E.
    rewrite decide_True by done. apply Him.
  - intros E. assert (Hst : astep cf dc (after cf dc tm ls) (LOp (OTransfer t)) =
      call (as_w (after cf dc tm ls)) (as_stack (after cf dc tm ls)) (FTransfer t, ECall (UTransferHook h t))).
    { cbn [astep aop]. rewrite Hh. by rewrite decide_False by done. }
    split; [|split].
    + pose proof (emits_time cf tm Hcf ls (LOp (OTransfer t))) as H. fold dc in H. by rewrite Hst in H.
    + rewrite after_snoc, Hst. done.
    + intros ls' Hs. set (L := ls ++ LOp (OTransfer t) :: ls') in *.
      assert (EL : ls ++ LOp (OTransfer t) :: ls' ++ [LReturn] = L ++ [LReturn]) by (unfold L; by rewrite <- app_assoc).
      rewrite EL, after_snoc. exists (ao_evs (astep cf dc (after cf dc tm L) LReturn)).
      split; [by apply emits_time|]. cbn [astep]. rewrite Hs. cbn [areturn]. apply (Him (after cf dc tm L)).
Qed.
Print Assumptions C69_transfer.
(** mu_sched_wait does nothing at all and reports success. *)
Theorem C69_wait : forall cf tm ls t, config_ok cf ->
  emits cf tm ls (LOp (OWait t)) [ERet (RErr SCHED_NONE)] /\
  after cf (by_time (precedes cf)) tm (ls ++ [LOp (OWait t)]) = after cf (by_time (precedes cf)) tm ls.
Proof.
  intros cf tm ls t Hcf. split; [apply (emits_time cf tm Hcf)|]. rewrite after_snoc. cbn [astep aop ao_state ret].
  by destruct (after _ _ _ _).
Qed.
Print Assumptions C69_wait.
Definition ex69 : list label := [LOp (OHooks 0 0 66); LOp (OImmed 1)].
Example C69_example : last_transfer_hook ex69 = 66 /\
  as_stack (after ex_cf (by_time Z.ltb) ex_tm (ex69 ++ LOp (OTransfer 5) :: [LOp (OImmed 2)])) = FTransfer 5 :: as_stack (after ex_cf (by_time Z.ltb) ex_tm ex69) /\
  exists m, mrun ex_cf (machine0 ex_cf ex_tm) (ex69 ++ [LOp (OTransfer 5); LOp (OImmed 2); LReturn; LOp (OImmed 6); LOp (OHooks 0 0 0); LOp (OTransfer 7); LOp (OWait 7)])
    = Ok (m, [[ERet RUnit]; [ERet (RErr SCHED_NONE)]; [ECall (UTransferHook 66 5)]; [ERet (RErr SCHED_NONE)]; [ERet (RErr SCHED_NONE)];
              [ERet (RErr SCHED_NONE)]; [ERet RUnit]; [ERet (RErr SCHED_FULL)]; [ERet (RErr SCHED_NONE)]]).
Proof. do 2 (split; [reflexivity|]). eexists. vm_compute. reflexivity. Qed.

(** ** C70: deferred tasks run on time *)
Section latency.
Context (cf : config).
Notation BT := (by_time (precedes cf)).

(** What must not happen while the first [k+1] deferred tasks [d] wait: interrupts, resets,
    removals, deferring something to an earlier time than one of them, and steps at a time
    at which they are not yet due. *)
Definition on_time (d : list (Z * Z)) (l : label) : Prop :=
  match l with
  | LOp (OInit | OReset | OIsr _ | ORemove _) => False
  | LOp (ODefer _ at_) => Forall (fun e => precedes cf at_ (fst e) = false) d
  | LOp (ODeferFor _ now dt) => Forall (fun e => precedes cf (offset cf now dt) (fst e) = false) d
  | LOp (OStep now) => Forall (fun e => precedes cf now (fst e) = false) d
  | _ => True
  end.

Lemma ins_behind e : forall d r, Forall (fun x => precedes cf (fst e) (fst x) = false) d ->
  ins (precedes cf) e (d ++ r) = d ++ ins (precedes cf) e r.
Proof. induction d as [|x d IH]; intros r H; [done|]. inversion H; subst. simpl. rewrite H2. by rewrite IH. Qed.

Lemma def_other s l d r : on_time d l -> is_step l = false -> a_def (queues s) = d ++ r ->
  a_irq (queues (ao_state (astep cf BT s l))) = a_irq (queues s) /\
  exists r', a_def (queues (ao_state (astep cf BT s l))) = d ++ r'.
Proof.
  intros H1 H2 Hd. destruct s as [w stk]. unfold queues in *. cbn [as_w] in *.
  assert (H0 : a_irq (w_sys w) = a_irq (w_sys w) /\ exists r', a_def (w_sys w) = d ++ r') by eauto.
  assert (Him : forall stk t, let q := w_sys (as_w (ao_state (a_immed cf w stk t))) in a_irq q = a_irq (w_sys w) /\ exists r', a_def q = d ++ r').
  { intros stk' t'. unfold a_immed. destruct (decide _); [simpl; eauto|done]. }
  assert (Hdf : forall t at_, Forall (fun e => precedes cf at_ (fst e) = false) d ->
    let q := w_sys (as_w (ao_state (a_defer cf BT w stk t at_))) in a_irq q = a_irq (w_sys w) /\ exists r', a_def q = d ++ r').
  { intros t' at_ Ha. unfold a_defer. destruct (decide _); [|done]. simpl. split; [done|]. rewrite Hd, ins_behind by done. eauto. }
  destruct l as [o| |m]; cbn [astep as_w as_stack is_step]; [|destruct stk as [|f stk]; [done|destruct f; cbn [areturn]; try done; apply Him]|done].
  destruct o; cbn [aop is_step on_time] in *; try done; try apply Him; try (by apply Hdf).
  - destruct (decide _); [apply Him|done].
  - by destruct (decide _).
  - by repeat destruct (decide _).
Qed.
Lemma def_step s now d r : on_time d (LOp (OStep now)) -> a_def (queues s) = d ++ r ->
  let q' := queues (ao_state (astep cf BT s (LOp (OStep now)))) in
  (a_irq (queues s) <> [] -> a_irq q' = tail (a_irq (queues s)) /\ a_def q' = d ++ r) /\
  (a_irq (queues s) = [] -> d <> [] -> a_irq q' = [] /\ a_def q' = tail d ++ r).
Proof.
  intros H1 Hd q'. pose proof (step_shape cf BT s now) as Hsh. unfold choose in Hsh.
  destruct (a_irq (queues s)) as [|x irq] eqn:Ei.
  - split; [done|]. intros _ Hn. destruct d as [|[at_ y] d]; [done|]. simpl in H1. inversion H1 as [|? ? Hp]; subst. simpl in Hp.
    unfold due in Hsh. cbn [by_time d_next] in Hsh. rewrite Hd in Hsh. cbn [app] in Hsh. rewrite Hp in Hsh.
    destruct (decide (y <> NULL)).
    + destruct Hsh as (_ & Hq & _). unfold q'. rewrite Hq. simpl. rewrite Ei. done.
    + cbn [a_with_def a_imm] in Hsh. destruct (a_imm (queues s)) as [|z imm]; destruct Hsh as (_ & Hq & _); unfold q'; rewrite Hq; simpl; rewrite ?Ei; done.
  - split; [|done]. intros _. destruct Hsh as (_ & Hq & _). unfold q'. rewrite Hq. simpl. done.
Qed.
Lemma def_run : forall ls s d r, Forall (on_time d) ls -> a_def (queues s) = d ++ r ->
  (steps ls <= length (a_irq (queues s)) + length d)%nat ->
  let q' := queues (fst (arun cf BT s ls)) in
  length (a_irq q') = (length (a_irq (queues s)) - steps ls)%nat /\
  exists r', a_def q' = drop (steps ls - length (a_irq (queues s))) d ++ r'.
Proof.
  induction ls as [|l ls IH]; intros s d r Ho Hd Hs.
  { cbn [arun fst]. unfold steps. simpl. split; [lia|]. eauto. }
  inversion Ho as [|? ? Hl Ho']; subst. rewrite steps_cons in *. cbn [arun].
  set (s1 := ao_state (astep cf BT s l)) in *.
  destruct (is_step l) eqn:El.
  - destruct l as [o| |]; try discriminate. destruct o; try discriminate.
    destruct (def_step s now d r Hl Hd) as [Ha Hb]. fold s1 in Ha, Hb.
    destruct (a_irq (queues s)) as [|x irq] eqn:Ei.
    + destruct d as [|e d]; [simpl in Hs; lia|]. destruct (Hb ltac:(done) ltac:(done)) as [E1 E2]. cbn [tail] in E2.
      assert (Ho2 : Forall (on_time d) ls).
      { eapply Forall_impl; [exact Ho'|]. intros l H. destruct l as [o| |]; try done. destruct o; try done; simpl in *; by inversion H. }
      destruct (IH s1 d r Ho2 E2 ltac:(simpl in *; lia)) as [I1 [r' I2]]. rewrite E1 in I1, I2.
      destruct (arun cf BT s1 ls) as [s2 es]. simpl fst in *. split; [simpl in *; lia|]. exists r'. rewrite I2. simpl. by rewrite Nat.sub_0_r.
    + destruct (Ha ltac:(done)) as [E1 E2]. cbn [tail] in E1.
      destruct (IH s1 d r Ho' E2 ltac:(rewrite E1; simpl in *; lia)) as [I1 [r' I2]]. rewrite E1 in I1, I2.
      destruct (arun cf BT s1 ls) as [s2 es]. simpl fst in *. split; [simpl in *; lia|]. exists r'. rewrite I2. done.
  - destruct (def_other s l d r Hl El Hd) as [E1 [r1 E2]]. fold s1 in E1, E2.
    destruct (IH s1 d r1 Ho' E2 ltac:(rewrite E1; simpl in *; lia)) as [I1 [r' I2]]. rewrite E1 in I1, I2.
    destruct (arun cf BT s1 ls) as [s2 es]. simpl fst in *. split; [simpl in *; lia|]. exists r'. rewrite I2. done.
Qed.
End latency.

(** The deferred task at position k of the execution order is run by exactly the
    ((interrupt tasks waiting) + k + 1)-th step from now, if it and those before it are due
    at these steps and nothing overtakes it meanwhile; immediate tasks never delay it. *)
Theorem C70_deferred_latency : forall cf tm ls k at_ t, config_ok cf ->
  let dc := by_time (precedes cf) in
  let q := queues (after cf dc tm ls) in
  a_def q !! k = Some (at_, t) -> t <> NULL ->
  forall ls' now, Forall (on_time cf (take (S k) (a_def q))) ls' -> on_time cf (take (S k) (a_def q)) (LOp (OStep now)) ->
  steps ls' = (length (a_irq q) + k)%nat ->
  exists ev, emits cf tm (ls ++ ls') (LOp (OStep now)) ev /\ runs (after cf dc tm (ls ++ ls')) t ev.
Proof.
  intros cf tm ls k at_ t Hcf dc q Hk Ht ls' now Ho Hnow Hst.
  assert (Hlen : length (take (S k) (a_def q)) = S k). { apply lookup_lt_Some in Hk. rewrite take_length. lia. }
  destruct (def_run cf ls' (after cf dc tm ls) (take (S k) (a_def q)) (drop (S k) (a_def q)) Ho) as [E1 [r' E2]].
  { by rewrite take_drop. }
  { rewrite Hlen. fold q. lia. }
  fold dc q in E1, E2. rewrite <- after_app in E1, E2. rewrite Hst in E1, E2.
  replace (length (a_irq q) + k - length (a_irq q))%nat with k in E2 by lia.
  assert (Ei : a_irq (queues (after cf dc tm (ls ++ ls'))) = []) by (apply nil_length_inv; rewrite E1; lia).
  rewrite (drop_S (take (S k) (a_def q)) (at_, t) k) in E2 by (rewrite lookup_take by lia; done).
  rewrite (drop_ge _ (S k)) in E2 by lia. simpl in E2.
  assert (Hp : precedes cf now at_ = false).
  { simpl in Hnow. rewrite Forall_lookup in Hnow. specialize (Hnow k (at_, t)). apply Hnow. rewrite lookup_take by lia. done. }
  eexists. split; [by apply emits_time|]. fold dc. set (s := after cf dc tm (ls ++ ls')) in *.
  pose proof (step_shape cf dc s now) as Hsh. unfold choose in Hsh. rewrite Ei in Hsh. unfold due in Hsh. cbn [dc by_time d_next] in Hsh.
  rewrite E2 in Hsh. rewrite Hp in Hsh. rewrite decide_True in Hsh by done. by destruct Hsh.
Qed.
Print Assumptions C70_deferred_latency.
Example C70_example : let q := queues (after ex_cf (by_time Z.ltb) ex_tm ex46) in
  a_def q !! 1%nat = Some (7, 21) /\
  let ls' := [LOp (OStep 8); LOp (ODefer 23 7); LReturn; LOp (OImmed 33); LOp (OStep 8); LReturn; LOp (OStep 8); LReturn] in
  Forall (on_time ex_cf (take 2 (a_def q))) ls' /\ on_time ex_cf (take 2 (a_def q)) (LOp (OStep 9)) /\ steps ls' = (length (a_irq q) + 1)%nat.
Proof. cbn zeta. split; [reflexivity|]. split; [vm_compute; repeat constructor|]. split; [vm_compute; repeat constructor|reflexivity]. Qed.
