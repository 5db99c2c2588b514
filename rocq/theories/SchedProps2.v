(** * mu_sched: properties C42, C45, C46, C59 (vocabulary: SchedProps.v) *)
From Verif Require Import CSem FifoSpec TaskModel SchedModel SchedSpec SchedProofs SchedOrder SchedProps.

(** ** What can be read off a history and its events alone *)
(** The task argument of a user function call *)
Definition call_task (c : ucall) : Z :=
  match c with UTask _ t | UCallHook _ t | UStateHook _ t _ | UTransferHook _ t => t end.
(** The API calls in progress, innermost first, each with the task its user function got:
    a call that enters user code is in progress until it returns. *)
Definition in_progress (st : list (op * Z)) (l : label) (ev : list event) : list (op * Z) :=
  match l, ev with
  | LOp o, [ECall c] => (o, call_task c) :: st
  | LReturn, [ERet _] => tail st
  | _, _ => st
  end.
(** The API call that returns at this point, with its result *)
Definition returned (st : list (op * Z)) (l : label) (ev : list event) : option (op * obs) :=
  match l, ev with
  | LOp o, [ERet r] => Some (o, r)
  | LReturn, [ERet r] => match st with (o, _) :: _ => Some (o, r) | [] => None end
  | _, _ => None
  end.
(** the API call asks for task [t] to be run *)
Definition schedules (t : Z) (o : op) : Prop :=
  match o with
  | OImmed x | OIsr x | OTransfer x => x = t
  | ODefer x _ | ODeferFor x _ _ => x = t
  | _ => False
  end.
#[global] Instance schedules_dec t o : Decision (schedules t o).
Proof. destruct o; simpl; apply _. Defined.

Definition accept1 (t : Z) (st : list (op * Z)) (l : label) (ev : list event) : nat :=
  match returned st l ev with
  | Some (o, RErr SCHED_NONE) => if decide (schedules t o) then 1 else 0
  | _ => 0
  end.
Definition run1 (t : Z) (l : label) (ev : list event) : nat :=
  match l, ev with
  | LOp (OStep _), [ECall c] => if decide (call_task c = t) then 1 else 0
  | _, _ => 0
  end.
Fixpoint accepts (t : Z) (st : list (op * Z)) (ls : list label) (evs : list (list event)) : nat :=
  match ls, evs with
  | l :: ls, ev :: evs => accept1 t st l ev + accepts t (in_progress st l ev) ls evs
  | _, _ => 0
  end.
Fixpoint runs_of (t : Z) (ls : list label) (evs : list (list event)) : nat :=
  match ls, evs with
  | l :: ls, ev :: evs => run1 t l ev + runs_of t ls evs
  | _, _ => 0
  end.
Fixpoint progress (st : list (op * Z)) (ls : list label) (evs : list (list event)) : list (op * Z) :=
  match ls, evs with
  | l :: ls, ev :: evs => progress (in_progress st l ev) ls evs
  | _, _ => st
  end.

Definition cnt (t : Z) (l : list Z) : nat := length (filter (fun x => x = t) l).
(** entries of [t] discarded by a label: by remove, reset, init *)
Definition drop1 (t : Z) (q : asched) (l : label) : nat :=
  match l with
  | LOp OReset | LOp OInit => cnt t (queued q)
  | LOp (ORemove x) => if decide (x = t) then cnt t (map snd (a_def q)) else 0
  | _ => 0
  end.
Fixpoint drops (cf : config) (t : Z) (s : astate) (ls : list label) : nat :=
  match ls with
  | [] => 0
  | l :: ls => drop1 t (queues s) l + drops cf t (ao_state (astep cf (by_time (precedes cf)) s l)) ls
  end.

(** ** The ledger of the specification *)
Definition tally (f : aout -> list Z) (cf : config) (dc : discipline) : astate -> list label -> list Z :=
  fix go s ls := match ls with [] => [] | l :: ls => let r := astep cf dc s l in f r ++ go (ao_state r) ls end.

Lemma perm_mid (a b c : list Z) x : a ++ b ++ x :: c ≡ₚ x :: a ++ b ++ c.
Proof. rewrite !app_assoc. symmetry. apply Permutation_middle. Qed.
Lemma ins_map_perm prec e d : map snd (ins prec e d) ≡ₚ snd e :: map snd d.
Proof. apply (Permutation_map snd (ins_perm prec e d)). Qed.
Lemma filter_split_perm (d : list (Z * Z)) t :
  map snd d ≡ₚ map snd (filter (fun e : Z * Z => snd e = t) d) ++ map snd (filter (fun e : Z * Z => snd e <> t) d).
Proof.
  induction d as [|e d IH]; [done|]. destruct (decide (snd e = t)) as [H|H].
  - rewrite (filter_cons_True (fun e : Z * Z => snd e = t)) by done. rewrite (filter_cons_False (fun e : Z * Z => snd e <> t)) by (by intros ?).
    simpl. by rewrite <- IH.
  - rewrite (filter_cons_False (fun e : Z * Z => snd e = t)) by done. rewrite (filter_cons_True (fun e : Z * Z => snd e <> t)) by done.
    simpl. rewrite IH. apply Permutation_middle.
Qed.

Section step.
Context (cf : config).
Notation BT := (by_time (precedes cf)).

Lemma choose_ledger now q :
  let '(t, gone, q') := choose cf BT now q in queued q ≡ₚ gone ++ queued q'.
Proof.
  unfold choose, queued. destruct (a_irq q) as [|x irq] eqn:E; [|simpl; done].
  unfold due. cbn [by_time d_next]. destruct (a_def q) as [|[at_ t] d] eqn:Ed.
  - rewrite decide_False by (by intros ?). destruct (a_imm q) as [|y imm] eqn:Em; cbn [a_with_imm a_irq a_imm a_def]; rewrite E, Ed, ?Em; done.
  - destruct (precedes cf now at_).
    + rewrite decide_False by (by intros ?). destruct (a_imm q) as [|y imm] eqn:Em; cbn [a_with_imm a_irq a_imm a_def]; rewrite E, Ed, ?Em; [done|].
      apply (perm_mid [] (map snd ((at_, t) :: d))).
    + destruct (decide _); [|cbn [a_with_def a_imm]; destruct (a_imm q) as [|y imm] eqn:Em]; cbn [a_with_imm a_with_def a_irq a_imm a_def]; rewrite ?E, ?Em; try done.
      simpl. constructor. apply (perm_mid [] (map snd d)).
Qed.
Lemma immed_ledger w stk t : ao_in (a_immed cf w stk t) ++ queued (w_sys w) ≡ₚ
  ao_out (a_immed cf w stk t) ++ ao_drop (a_immed cf w stk t) ++ queued (queues (ao_state (a_immed cf w stk t))).
Proof.
  unfold a_immed. destruct (decide _); [|done]. unfold queues, queued. simpl.
  rewrite !app_assoc. apply Permutation_cons_append.
Qed.
Lemma defer_ledger w stk t at_ : ao_in (a_defer cf BT w stk t at_) ++ queued (w_sys w) ≡ₚ
  ao_out (a_defer cf BT w stk t at_) ++ ao_drop (a_defer cf BT w stk t at_) ++ queued (queues (ao_state (a_defer cf BT w stk t at_))).
Proof.
  unfold a_defer. destruct (decide _); [|done]. unfold queues, queued. simpl.
  rewrite (ins_map_perm (precedes cf) (at_, t)). simpl. apply Permutation_middle.
Qed.
Lemma step_ledger s l : let r := astep cf BT s l in
  ao_in r ++ queued (queues s) ≡ₚ ao_out r ++ ao_drop r ++ queued (queues (ao_state r)).
Proof.
  destruct s as [w stk]. unfold queues at 1. cbn [as_w].
  destruct l as [o| |m]; cbn [astep as_w as_stack].
  - destruct o; cbn [aop]; try done; try apply immed_ledger; try apply defer_ledger.
    + unfold queues, queued. simpl. by rewrite !app_nil_r.
    + unfold queues, queued. simpl. by rewrite !app_nil_r.
    + pose proof (choose_ledger now (w_sys w)) as H. destruct (choose _ _ _ _) as [[t g] q']. by destruct (decide _).
    + destruct (decide _); [apply immed_ledger|done].
    + destruct (decide _); [|done]. unfold queues, queued. simpl. rewrite <- !app_assoc. simpl. apply Permutation_middle.
    + unfold queues, queued. simpl. rewrite (filter_split_perm (a_def (w_sys w)) t) at 1.
      rewrite <- !app_assoc. rewrite !(Permutation_app_comm (map snd (filter (fun e : Z * Z => snd e = t) (a_def (w_sys w))))).
      rewrite <- !app_assoc. apply Permutation_app_head.
      rewrite Permutation_app_comm, <- app_assoc. done.
    + by destruct (decide _).
    + by repeat destruct (decide _).
  - destruct stk as [|f stk]; [done|]. destruct f; cbn [areturn]; try done. apply immed_ledger.
  - done.
Qed.
End step.

(** ** C42 *)
(** Every task, NULL included, every history: what was accepted is what was taken to be
    run, dropped, or is still queued.  (In and out as the specification records them.) *)
Theorem C42_ledger : forall cf tm ls, config_ok cf ->
  let s0 := astate0 tm in let dc := by_time (precedes cf) in
  (exists m, mrun cf (machine0 cf tm) ls = Ok (m, snd (arun cf dc s0 ls)) /\ behaves_as cf m (after cf dc tm ls)) /\
  tally ao_in cf dc s0 ls ≡ₚ tally ao_out cf dc s0 ls ++ tally ao_drop cf dc s0 ls ++ queued (queues (after cf dc tm ls)).
Proof.
  intros cf tm ls Hcf s0 dc. split.
  - destruct (run_ok cf tm Hcf ls) as (m & E & Hm). exists m. split; [done|]. by apply mrep_behaves.
  - assert (G : forall s, tally ao_in cf dc s ls ++ queued (queues s) ≡ₚ tally ao_out cf dc s ls ++ tally ao_drop cf dc s ls ++ queued (queues (fst (arun cf dc s ls)))).
    { induction ls as [|l ls IH]; intros s; [done|]. cbn [tally arun]. specialize (IH (ao_state (astep cf dc s l))).
      destruct (arun cf dc (ao_state (astep cf dc s l)) ls) as [s' es]. simpl fst in *.
      pose proof (step_ledger cf s l) as H. cbn zeta in H. fold dc in H. set (r := astep cf dc s l) in *.
      fold (tally ao_in cf dc) (tally ao_out cf dc) (tally ao_drop cf dc).
      rewrite (Permutation_app_comm (ao_in r)), <- app_assoc, H.
      rewrite (app_assoc (ao_out r)), (Permutation_app_comm (tally ao_in _ _ _ _)), <- !app_assoc.
      apply Permutation_app_head. rewrite (Permutation_app_comm (queued _)), IH.
      rewrite app_assoc, (Permutation_app_comm (ao_drop r)), <- !app_assoc. done. }
    specialize (G s0). unfold queued at 1 in G. simpl in G. by rewrite app_nil_r in G.
Qed.
Print Assumptions C42_ledger.

Lemma cnt_app t l1 l2 : cnt t (l1 ++ l2) = (cnt t l1 + cnt t l2)%nat.
Proof. unfold cnt. by rewrite filter_app, app_length. Qed.
Lemma cnt_perm t l1 l2 : l1 ≡ₚ l2 -> cnt t l1 = cnt t l2.
Proof. intros H. unfold cnt. apply Permutation_length. by rewrite H. Qed.
Lemma cnt_cons t x l : cnt t (x :: l) = ((if decide (x = t) then 1 else 0) + cnt t l)%nat.
Proof. unfold cnt. destruct (decide (x = t)); [rewrite filter_cons_True by done|rewrite filter_cons_False by done]; done. Qed.
Lemma cnt_one t x : cnt t [x] = if decide (x = t) then 1%nat else 0%nat.
Proof. rewrite cnt_cons. destruct (decide _); done. Qed.

(** API calls in progress and the stack of the specification *)
Definition frame_op (e : op * Z) (f : frame) : Prop :=
  match f with
  | FStepHook t | FStepFn t => (exists now, fst e = OStep now) /\ snd e = t
  | FCallHook t | FCallFn t => fst e = OCall t
  | FState t s => fst e = OSetState t s
  | FTransfer t => fst e = OTransfer t
  end.

Section obs.
Context (cf : config).
Notation BT := (by_time (precedes cf)).

Lemma progress_ok st s l : Forall2 frame_op st (as_stack s) ->
  Forall2 frame_op (in_progress st l (ao_evs (astep cf BT s l))) (as_stack (ao_state (astep cf BT s l))).
Proof.
  intros H. destruct s as [w stk]. cbn [as_stack] in H.
  assert (Him : forall stk t, exists r, ao_evs (a_immed cf w stk t) = [ERet r] /\ as_stack (ao_state (a_immed cf w stk t)) = stk).
  { intros stk' t. unfold a_immed. destruct (decide _); eauto. }
  destruct l as [o| |m]; cbn [astep as_w as_stack].
  - destruct o; cbn [aop]; try done.
    + destruct (choose _ _ _ _) as [[t g] q']. destruct (decide _); [done|]. unfold enter.
      destruct (decide _); constructor; simpl; eauto.
    + destruct (decide _); [|by constructor]. destruct (Him stk t) as (r & E1 & E2). rewrite E1, E2. done.
    + destruct (Him stk t) as (r & E1 & E2). rewrite E1, E2. done.
    + by destruct (decide _).
    + unfold a_defer. by destruct (decide _).
    + unfold a_defer. by destruct (decide _).
    + destruct (decide _); [done|]. unfold enter. destruct (decide _); by constructor.
    + destruct (decide _); [done|]. destruct (decide _); [done|]. by constructor.
  - inversion H as [|e f st' stk' He Hr]; subst; [done|]. destruct f; cbn [areturn in_progress call ret ao_evs ao_state as_stack fst snd tail]; try done; try by constructor.
    destruct (Him stk' t) as (r & E1 & E2). rewrite E1, E2. done.
  - done.
Qed.

Lemma accept_ok t st s l : Forall2 frame_op st (as_stack s) ->
  accept1 t st l (ao_evs (astep cf BT s l)) = cnt t (ao_in (astep cf BT s l)).
Proof.
  intros H. destruct s as [w stk]. cbn [as_stack] in H.
  destruct l as [o| |m]; cbn [astep as_w as_stack].
  - destruct o; cbn [aop]; try done.
    + destruct (choose _ _ _ _) as [[t' g] q']. unfold enter. destruct (decide _); [done|]. by destruct (decide _).
    + destruct (decide _); [|done]. unfold a_immed. destruct (decide _); [|done]. unfold accept1. simpl. rewrite cnt_one. done.
    + unfold a_immed. destruct (decide _); [|done]. unfold accept1. simpl. by rewrite cnt_one.
    + destruct (decide _); [|done]. unfold accept1. simpl. by rewrite cnt_one.
    + unfold a_defer. destruct (decide _); [|done]. unfold accept1. simpl. by rewrite cnt_one.
    + unfold a_defer. destruct (decide _); [|done]. unfold accept1. simpl. by rewrite cnt_one.
    + unfold accept1. simpl. by destruct (decide (filter _ _ = [])).
    + unfold enter. destruct (decide _); [done|]. by destruct (decide _).
    + destruct (decide _); [done|]. by destruct (decide _).
  - inversion H as [|[o x] f st' stk' He Hr]; subst; [done|]. destruct f; cbn [areturn]; try done.
    simpl in He. subst o. unfold a_immed. destruct (decide _); [|done]. unfold accept1. simpl. by rewrite cnt_one.
  - done.
Qed.

Lemma drop_ok t s l : drop1 t (queues s) l = cnt t (ao_drop (astep cf BT s l)).
Proof.
  destruct s as [w stk]. unfold queues. cbn [as_w].
  assert (Him : forall stk t, ao_drop (a_immed cf w stk t) = []).
  { intros stk' t'. unfold a_immed. by destruct (decide _). }
  destruct l as [o| |m]; cbn [astep as_w as_stack drop1]; [|destruct stk as [|f stk]; [done|destruct f; cbn [areturn]; try done; by rewrite Him]|done].
  destruct o; cbn [aop]; try done; try (by rewrite Him).
  - destruct (choose _ _ _ _) as [[t' g] q']. by destruct (decide _).
  - destruct (decide _); [by rewrite Him|done].
  - by destruct (decide _).
  - unfold a_defer. by destruct (decide _).
  - unfold a_defer. by destruct (decide _).
  - unfold with_out. cbn [ao_drop]. rename t0 into x. generalize (a_def (w_sys w)). intros d.
    induction d as [|e d IH]; [by destruct (decide _)|]. cbn [map]. rewrite cnt_cons.
    destruct (decide (snd e = x)) as [He|He].
    + rewrite (filter_cons_True (fun e : Z * Z => snd e = x)) by done. cbn [map]. rewrite cnt_cons, <- IH.
      destruct (decide (x = t)); [done|]. destruct (decide (snd e = t)); [congruence|done].
    + rewrite (filter_cons_False (fun e : Z * Z => snd e = x)) by done. rewrite <- IH.
      destruct (decide (x = t)); [|done]. destruct (decide (snd e = t)); [congruence|done].
  - by destruct (decide _).
  - by repeat destruct (decide _).
Qed.

Lemma choose_out t now q : t <> NULL -> a_idle q <> t ->
  let '(x, gone, _) := choose cf BT now q in cnt t gone = if decide (x = t) then 1%nat else 0%nat.
Proof.
  intros Ht Hi. unfold choose. destruct (a_irq q) as [|x irq]; [|apply cnt_one].
  assert (Hn : cnt t [NULL] = 0%nat) by (rewrite cnt_one; by rewrite decide_False by congruence).
  destruct (due cf BT now (a_def q)) as [[y rest]|].
  - destruct (decide (y <> NULL)) as [Hy|Hy]; [apply cnt_one|].
    assert (y = NULL) as -> by (destruct (decide (y = NULL)); [done|by exfalso]).
    cbn [a_with_def a_imm a_idle]. destruct (a_imm q) as [|z imm].
    + rewrite Hn, decide_False; done.
    + rewrite cnt_app, Hn. apply cnt_one.
  - rewrite decide_False by (by intros ?). destruct (a_imm q) as [|z imm]; [|apply cnt_one].
    rewrite decide_False; done.
Qed.
Lemma run_ok' t s l : t <> NULL -> a_idle (queues s) <> t ->
  run1 t l (ao_evs (astep cf BT s l)) = cnt t (ao_out (astep cf BT s l)).
Proof.
  intros Ht Hi. destruct s as [w stk]. unfold queues in Hi. cbn [as_w] in Hi.
  assert (Him : forall stk t, ao_out (a_immed cf w stk t) = []).
  { intros stk' t'. unfold a_immed. by destruct (decide _). }
  destruct l as [o| |m]; cbn [astep as_w as_stack run1]; [|destruct stk as [|f stk]; [done|destruct f; cbn [areturn]; try done; by rewrite Him]|done].
  destruct o; cbn [aop]; try done; try (by rewrite Him).
  - pose proof (choose_out t now (w_sys w) Ht Hi) as H. destruct (choose _ _ _ _) as [[x g] q'].
    destruct (decide (x = NULL)) as [->|Hx].
    + unfold with_out, ret. cbn [ao_evs ao_out]. rewrite H. by rewrite decide_False.
    + unfold enter. destruct (decide (w_call_hook w = NULL)); unfold with_out, call; cbn [ao_evs ao_out snd call_task]; by rewrite H.
  - destruct (decide _); [by rewrite Him|done].
  - by destruct (decide _).
  - unfold a_defer. by destruct (decide _).
  - unfold a_defer. by destruct (decide _).
  - by destruct (decide _).
  - by repeat destruct (decide _).
Qed.
Lemma choose_idle now q : a_idle (snd (choose cf BT now q)) = a_idle q.
Proof.
  unfold choose. destruct (a_irq q); [|done]. destruct (due _ _ _ _) as [[y rest]|].
  - destruct (decide _); [done|]. cbn [a_with_def a_imm]. by destruct (a_imm q).
  - rewrite decide_False by (by intros ?). by destruct (a_imm q).
Qed.
Lemma idle_step t s l : l <> LOp (OSetIdle t) -> t <> NULL -> a_idle (queues s) <> t ->
  a_idle (queues (ao_state (astep cf BT s l))) <> t.
Proof.
  intros Hl Ht Hi. destruct s as [w stk]. unfold queues in *. cbn [as_w] in Hi.
  assert (Him : forall stk t, a_idle (w_sys (as_w (ao_state (a_immed cf w stk t)))) = a_idle (w_sys w)).
  { intros stk' t'. unfold a_immed. by destruct (decide _). }
  destruct l as [o| |m]; cbn [astep as_w as_stack]; [|destruct stk as [|f stk]; [done|destruct f; cbn [areturn]; try done; by rewrite Him]|done].
  destruct o; cbn [aop]; try done; try (by rewrite Him).
  - pose proof (choose_idle now (w_sys w)) as H. destruct (choose _ _ _ _) as [[x g] q']. simpl in H.
    destruct (decide _); simpl; congruence.
  - simpl. congruence.
  - destruct (decide _); [by rewrite Him|done].
  - by destruct (decide _).
  - unfold a_defer. by destruct (decide _).
  - unfold a_defer. by destruct (decide _).
  - by destruct (decide _).
  - by repeat destruct (decide _).
Qed.

Lemma count_ok t : t <> NULL -> forall ls st s, Forall2 frame_op st (as_stack s) -> a_idle (queues s) <> t ->
  Forall (fun l => l <> LOp (OSetIdle t)) ls ->
  (accepts t st ls (snd (arun cf BT s ls)) + cnt t (queued (queues s)) =
   runs_of t ls (snd (arun cf BT s ls)) + drops cf t s ls + cnt t (queued (queues (fst (arun cf BT s ls)))))%nat.
Proof.
  intros Ht. induction ls as [|l ls IH]; intros st s Hst Hi Hls; [done|]. inversion Hls; subst.
  cbn [arun drops]. specialize (IH (in_progress st l (ao_evs (astep cf BT s l))) (ao_state (astep cf BT s l))
    (progress_ok st s l Hst) ltac:(by apply idle_step) ltac:(done)).
  destruct (arun cf BT (ao_state (astep cf BT s l)) ls) as [s' es]. cbn [fst snd accepts runs_of] in *.
  rewrite (accept_ok t st s l Hst), (run_ok' t s l Ht Hi), (drop_ok t s l).
  pose proof (step_ledger cf s l) as H'. cbn zeta in H'. apply (cnt_perm t) in H'. rewrite !cnt_app in H'. lia.
Qed.
End obs.

(** For every task, counting observable events: the scheduling calls for it that returned
    NONE, the steps that ran it, and the entries removed or discarded. *)
Theorem C42_exactly_once : forall cf tm ls t, config_ok cf -> t <> NULL ->
  Forall (fun l => l <> LOp (OSetIdle t)) ls ->
  exists m evs, mrun cf (machine0 cf tm) ls = Ok (m, evs) /\
    accepts t [] ls evs =
      (runs_of t ls evs + drops cf t (astate0 tm) ls +
       cnt t (queued (queues (after cf (by_time (precedes cf)) tm ls))))%nat.
Proof.
  intros cf tm ls t Hcf Ht Hls. destruct (run_ok cf tm Hcf ls) as (m & E & _). eexists _, _. split; [exact E|].
  pose proof (count_ok cf t Ht ls [] (astate0 tm) ltac:(constructor) ltac:(done) Hls) as H.
  unfold after.
  assert (H0 : cnt t (queued (queues (astate0 tm))) = 0%nat) by done. lia.
Qed.
Print Assumptions C42_exactly_once.

(** task 1 reschedules itself while running, is deferred twice and removed *)
Definition ex42 : list label :=
  [LOp (OImmed 1); LOp (OStep 0); LOp (OImmed 1); LOp (ODefer 1 50); LReturn; LOp (ODefer 1 60); LOp (OIsr 1);
   LOp (OStep 0); LReturn; LOp (ORemove 1)].
Example C42_example : match mrun ex_cf (machine0 ex_cf ex_tm) ex42 with
  | Ok (_, evs) => (accepts 1 [] ex42 evs, runs_of 1 ex42 evs, drops ex_cf 1 (astate0 ex_tm) ex42,
      queued (queues (after ex_cf (by_time Z.ltb) ex_tm ex42))) = (5%nat, 2%nat, 2%nat, [1])
  | _ => False end.
Proof. vm_compute. reflexivity. Qed.
Example C42_example_hyp : Forall (fun l => l <> LOp (OSetIdle 1)) ex42.
Proof. repeat constructor; discriminate. Qed.

(** ** C45 *)
(** The task that the innermost mu_sched_step in progress is running *)
Fixpoint running (st : list (op * Z)) : Z :=
  match st with
  | [] => NULL
  | (OStep _, t) :: _ => t
  | _ :: st => running st
  end.
Definition in_step (st : list (op * Z)) : Prop := exists now t, In (OStep now, t) st.
(** no step, reset or init while a step is in progress *)
Definition not_nested (ls : list label) (evs : list (list event)) : Prop :=
  forall i o, ls !! i = Some (LOp o) ->
    (exists now, o = OStep now) \/ o = OReset \/ o = OInit ->
    ~ in_step (progress [] (take i ls) (take i evs)).

Lemma progress_app : forall l1 st e1 l2 e2, length l1 = length e1 ->
  progress st (l1 ++ l2) (e1 ++ e2) = progress (progress st l1 e1) l2 e2.
Proof. induction l1 as [|l l1 IH]; intros st [|e e1] l2 e2 H; simpl in *; try done. apply IH. lia. Qed.

Lemma progress_run cf : forall ls st s, Forall2 frame_op st (as_stack s) ->
  Forall2 frame_op (progress st ls (snd (arun cf (by_time (precedes cf)) s ls))) (as_stack (fst (arun cf (by_time (precedes cf)) s ls))).
Proof.
  induction ls as [|l ls IH]; intros st s H; [done|]. cbn [arun].
  specialize (IH _ _ (progress_ok cf st s l H)).
  destruct (arun cf _ (ao_state _) ls) as [s' es]. exact IH.
Qed.
Lemma running_none st : ~ in_step st -> running st = NULL.
Proof.
  induction st as [|[o t] st IH]; intros H; [done|].
  assert (Hr : running st = NULL) by (apply IH; intros (now & t' & Hin); apply H; exists now, t'; by right).
  destruct o; try done. exfalso. apply H. exists now, t. by left.
Qed.

(** at most one step in progress *)
Definition single (st : list (op * Z)) : Prop :=
  forall a now t b, st = a ++ (OStep now, t) :: b -> ~ in_step b.
Lemma single_cons o x st : (forall now, o <> OStep now) -> single st -> single ((o, x) :: st).
Proof.
  intros Ho H a now t b E. destruct a as [|y a]; simpl in E; injection E as E1 E2.
  - exfalso. by apply (Ho now).
  - by apply (H a now t b).
Qed.
Lemma single_tail e st : single (e :: st) -> single st.
Proof. intros H a now t b ->. by apply (H (e :: a) now t b). Qed.
Lemma single_step now x st : ~ in_step st -> single ((OStep now, x) :: st).
Proof.
  intros H a now' t b E. destruct a as [|y a]; simpl in E; injection E as E1 E2; [by subst|].
  exfalso. apply H. exists now', t. subst. apply in_app_iff. right. by left.
Qed.
Lemma single_none st : ~ in_step st -> single st.
Proof. intros H a now t b ->. exfalso. apply H. exists now, t. apply in_app_iff. right. by left. Qed.

Theorem C45_current_task_partial : forall cf tm ls, config_ok cf ->
  exists m evs, mrun cf (machine0 cf tm) ls = Ok (m, evs) /\
    (not_nested ls evs ->
     let st := progress [] ls evs in
     emits cf tm ls (LOp OCurrent) [ERet (RTask (running st))] /\
     (~ in_step st -> running st = NULL)).
Proof.
  intros cf tm ls Hcf. destruct (run_ok cf tm Hcf ls) as (m & E & _). eexists _, _. split; [exact E|].
  intros Hnn st. split; [|apply running_none].
  pose proof (emits_time cf tm Hcf ls (LOp OCurrent)) as He. cbn [astep aop ret ao_evs] in He.
  fold (queues (after cf (by_time (precedes cf)) tm ls)) in He.
  replace (running st) with (a_curr (queues (after cf (by_time (precedes cf)) tm ls))); [done|].
  subst st. clear E He m. set (dc := by_time (precedes cf)) in *. unfold after.
  assert (G : a_curr (queues (fst (arun cf dc (astate0 tm) ls))) = running (progress [] ls (snd (arun cf dc (astate0 tm) ls))) /\
     single (progress [] ls (snd (arun cf dc (astate0 tm) ls)))); [|by destruct G].
  revert Hnn. induction ls as [|l ls IH] using rev_ind; intros Hnn.
  { split; [done|]. apply single_none. intros (? & ? & []). }
  rewrite arun_snoc in *. cbn [fst snd] in *.
  set (s := fst (arun cf dc (astate0 tm) ls)) in *. set (es := snd (arun cf dc (astate0 tm) ls)) in *.
  assert (Hlen : length ls = length es) by (subst es; by rewrite arun_length).
  assert (IH' : a_curr (queues s) = running (progress [] ls es) /\ single (progress [] ls es)).
  { apply IH. intros i o Hi Ho. pose proof (lookup_lt_Some _ _ _ Hi) as Hlt.
    assert (Hi' : (ls ++ [l]) !! i = Some (LOp o)) by (rewrite lookup_app_l; [done|lia]).
    specialize (Hnn i o Hi' Ho). rewrite !take_app_le in Hnn by lia. done. }
  rewrite progress_app by done. cbn [progress].
  assert (Hlast : forall o, l = LOp o -> (exists now, o = OStep now) \/ o = OReset \/ o = OInit ->
     ~ in_step (progress [] ls es)).
  { intros o -> Ho. assert (Hi' : (ls ++ [LOp o]) !! length ls = Some (LOp o)) by (by apply list_lookup_middle).
    specialize (Hnn _ _ Hi' Ho). rewrite take_app in Hnn. rewrite Hlen in Hnn. by rewrite take_app in Hnn. }
  assert (Hst : Forall2 frame_op (progress [] ls es) (as_stack s)) by (apply progress_run; constructor).
  set (st := progress [] ls es) in *. clearbody s es st. clear IH Hnn Hlen. destruct IH' as [IH' Hsg].
  destruct s as [w stk]. unfold queues in *. cbn [as_w as_stack] in *.
  assert (Him : forall stk t, a_curr (w_sys (as_w (ao_state (a_immed cf w stk t)))) = a_curr (w_sys w) /\
            exists r, ao_evs (a_immed cf w stk t) = [ERet r]).
  { intros stk' t'. unfold a_immed. destruct (decide _); eauto. }
  destruct l as [o| |m]; cbn [astep as_w as_stack].
  - destruct o; cbn [aop]; try done.
    + specialize (Hlast _ eq_refl ltac:(auto)). cbn [in_progress]. simpl. split; [|done]. symmetry. by apply running_none.
    + specialize (Hlast _ eq_refl ltac:(auto)). cbn [in_progress]. simpl. split; [|done]. symmetry. by apply running_none.
    + specialize (Hlast _ eq_refl ltac:(eauto)). destruct (choose _ _ _ _) as [[x g] q'].
      destruct (decide _) as [->|Hx].
      * simpl. split; [|done]. symmetry. by apply running_none.
      * unfold enter. destruct (decide _); (split; [done|]); by apply single_step.
    + destruct (decide _); [|split; [done|]; by apply single_cons]. destruct (Him stk t) as (-> & r & ->). done.
    + destruct (Him stk t) as (-> & r & ->). done.
    + by destruct (decide _).
    + unfold a_defer. by destruct (decide _).
    + unfold a_defer. by destruct (decide _).
    + destruct (decide _); [done|]. unfold enter. destruct (decide _); (split; [done|]); by apply single_cons.
    + destruct (decide _); [done|]. destruct (decide _); [done|]. split; [done|]. by apply single_cons.
  - (* return *)
    inversion Hst as [|[o x] f st' stk' He Hr]; subst; [done|].
    pose proof (single_tail _ _ Hsg) as Hsg'. destruct f; cbn [areturn]; try done; simpl in He.
    + destruct He as [[now ->] ->]. split; [|done]. simpl. symmetry. apply running_none. by apply (Hsg [] now t).
    + subst o. done.
    + subst o. done.
    + subst o. cbn [running] in IH'. destruct (Him stk' t) as (-> & r & ->). done.
  - done.
Qed.
Print Assumptions C45_current_task_partial.

(** a task (1) makes an API call, a direct task call (2) is in progress: the current task is 1 *)
Definition ex45 : list label := [LOp (OImmed 1); LOp (OStep 0); LOp (OImmed 3); LOp (OCall 2)].
Example C45_example : match mrun ex_cf (machine0 ex_cf ex_tm) ex45 with
  | Ok (_, evs) => not_nested ex45 evs /\ running (progress [] ex45 evs) = 1 /\ emits ex_cf ex_tm ex45 (LOp OCurrent) [ERet (RTask 1)]
  | _ => False end.
Proof.
  vm_compute mrun. cbn iota. split; [|split; [reflexivity|]].
  - intros i o Hi Ho. destruct i as [|[|[|[|i]]]]; simpl in Hi; try discriminate Hi; injection Hi as <-;
      destruct Ho as [[now Ho]|[Ho|Ho]]; try discriminate Ho. intros (? & ? & []).
  - eexists _, [_; _; _; _]. vm_compute. split; reflexivity.
Qed.

(** If the running task itself calls mu_sched_step, the claim is false afterwards: the
    nested step clears the current task although the outer task is still running. *)
Theorem C45_nested_step_refuted : exists cf tm ls m evs, config_ok cf /\
  mrun cf (machine0 cf tm) ls = Ok (m, evs) /\
  running (progress [] ls evs) <> NULL /\ emits cf tm ls (LOp OCurrent) [ERet (RTask NULL)].
Proof.
  exists ex_cf, ex_tm, [LOp (OImmed 1); LOp (OStep 0); LOp (OStep 0)].
  eexists _, _. split; [apply ex_cf_ok|]. split; [vm_compute; reflexivity|]. split; [vm_compute; discriminate|].
  eexists _, [_; _; _]. vm_compute. split; reflexivity.
Qed.
Print Assumptions C45_nested_step_refuted.
