(** * mu_sched: properties C46, C59 (vocabulary: SchedProps.v) *)
From Verif Require Import CSem FifoSpec TaskModel SchedModel SchedSpec SchedProofs SchedOrder SchedProps.

Definition is_step (l : label) : bool := match l with LOp (OStep _) => true | _ => false end.
(** the number of mu_sched_step calls in a history *)
Definition steps (ls : list label) : nat := length (filter (fun l => is_step l = true) ls).

Lemma steps_cons l ls : steps (l :: ls) = ((if is_step l then 1 else 0) + steps ls)%nat.
Proof.
  unfold steps. destruct (is_step l) eqn:E; [rewrite filter_cons_True by done|rewrite filter_cons_False by congruence]; done.
Qed.

Section step.
Context (cf : config).
Notation BT := (by_time (precedes cf)).

(** *** interrupt queue *)
Definition not_reset (l : label) : Prop := l <> LOp OReset /\ l <> LOp OInit.

Lemma choose_irq now q : a_irq (snd (choose cf BT now q)) = tail (a_irq q) /\
  forall t r, a_irq q = t :: r -> fst (fst (choose cf BT now q)) = t.
Proof.
  unfold choose. destruct (a_irq q) as [|x irq] eqn:E; [|split; [done|]; by intros ? ? [= -> ->]].
  split; [|done]. destruct (due _ _ _ _) as [[y rest]|].
  - destruct (decide _); [done|]. cbn [a_with_def a_imm]. by destruct (a_imm q).
  - rewrite decide_False by (by intros ?). by destruct (a_imm q).
Qed.
Lemma irq_step s l : not_reset l ->
  exists more, a_irq (queues (ao_state (astep cf BT s l))) =
    (if is_step l then tail (a_irq (queues s)) else a_irq (queues s)) ++ more.
Proof.
  intros [H1 H2]. destruct s as [w stk]. unfold queues. cbn [as_w].
  assert (Him : forall stk t, a_irq (w_sys (as_w (ao_state (a_immed cf w stk t)))) = a_irq (w_sys w)).
  { intros stk' t'. unfold a_immed. by destruct (decide _). }
  assert (Hdf : forall t at_, a_irq (w_sys (as_w (ao_state (a_defer cf BT w stk t at_)))) = a_irq (w_sys w)).
  { intros t' at_. unfold a_defer. by destruct (decide _). }
  assert (H0 : exists more, a_irq (w_sys w) = a_irq (w_sys w) ++ more) by (exists []; by rewrite app_nil_r).
  destruct l as [o| |m]; cbn [astep as_w as_stack is_step]; [|destruct stk as [|f stk]; [done|destruct f; cbn [areturn]; try done; by rewrite Him]|done].
  destruct o; cbn [aop is_step]; try done; try (by rewrite Him); try (by rewrite Hdf).
  - exists []. rewrite app_nil_r. pose proof (choose_irq now (w_sys w)) as [H _]. destruct (choose _ _ _ _) as [[x g] q']. simpl in H.
    rewrite <- H. by destruct (decide _).
  - destruct (decide _); [by rewrite Him|done].
  - destruct (decide _); [|done]. eexists. done.
  - by destruct (decide _).
  - by repeat destruct (decide _).
Qed.
Lemma irq_run : forall ls s k t, Forall not_reset ls -> (steps ls <= k)%nat -> a_irq (queues s) !! k = Some t ->
  a_irq (queues (fst (arun cf BT s ls))) !! (k - steps ls)%nat = Some t.
Proof.
  induction ls as [|l ls IH]; intros s k t Hr Hk Hl; [by rewrite Nat.sub_0_r|]. inversion Hr; subst. rewrite steps_cons in *.
  destruct (irq_step s l ltac:(done)) as (more & E). cbn [arun].
  destruct (is_step l).
  - destruct k as [|k]; [lia|]. destruct (a_irq (queues s)) as [|x irq] eqn:Ei; [done|]. simpl in Hl, E.
    specialize (IH (ao_state (astep cf BT s l)) k t ltac:(done) ltac:(lia)).
    rewrite E, lookup_app_l in IH by (by eapply lookup_lt_Some). specialize (IH Hl).
    destruct (arun _ _ _ ls). simpl in *. done.
  - specialize (IH (ao_state (astep cf BT s l)) k t ltac:(done) ltac:(lia)).
    rewrite E, lookup_app_l in IH by (by eapply lookup_lt_Some). specialize (IH Hl).
    destruct (arun _ _ _ ls). simpl in *. done.
Qed.

(** *** immediate queue *)
(** no interrupt or deferred task is scheduled, nothing is reset *)
Definition no_preempt (l : label) : Prop :=
  match l with LOp (OInit | OReset | OIsr _ | ODefer _ _ | ODeferFor _ _ _) => False | _ => True end.
Definition ahead (q : asched) : nat := (length (a_irq q) + length (a_def q))%nat.

Lemma choose_imm now q k t : a_imm q !! k = Some t ->
  let '(x, gone, q') := choose cf BT now q in
  (a_imm q' = a_imm q /\ ahead q = S (ahead q')) \/
  (a_imm q' = tail (a_imm q) /\ (ahead q' <= ahead q)%nat /\ (forall r, a_imm q = t :: r -> x = t)).
Proof.
  intros Hk. unfold choose, ahead. destruct (a_irq q) as [|x irq] eqn:E.
  2:{ left. cbn [a_with_irq a_imm a_irq a_def]. split; [done|]. simpl. lia. }
  unfold due. cbn [by_time d_next]. destruct (a_def q) as [|[at_ y] d] eqn:Ed.
  - rewrite decide_False by (by intros ?). destruct (a_imm q) as [|z imm] eqn:Em; [done|]. right.
    cbn [a_with_imm a_imm a_irq a_def tail]. rewrite E, Ed. split; [done|]. split; [done|]. by intros r [= ->].
  - destruct (precedes cf now at_).
    + rewrite decide_False by (by intros ?). destruct (a_imm q) as [|z imm] eqn:Em; [done|]. right.
      cbn [a_with_imm a_imm a_irq a_def tail]. rewrite E, Ed. split; [done|]. split; [done|]. by intros r [= ->].
    + destruct (decide (y <> NULL)).
      * left. cbn [a_with_def a_imm a_irq a_def]. rewrite E. done.
      * cbn [a_with_def a_imm]. destruct (a_imm q) as [|z imm] eqn:Em; [done|]. right.
        cbn [a_with_def a_with_imm a_imm a_irq a_def tail]. rewrite E. split; [done|]. split; [simpl; lia|]. by intros r [= ->].
Qed.
Lemma imm_other s l : no_preempt l -> is_step l = false ->
  exists more, a_imm (queues (ao_state (astep cf BT s l))) = a_imm (queues s) ++ more /\
    (ahead (queues (ao_state (astep cf BT s l))) <= ahead (queues s))%nat.
Proof.
  intros H1 H2. destruct s as [w stk]. unfold queues. cbn [as_w].
  assert (H0 : exists more, a_imm (w_sys w) = a_imm (w_sys w) ++ more /\ (ahead (w_sys w) <= ahead (w_sys w))%nat) by (exists []; by rewrite app_nil_r).
  assert (Him : forall stk t, exists more, a_imm (w_sys (as_w (ao_state (a_immed cf w stk t)))) = a_imm (w_sys w) ++ more /\
     (ahead (w_sys (as_w (ao_state (a_immed cf w stk t)))) <= ahead (w_sys w))%nat).
  { intros stk' t'. unfold a_immed. destruct (decide _); [|done]. simpl. exists [t']. done. }
  destruct l as [o| |m]; cbn [astep as_w as_stack is_step]; [|destruct stk as [|f stk]; [done|destruct f; cbn [areturn]; try done; apply Him]|done].
  destruct o; cbn [aop is_step]; try done; try apply Him.
  - destruct (decide _); [apply Him|done].
  - simpl. exists []. rewrite app_nil_r. split; [done|]. unfold ahead. simpl.
    pose proof (filter_length (fun e : Z * Z => snd e <> t) (a_def (w_sys w))). lia.
  - by destruct (decide _).
  - by repeat destruct (decide _).
Qed.
Lemma imm_run : forall ls s k t, Forall no_preempt ls -> a_imm (queues s) !! k = Some t ->
  (ahead (queues s) + k + 1 <= steps ls)%nat ->
  exists lsA now lsB, ls = lsA ++ LOp (OStep now) :: lsB /\ (steps lsA <= ahead (queues s) + k)%nat /\
    let s' := fst (arun cf BT s lsA) in
    exists rest, a_imm (queues s') = t :: rest /\ fst (fst (choose cf BT now (queues s'))) = t /\
      a_imm (queues (ao_state (astep cf BT s' (LOp (OStep now))))) = rest.
Proof.
  induction ls as [|l ls IH]; intros s k t Hn Hk Hs; [unfold steps in Hs; simpl in Hs; lia|].
  inversion Hn; subst. rewrite steps_cons in Hs. destruct (is_step l) eqn:El.
  - destruct l as [o| |]; try discriminate. destruct o; try discriminate.
    pose proof (choose_imm now (queues s) k t Hk) as Hc. pose proof (step_shape cf BT s now) as Hsh.
    destruct (choose cf BT now (queues s)) as [[x gone] q'] eqn:Ec. destruct Hsh as (_ & Hq & _).
    assert (Himm : a_imm (queues (ao_state (astep cf BT s (LOp (OStep now))))) = a_imm q') by (by rewrite Hq).
    assert (Hah : ahead (queues (ao_state (astep cf BT s (LOp (OStep now))))) = ahead q') by (by rewrite Hq).
    set (s1 := ao_state (astep cf BT s (LOp (OStep now)))) in *.
    assert (Hrec : forall k', a_imm (queues s1) !! k' = Some t -> (ahead q' + k' < ahead (queues s) + k)%nat ->
      exists lsA now' lsB, LOp (OStep now) :: ls = lsA ++ LOp (OStep now') :: lsB /\ (steps lsA <= ahead (queues s) + k)%nat /\
       let s' := fst (arun cf BT s lsA) in
       exists rest, a_imm (queues s') = t :: rest /\ fst (fst (choose cf BT now' (queues s'))) = t /\
         a_imm (queues (ao_state (astep cf BT s' (LOp (OStep now'))))) = rest).
    { intros k' Hk' Hlt. destruct (IH s1 k' t ltac:(done) Hk' ltac:(lia)) as (lsA & now' & lsB & E & Hst & Hrest).
      exists (LOp (OStep now) :: lsA), now', lsB. rewrite E. split; [done|]. split; [rewrite steps_cons; simpl; lia|].
      cbn [arun]. fold s1. destruct (arun cf BT s1 lsA). exact Hrest. }
    destruct Hc as [[E1 E2]|(E1 & E2 & E3)].
    + apply (Hrec k); [by rewrite Himm, E1|lia].
    + destruct (a_imm (queues s)) as [|z imm] eqn:Em; [done|]. destruct k as [|k].
      * simpl in Hk. injection Hk as ->. exists [], now, ls. split; [done|]. split; [unfold steps; simpl; lia|].
        cbn [arun fst]. exists imm. split; [done|]. rewrite Ec. split; [by apply (E3 imm)|]. unfold s1 in Himm. by rewrite Himm, E1.
      * apply (Hrec k); [by rewrite Himm, E1|lia].
  - destruct (imm_other s l ltac:(done) El) as (more & E1 & E2).
    destruct (IH (ao_state (astep cf BT s l)) k t ltac:(done)) as (lsA & now & lsB & E & Hst & Hrest).
    { rewrite E1, lookup_app_l; [done|]. by eapply lookup_lt_Some. }
    { lia. }
    exists (l :: lsA), now, lsB. rewrite E. split; [done|]. split; [rewrite steps_cons, El; lia|].
    cbn [arun]. destruct (arun cf BT (ao_state (astep cf BT s l)) lsA). exact Hrest.
Qed.

(** *** draining *)
(** no scheduling, removing or resetting *)
Definition quiet (l : label) : Prop :=
  match l with
  | LOp (OInit | OReset | OTransfer _ | OImmed _ | OIsr _ | ODefer _ _ | ODeferFor _ _ _ | ORemove _) => False
  | _ => True
  end.
Definition no_transfer (s : astate) : Prop := Forall (fun f => forall t, f <> FTransfer t) (as_stack s).
(** every step of the history finds all of [d] due *)
Definition all_due (d : list (Z * Z)) (l : label) : Prop :=
  match l with LOp (OStep now) => Forall (fun e => precedes cf now (fst e) = false) d | _ => True end.

Lemma choose_drain now q : Forall (fun e => snd e <> NULL) (a_def q) ->
  Forall (fun e => precedes cf now (fst e) = false) (a_def q) ->
  let '(x, gone, q') := choose cf BT now q in
  queued q' = tail (queued q) /\ (forall t r, queued q = t :: r -> x = t) /\ exists d, a_def q = d ++ a_def q'.
Proof.
  intros Hn Hd. unfold choose, queued. destruct (a_irq q) as [|x irq] eqn:E.
  2:{ cbn [a_with_irq a_irq a_imm a_def]. split; [done|]. split; [by intros ? ? [= -> ?]|]. by exists []. }
  unfold due. cbn [by_time d_next]. destruct (a_def q) as [|[at_ y] d] eqn:Ed.
  - rewrite decide_False by (by intros ?). destruct (a_imm q) as [|z imm] eqn:Em; cbn [a_with_imm a_imm a_irq a_def tail]; rewrite ?E, ?Ed, ?Em.
    + split; [done|]. split; [done|]. by exists [].
    + split; [done|]. split; [by intros ? ? [= -> ?]|]. by exists [].
  - inversion Hn; subst. inversion Hd as [|? ? Hp]; subst. simpl in Hp. rewrite Hp. rewrite decide_True by done.
    cbn [a_with_def a_irq a_imm a_def]. rewrite E. split; [done|]. split; [by intros ? ? [= -> ?]|]. by exists [(at_, y)].
Qed.
Lemma quiet_other s l : no_transfer s -> quiet l -> is_step l = false ->
  no_transfer (ao_state (astep cf BT s l)) /\
  queued (queues (ao_state (astep cf BT s l))) = queued (queues s) /\
  a_def (queues (ao_state (astep cf BT s l))) = a_def (queues s).
Proof.
  intros Ht Hq Hs. destruct s as [w stk]. unfold no_transfer, queues in *. cbn [as_w as_stack] in *.
  destruct l as [o| |m]; cbn [astep as_w as_stack is_step]; [| |done].
  - destruct o; cbn [aop is_step]; try done.
    + destruct (decide _); [done|]. unfold enter. destruct (decide _); (split; [by constructor|done]).
    + destruct (decide _); [done|]. destruct (decide _); [done|]. split; [by constructor|done].
  - destruct stk as [|f stk]; [done|]. inversion Ht as [|? ? Hf Hr]; subst.
    destruct f; cbn [areturn]; try done; try (split; [by constructor|done]). by destruct (Hf t).
Qed.
Lemma quiet_step s now : no_transfer s -> no_transfer (ao_state (astep cf BT s (LOp (OStep now)))).
Proof.
  intros Ht. cbn [astep aop]. destruct (choose _ _ _ _) as [[t g] q']. unfold no_transfer in *.
  destruct (decide _); [done|]. unfold enter. destruct (decide _); by constructor.
Qed.
Lemma drain_run : forall ls s, no_transfer s -> Forall quiet ls -> Forall (fun e => snd e <> NULL) (a_def (queues s)) ->
  Forall (all_due (a_def (queues s))) ls ->
  queued (queues (fst (arun cf BT s ls))) = drop (steps ls) (queued (queues s)) /\
  exists d, a_def (queues s) = d ++ a_def (queues (fst (arun cf BT s ls))).
Proof.
  induction ls as [|l ls IH]; intros s Ht Hq Hn Hd.
  { split; [done|]. by exists []. }
  inversion Hq; subst. inversion Hd; subst. cbn [arun]. rewrite steps_cons. destruct (is_step l) eqn:El.
  - destruct l as [o| |]; try discriminate. destruct o; try discriminate.
    pose proof (choose_drain now (queues s) Hn ltac:(done)) as Hc. pose proof (step_shape cf BT s now) as Hsh.
    destruct (choose cf BT now (queues s)) as [[x gone] q']. destruct Hc as (E1 & E2 & d & E3), Hsh as (_ & Hq' & _).
    set (s1 := ao_state (astep cf BT s (LOp (OStep now)))) in *.
    assert (Ed : a_def (queues s1) = a_def q') by (by rewrite Hq').
    assert (Eq : queued (queues s1) = queued q') by (by rewrite Hq').
    destruct (IH s1) as [IH1 [d' IH2]].
    + by apply quiet_step.
    + done.
    + rewrite Ed. rewrite E3 in Hn. by apply Forall_app in Hn as [_ ?].
    + rewrite Ed. eapply Forall_impl; [eassumption|]. intros l Hl. destruct l as [o| |]; try done. destruct o; try done.
      simpl in *. rewrite E3 in Hl. by apply Forall_app in Hl as [_ ?].
    + destruct (arun cf BT s1 ls) as [s2 es]. simpl fst in *. rewrite IH1, Eq, E1. split.
      * destruct (queued (queues s)); [cbn [tail]; by rewrite !drop_nil|done].
      * exists (d ++ d'). rewrite E3, <- Ed, IH2, app_assoc. done.
  - destruct (quiet_other s l Ht ltac:(done) El) as (Ht' & Eq & Ed).
    destruct (IH (ao_state (astep cf BT s l)) Ht' ltac:(done)) as [IH1 IH2].
    + by rewrite Ed.
    + by rewrite Ed.
    + destruct (arun cf BT (ao_state (astep cf BT s l)) ls) as [s2 es]. simpl fst in *. rewrite IH1, Eq. split; [done|]. by rewrite <- Ed.
Qed.
End step.

(** ** C46 *)
(** The interrupt task at position k is run by the (k+1)-th step from now, whatever else
    happens, short of a reset. *)
Theorem C46_interrupt_latency : forall cf tm ls k t, config_ok cf ->
  let dc := by_time (precedes cf) in
  a_irq (queues (after cf dc tm ls)) !! k = Some t ->
  forall ls' now, steps ls' = k -> Forall not_reset ls' ->
  exists ev, emits cf tm (ls ++ ls') (LOp (OStep now)) ev /\ runs (after cf dc tm (ls ++ ls')) t ev.
Proof.
  intros cf tm ls k t Hcf dc Hk ls' now Hst Hr. eexists. split; [by apply emits_time|].
  pose proof (irq_run cf ls' (after cf dc tm ls) k t Hr ltac:(lia) Hk) as H. fold dc in H.
  rewrite <- after_app in H. fold dc. set (s := after cf dc tm (ls ++ ls')) in *.
  replace (k - steps ls')%nat with 0%nat in H by lia.
  pose proof (step_shape cf dc s now) as Hsh. pose proof (choose_irq cf now (queues s)) as [_ Hc]. fold dc in Hc.
  destruct (choose cf dc now (queues s)) as [[x g] q']. simpl in Hc. destruct Hsh as (Hr' & _).
  destruct (a_irq (queues s)) as [|y irq]; [done|]. simpl in H. injection H as ->.
  by rewrite (Hc t irq) in Hr' by done.
Qed.
Print Assumptions C46_interrupt_latency.

(** An immediate task at position k is run within (interrupt tasks) + (deferred tasks) +
    k + 1 steps, if no further interrupt or deferred tasks are scheduled meanwhile. *)
Theorem C46_immediate_latency : forall cf tm ls k t, config_ok cf ->
  let dc := by_time (precedes cf) in
  let q := queues (after cf dc tm ls) in
  a_imm q !! k = Some t ->
  forall ls', Forall no_preempt ls' ->
  (length (a_irq q) + length (a_def q) + k + 1 <= steps ls')%nat ->
  exists lsA now lsB ev, ls' = lsA ++ LOp (OStep now) :: lsB /\
    (steps lsA < length (a_irq q) + length (a_def q) + k + 1)%nat /\
    emits cf tm (ls ++ lsA) (LOp (OStep now)) ev /\ runs (after cf dc tm (ls ++ lsA)) t ev /\
    (* taken from the front of the immediate queue *)
    a_imm (queues (after cf dc tm (ls ++ lsA))) = t :: a_imm (queues (after cf dc tm (ls ++ lsA ++ [LOp (OStep now)]))).
Proof.
  intros cf tm ls k t Hcf dc q Hk ls' Hp Hs.
  destruct (imm_run cf ls' (after cf dc tm ls) k t Hp Hk Hs) as (lsA & now & lsB & E & Hst & rest & H1 & H2 & H3).
  fold dc in H1, H2, H3. rewrite <- after_app in H1, H2, H3.
  exists lsA, now, lsB. eexists. split; [done|]. split; [unfold ahead in Hst; fold q in Hst; lia|]. split; [by apply emits_time|].
  fold dc. split.
  - pose proof (step_shape cf dc (after cf dc tm (ls ++ lsA)) now) as Hsh.
    destruct (choose cf dc now _) as [[x g] q']. simpl in H2. subst x. by destruct Hsh.
  - rewrite H1, app_assoc, after_snoc. by rewrite H3.
Qed.
Print Assumptions C46_immediate_latency.

(** With no new work and all deferred tasks due, successive steps run all the queued tasks
    once, in order: interrupt tasks, deferred tasks by time, immediate tasks. *)
Theorem C46_drain : forall cf tm ls, config_ok cf ->
  let dc := by_time (precedes cf) in
  let s := after cf dc tm ls in
  let q := queues s in
  let todo := a_irq q ++ map snd (a_def q) ++ a_imm q in
  Forall (fun e => snd e <> NULL) (a_def q) ->
  forall ls', no_transfer s -> Forall quiet ls' -> Forall (all_due cf (a_def q)) ls' ->
  (* the next step runs the next task of the list *)
  (forall now t, all_due cf (a_def q) (LOp (OStep now)) -> todo !! steps ls' = Some t ->
     exists ev, emits cf tm (ls ++ ls') (LOp (OStep now)) ev /\ runs (after cf dc tm (ls ++ ls')) t ev) /\
  (* after as many steps as there are tasks, the queues are empty *)
  ((length todo <= steps ls')%nat ->
     let q' := queues (after cf dc tm (ls ++ ls')) in a_irq q' = [] /\ a_def q' = [] /\ a_imm q' = []).
Proof.
  intros cf tm ls Hcf dc s q todo Hn ls' Ht Hq Hd.
  destruct (drain_run cf ls' s Ht Hq Hn Hd) as [H1 [d H2]]. fold dc in H1, H2. unfold s in H1, H2. rewrite <- after_app in H1, H2.
  fold s in H1, H2. fold q in H1, H2. change (queued q) with todo in H1. split.
  - intros now t Hdue Hl. eexists. split; [by apply emits_time|]. fold dc. set (s' := after cf dc tm (ls ++ ls')) in *.
    pose proof (step_shape cf dc s' now) as Hsh.
    pose proof (choose_drain cf now (queues s')) as Hc. fold dc in Hc.
    destruct (choose cf dc now (queues s')) as [[x g] q']. destruct Hsh as (Hr & _).
    destruct Hc as (_ & Hx & _).
    + rewrite H2 in Hn. by apply Forall_app in Hn as [_ ?].
    + simpl in Hdue. rewrite H2 in Hdue. by apply Forall_app in Hdue as [_ ?].
    + rewrite (Hx t (drop (S (steps ls')) todo)) in Hr; [done|]. rewrite H1. by apply drop_S.
  - intros Hl q'. rewrite drop_ge in H1 by done. fold q' in H1. unfold queued in H1.
    apply app_eq_nil in H1 as [E1 E2]. apply app_eq_nil in E2 as [E2 E3]. split; [done|]. split; [|done].
    by destruct (a_def q').
Qed.
Print Assumptions C46_drain.

Definition ex46 : list label := [LOp (OImmed 31); LOp (OImmed 32); LOp (ODefer 21 7); LOp (ODefer 22 5); LOp (OIsr 11); LOp (OIsr 12)].
Example C46_example : let s := after ex_cf (by_time Z.ltb) ex_tm ex46 in
  a_irq (queues s) = [11; 12] /\ a_def (queues s) = [(5, 22); (7, 21)] /\ a_imm (queues s) = [31; 32] /\ no_transfer s /\
  let ls' := [LOp (OStep 8); LReturn; LOp (OStep 8); LReturn; LOp (OStep 8); LReturn; LOp (OStep 9); LReturn; LOp (OStep 9); LReturn; LOp (OStep 9)] in
  Forall quiet ls' /\ Forall (all_due ex_cf (a_def (queues s))) ls' /\ Forall no_preempt ls' /\ steps ls' = 6%nat /\
  exists m, mrun ex_cf (machine0 ex_cf ex_tm) (ex46 ++ ls') = Ok (m, replicate 6 [ERet (RErr SCHED_NONE)] ++
    [[ECall (UTask 1011 11)]; [ERet RUnit]; [ECall (UTask 1012 12)]; [ERet RUnit]; [ECall (UTask 1022 22)]; [ERet RUnit];
     [ECall (UTask 1021 21)]; [ERet RUnit]; [ECall (UTask 1031 31)]; [ERet RUnit]; [ECall (UTask 1032 32)]]).
Proof.
  cbn zeta. do 3 (split; [reflexivity|]). split; [constructor|].
  split; [repeat constructor|]. split; [vm_compute; repeat constructor|]. split; [repeat constructor|]. split; [reflexivity|].
  eexists. vm_compute. reflexivity.
Qed.

(** ** C59 *)
(** mu_time_precedes for a clock that counts modulo M: the difference, taken as a signed
    number of the same width, is negative *)
Definition wrap_precedes (M a b : Z) : bool := wrap_signed M (a - b) <? 0.
(** the time [x] lies in the half-range that starts at [base] *)
Definition in_window (M base x : Z) : Prop := (x - base) mod M < M / 2.

Lemma wrap_signed_mod m x : 0 < m -> wrap_signed m (x mod m) = wrap_signed m x.
Proof. intros. unfold wrap_signed. rewrite Z.mod_mod by lia. done. Qed.
Lemma wrap_precedes_window M base a b : 0 < M -> M mod 2 = 0 -> in_window M base a -> in_window M base b ->
  wrap_precedes M a b = ((a - base) mod M <? (b - base) mod M).
Proof.
  intros HM He Ha Hb. unfold wrap_precedes, in_window in *.
  rewrite <- wrap_signed_mod by done.
  replace ((a - b) mod M) with (((a - base) mod M - (b - base) mod M) mod M).
  2:{ rewrite <- Zminus_mod. f_equal. lia. }
  rewrite wrap_signed_mod by done.
  pose proof (Z.mod_pos_bound (a - base) M HM). pose proof (Z.mod_pos_bound (b - base) M HM).
  rewrite wrap_signed_id by (try done; lia).
  destruct (Z.ltb_spec ((a - base) mod M - (b - base) mod M) 0), (Z.ltb_spec ((a - base) mod M) ((b - base) mod M)); try done; lia.
Qed.
Lemma wrap_strict_weak M base (P : Z -> Prop) : 0 < M -> M mod 2 = 0 -> (forall x, P x -> in_window M base x) -> strict_weak (wrap_precedes M) P.
Proof.
  intros HM He HP. split_and!.
  - intros x Hx. rewrite (wrap_precedes_window M base) by auto. lia.
  - intros x y z Hx Hy Hz. rewrite !(wrap_precedes_window M base) by auto. lia.
  - intros x y z Hx Hy Hz. rewrite !(wrap_precedes_window M base) by auto. lia.
Qed.

(** As long as at every moment the pending times lie in some half-range (which may move),
    the scheduler with the wrap-around clock takes the deferred tasks in time order, first
    accepted among equals (C40); and at a step whose clock reading is in the half-range
    too, the hypotheses of C39 hold and an entry is due exactly if its time, counted from
    the start of the half-range, is not after the clock. *)
Theorem C59_wraparound : forall cf tm ls width, config_ok cf -> 1 <= width ->
  let M := 2 ^ width in
  let dc := by_arrival (precedes cf) in
  let pending ls := times (a_def (queues (after cf dc tm ls))) in
  precedes cf = wrap_precedes M ->
  (forall ls1 ls2, ls = ls1 ++ ls2 -> exists base, forall x, pending ls1 x -> in_window M base x) ->
  (exists m, mrun cf (machine0 cf tm) ls = Ok (m, snd (arun cf dc (astate0 tm) ls))) /\
  ordered cf tm ls /\
  (forall now base, in_window M base now -> (forall x, pending ls x -> in_window M base x) ->
     strict_weak (precedes cf) (fun x => x = now \/ pending ls x) /\
     forall x, pending ls x -> (precedes cf now x = false <-> (x - base) mod M <= (now - base) mod M)).
Proof.
  intros cf tm ls width Hcf Hw M dc pending HP Hwin.
  assert (HM : 0 < M) by (subst M; apply Z.pow_pos_nonneg; lia).
  assert (He : M mod 2 = 0).
  { subst M. replace width with (width - 1 + 1) by lia. rewrite Z.pow_add_r by lia. change (2 ^ 1) with 2. apply Z_mod_mult. }
  assert (Ho : ordered cf tm ls).
  { intros ls1 ls2 E. destruct (Hwin ls1 ls2 E) as (base & Hb). rewrite HP. apply (wrap_strict_weak M base); try done.
    intros x Hx. apply Hb. unfold pending, dc. by rewrite HP. }
  split; [by apply C40_deferred_order|]. split; [done|].
  intros now base Hnow Hpend. rewrite HP. split.
  - apply (wrap_strict_weak M base); try done. intros x [->|Hx]; auto.
  - intros x Hx. rewrite (wrap_precedes_window M base) by auto. lia.
Qed.
Print Assumptions C59_wraparound.
(** a 32-bit clock about to overflow *)
Definition wrap_cf : config := MkConfig P32 4 4 4 (wrap_precedes (2 ^ 32)) (fun t d => (t + d) mod 2 ^ 32).
Definition ex59 : list label := [LOp (ODeferFor 1 4294967290 10); LOp (ODeferFor 2 4294967290 5); LOp (ODefer 3 4)].
Example C59_example : config_ok wrap_cf /\
  (forall ls1 ls2, ex59 = ls1 ++ ls2 -> exists base, forall x,
      times (a_def (queues (after wrap_cf (by_arrival (precedes wrap_cf)) ex_tm ls1))) x -> in_window (2 ^ 32) base x) /\
  exists m, mrun wrap_cf (machine0 wrap_cf ex_tm) (ex59 ++ [LOp (OStep 4294967294); LOp (OStep 4294967295); LReturn; LOp (OStep 2); LOp (OStep 4); LReturn; LOp (OStep 4)])
    = Ok (m, replicate 3 [ERet (RErr SCHED_NONE)] ++ [[ERet RUnit]; [ECall (UTask 1002 2)]; [ERet RUnit]; [ERet RUnit]; [ECall (UTask 1001 1)]; [ERet RUnit]; [ECall (UTask 1003 3)]]).
Proof.
  split; [unfold config_ok, valid_cap, int_max; vm_compute; intuition (try congruence)|]. split.
  - intros ls1 ls2 E. exists 4294967290. unfold in_window.
    assert (H : ls1 = [] \/ ls1 = take 1 ex59 \/ ls1 = take 2 ex59 \/ ls1 = ex59).
    { destruct ls1 as [|a [|b [|c [|d ls1]]]]; simpl in E; [auto|injection E as <-; auto|injection E as <- <-; auto|injection E as <- <- <-; auto|].
      by injection E. }
    intros x Hx. destruct H as [-> | [-> | [-> | ->]]]; vm_compute in Hx; repeat destruct Hx as [<-|Hx]; try done.
  - eexists. vm_compute. reflexivity.
Qed.
