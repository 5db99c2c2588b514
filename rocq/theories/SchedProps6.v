(** * mu_sched: properties C92, C93 (vocabulary: SchedProps.v, SchedProps2.v) *)
From Verif Require Import CSem FifoSpec TaskModel SchedModel SchedSpec SchedProofs SchedOrder SchedProps SchedProps2 SchedProps3.

(** ** C92: a task scheduled only for later does not run before *)
(** In [l], task [t] is only ever scheduled for times satisfying [P]: never for immediate
    execution, and never made the idle task. *)
Definition only_at (cf : config) (t : Z) (P : Z -> Prop) (l : label) : Prop :=
  match l with
  | LOp (OImmed x) | LOp (OIsr x) | LOp (OTransfer x) | LOp (OSetIdle x) => x <> t
  | LOp (ODefer x at_) => x = t -> P at_
  | LOp (ODeferFor x now dt) => x = t -> P (offset cf now dt)
  | _ => True
  end.
(** at this point [t] is not scheduled, not the idle task, and no mu_sched_transfer(t) is
    in progress *)
Definition nowhere (t : Z) (s : astate) : Prop :=
  ~ In t (queued (queues s)) /\ a_idle (queues s) <> t /\ ~ In (FTransfer t) (as_stack s).

Section later.
Context (cf : config) (t : Z) (P : Z -> Prop) (Ht : t <> NULL).
Notation BT := (by_time (precedes cf)).
Definition later_inv (s : astate) : Prop :=
  ~ In t (a_irq (queues s)) /\ ~ In t (a_imm (queues s)) /\
  (forall at_, In (at_, t) (a_def (queues s)) -> P at_) /\
  a_idle (queues s) <> t /\ ~ In (FTransfer t) (as_stack s).

Lemma nowhere_inv s : nowhere t s -> later_inv s.
Proof.
  intros (H1 & H2 & H3). unfold queued in H1. rewrite !in_app_iff in H1. split_and!; try tauto.
  intros at_ Hin. exfalso. apply H1. right. left. apply (in_map snd) in Hin. exact Hin.
Qed.
Lemma ins_in e x d : In e (ins (precedes cf) x d) -> e = x \/ In e d.
Proof.
  induction d as [|y d IH]; simpl; [intros [<-|[]]; by left|]. destruct (precedes cf _ _); simpl.
  - intros [<-|[<-|H]]; eauto.
  - intros [<-|H]; [eauto|]. destruct (IH H); eauto.
Qed.
Lemma choose_later now q : ~ In t (a_irq q) -> ~ In t (a_imm q) -> (forall at_, In (at_, t) (a_def q) -> P at_) -> a_idle q <> t ->
  let '(x, _, q') := choose cf BT now q in
  ~ In t (a_irq q') /\ ~ In t (a_imm q') /\ (forall at_, In (at_, t) (a_def q') -> P at_) /\ a_idle q' <> t /\
  (x = t -> exists at_, P at_ /\ precedes cf now at_ = false).
Proof.
  intros H1 H2 H3 H4. unfold choose. destruct (a_irq q) as [|x irq] eqn:Ei.
  2:{ cbn. split_and!; try done; [intros H; apply H1; by right|]. intros ->. destruct H1. by left. }
  unfold due. cbn [by_time d_next]. destruct (a_def q) as [|[at_ x] rest] eqn:Ed.
  - rewrite decide_False by (by intros ?). destruct (a_imm q) as [|y im] eqn:Em.
    + rewrite Ei, Em, Ed. split_and!; try done.
    + cbn. rewrite Ei, Ed. split_and!; try done; [intros H; apply H2; by right|]. intros ->. destruct H2. by left.
  - destruct (precedes cf now at_) eqn:Ep.
    + rewrite decide_False by (by intros ?). destruct (a_imm q) as [|y im] eqn:Em.
      * rewrite Ei, Em, Ed. split_and!; try done.
      * cbn. rewrite Ei, Ed. split_and!; try done; [intros H; apply H2; by right|]. intros ->. destruct H2. by left.
    + assert (H3' : forall a, In (a, t) rest -> P a) by (intros a Ha; apply H3; by right).
      destruct (decide (x <> NULL)) as [Hx|Hx].
      * cbn. rewrite Ei. split_and!; try done. intros ->. exists at_. split; [|done]. apply H3. by left.
      * cbn [a_with_def a_imm a_idle]. destruct (a_imm q) as [|y im] eqn:Em.
        -- cbn. rewrite Ei, Em. split_and!; try done.
        -- cbn. rewrite Ei. split_and!; try done; [intros H; apply H2; by right|]. intros ->. destruct H2. by left.
Qed.
Lemma later_step s l : only_at cf t P l -> later_inv s -> later_inv (ao_state (astep cf BT s l)).
Proof.
  destruct s as [w stk]. unfold later_inv, queues. cbn [as_w as_stack]. intros Hl (H1 & H2 & H3 & H4 & H5).
  assert (Him : forall stk x, x <> t -> ~ In (FTransfer t) stk -> later_inv (ao_state (a_immed cf w stk x))).
  { intros stk' x Hx Hs. unfold a_immed, later_inv, queues. destruct (decide _); cbn; split_and!; try done.
    rewrite in_app_iff. intros [?|[?|[]]]; done. }
  assert (Hdf : forall x at_, (x = t -> P at_) -> later_inv (ao_state (a_defer cf BT w stk x at_))).
  { intros x at_ Hx. unfold a_defer, later_inv, queues. destruct (decide _); cbn; split_and!; try done.
    intros a Ha. apply ins_in in Ha as [[= -> <-]|Ha]; [by apply Hx|by apply H3]. }
  destruct l as [o| |m]; cbn [astep as_w as_stack].
  - destruct o; cbn [aop only_at] in *; try (cbn; split_and!; done); try (by apply Him); try (by apply Hdf).
    + cbn. split_and!; try tauto. intros E. apply Ht. symmetry. exact E.
    + cbn. split_and!; tauto.
    + pose proof (choose_later now (w_sys w) H1 H2 H3 H4) as Hc. destruct (choose _ _ _ _) as [[x g] q'].
      destruct Hc as (C1 & C2 & C3 & C4 & _). destruct (decide _); cbn; [split_and!; done|].
      unfold enter. destruct (decide _); cbn; (split; [done|]; split; [done|]; split; [done|]; split; [done|]); intros [?|?]; done.
    + destruct (decide _); [by apply Him|]. cbn. split_and!; try done. intros [[= ->]|?]; done.
    + destruct (decide _); cbn; split_and!; try done. rewrite in_app_iff. intros [?|[?|[]]]; done.
    + cbn. split_and!; try done. intros a Ha. apply elem_of_list_In, elem_of_list_filter in Ha as [_ Ha]. apply H3. by apply elem_of_list_In.
    + destruct (decide _); cbn; [split_and!; done|]. unfold enter. destruct (decide _); cbn; split_and!; try done; intros [?|?]; done.
    + destruct (decide _); cbn; [split_and!; done|]. destruct (decide _); cbn; split_and!; try done. intros [?|?]; done.
  - destruct stk as [|f stk]; [cbn; split_and!; done|].
    assert (Hs : ~ In (FTransfer t) stk) by (intros ?; apply H5; by right).
    destruct f; cbn [areturn]; try (cbn; split_and!; try done; intros [?|?]; done).
    apply Him; [|done]. intros ->. apply H5. by left.
  - cbn. split_and!; done.
Qed.
Lemma later_run : forall ls s, Forall (only_at cf t P) ls -> later_inv s -> later_inv (fst (arun cf BT s ls)).
Proof.
  induction ls as [|l ls IH]; intros s Hl Hs; [done|]. apply Forall_cons in Hl as [Hl Hls]. cbn [arun].
  specialize (IH _ Hls (later_step s l Hl Hs)). by destruct (arun _ _ _ ls).
Qed.
End later.

(** Say [t] is nowhere in the scheduler after [ls1], and is from then on scheduled only for
    times satisfying [P].  Then a step that runs it - first of all the call hook for it -
    does so when such a time has come.  For every clock. *)
Theorem C92_only_when_due : forall cf tm ls1 ls2 t (P : Z -> Prop) now c, config_ok cf -> t <> NULL ->
  nowhere t (after cf (by_time (precedes cf)) tm ls1) ->
  Forall (only_at cf t P) ls2 ->
  emits cf tm (ls1 ++ ls2) (LOp (OStep now)) [ECall c] -> call_task c = t ->
  exists at_, P at_ /\ precedes cf now at_ = false.
Proof.
  intros cf tm ls1 ls2 t P now c Hcf Ht Hn Hl He Hc.
  pose proof (later_run cf t P Ht ls2 _ Hl (nowhere_inv t P _ Hn)) as Hi. rewrite <- after_app in Hi.
  set (s := after cf _ tm (ls1 ++ ls2)) in *.
  destruct He as (m & evs & E & Hlen). destruct (emits_time cf tm Hcf (ls1 ++ ls2) (LOp (OStep now))) as (m' & evs' & E' & Hlen').
  rewrite E in E'. injection E' as _ E'. apply app_inj_2 in E' as [_ E']; [|done]. injection E' as E'. fold s in E'.
  destruct Hi as (H1 & H2 & H3 & H4 & _).
  pose proof (choose_later cf t P now (queues s) H1 H2 H3 H4) as Hch. cbn [astep aop] in E'. fold (queues s) in E'.
  destruct (choose _ _ _ _) as [[x g] q']. destruct Hch as (_ & _ & _ & _ & Hx). apply Hx.
  destruct (decide (x = NULL)); [discriminate|]. unfold enter in E'.
  destruct (decide _); injection E' as ->; exact Hc.
Qed.
Print Assumptions C92_only_when_due.

(** A clock that is a plain number: if [t] is nowhere in the scheduler when the clock has
    reached [c0] (for example because it is just being run) and is from then on scheduled
    only with mu_sched_defer_for, with delays of at least [d], it does not run again before
    [c0 + d].  So a task that re-schedules itself with a delay [d] runs with a period of at
    least [d]. *)
Theorem C92_min_spacing : forall cf tm ls1 ls2 t c0 d now c, config_ok cf -> t <> NULL ->
  precedes cf = Z.ltb -> offset cf = Z.add ->
  nowhere t (after cf (by_time (precedes cf)) tm ls1) ->
  (* clock readings from then on are at least c0, and delays for t at least d *)
  Forall (fun l => match l with
    | LOp (OImmed x) | LOp (OIsr x) | LOp (OTransfer x) | LOp (OSetIdle x) | LOp (ODefer x _) => x <> t
    | LOp (ODeferFor x now dt) => x = t -> c0 <= now /\ d <= dt
    | _ => True
    end) ls2 ->
  emits cf tm (ls1 ++ ls2) (LOp (OStep now)) [ECall c] -> call_task c = t ->
  c0 + d <= now.
Proof.
  intros cf tm ls1 ls2 t c0 d now c Hcf Ht Hp Ho Hn Hl He Hc.
  destruct (C92_only_when_due cf tm ls1 ls2 t (fun a => c0 + d <= a) now c Hcf Ht Hn) as (at_ & Ha & Hpr); try done.
  - eapply Forall_impl; [exact Hl|]. intros l. destruct l as [[]| |]; simpl; try done.
    rewrite Ho. intros H Hx. specialize (H Hx). lia.
  - rewrite Hp in Hpr. apply Z.ltb_ge in Hpr. lia.
Qed.
Print Assumptions C92_min_spacing.

(** task 5 runs at 3 and defers itself for 10: not at 12, but at 13 (other tasks meanwhile) *)
Definition ex92a : list label := [LOp (OImmed 5); LOp (OStep 3)].
Definition ex92b : list label := [LOp (ODeferFor 5 3 10); LReturn; LOp (OImmed 6); LOp (OStep 12); LReturn; LOp (OStep 12)].
Example C92_example : nowhere 5 (after ex_cf (by_time (precedes ex_cf)) ex_tm ex92a) /\
  precedes ex_cf = Z.ltb /\ offset ex_cf = Z.add /\
  emits ex_cf ex_tm (ex92a ++ ex92b) (LOp (OStep 13)) [ECall (UTask (t_fn (ex_tm 5)) 5)].
Proof.
  split; [vm_compute; split; [tauto|]; split; [discriminate|]; intros [H|[]]; discriminate|].
  split; [done|]. split; [done|]. eexists _, [_;_;_;_;_;_;_;_]. split; [vm_compute; reflexivity|done].
Qed.

(** ** C93: priorities are absolute - there is no bound, independent of the load, on the
    number of steps an accepted task waits *)
(** one more interrupt task [u], and a step *)
Definition irq_round (now u : Z) : list label := [LOp (OIsr u); LOp (OStep now); LReturn].
Definition def_round (now at_ u : Z) : list label := [LOp (ODefer u at_); LOp (OStep now); LReturn].
Definition round_events (tm : Z -> task) (u : Z) : list (list event) :=
  [[ERet (RErr SCHED_NONE)]; [ECall (UTask (t_fn (tm u)) u)]; [ERet RUnit]].

Section rounds.
Context (cf : config) (tm : Z -> task) (u : Z) (Hu : u <> NULL).
Notation BT := (by_time (precedes cf)).
Definition calm (imm : list Z) (def : list (Z * Z)) : astate := MkAs (MkW tm 0 0 0 (MkA [] imm def NULL NULL)) [].

Lemma irq_round_run now imm def : 0 < irq_capacity (MAX_IRQ cf) ->
  arun cf BT (calm imm def) (irq_round now u) = (calm imm def, round_events tm u).
Proof.
  intros Hc. unfold irq_round, calm. cbn [arun astep aop as_w as_stack w_sys a_irq length Z.of_nat].
  rewrite decide_True by lia. cbn [ao_state with_out ret as_w as_stack w_sys with_sys a_with_irq a_irq app choose].
  rewrite decide_False by done. unfold enter. cbn [with_sys w_call_hook]. rewrite decide_True by done. done.
Qed.
Lemma def_round_run now at_ imm : 1 <= MAX_DEFERRED cf -> precedes cf now at_ = false ->
  arun cf BT (calm imm []) (def_round now at_ u) = (calm imm [], round_events tm u).
Proof.
  intros Hc Hp. unfold def_round.
  assert (S1 : astep cf BT (calm imm []) (LOp (ODefer u at_)) = MkOut (calm imm [(at_, u)]) [ERet (RErr SCHED_NONE)] [u] [] []).
  { cbn [astep aop]. unfold a_defer, calm. cbn [as_w w_sys a_def length Z.of_nat]. by rewrite decide_True by lia. }
  assert (S2 : astep cf BT (calm imm [(at_, u)]) (LOp (OStep now)) =
    MkOut (MkAs (MkW tm 0 0 0 (MkA [] imm [] u NULL)) [FStepFn u]) [ECall (UTask (t_fn (tm u)) u)] [] [u] []).
  { cbn [astep aop]. unfold calm, choose, due. cbn [as_w w_sys a_irq a_def by_time d_next]. rewrite Hp.
    rewrite decide_True by done. rewrite decide_False by done. unfold enter. cbn [w_call_hook]. by rewrite decide_True. }
  cbn [arun]. rewrite S1. cbn [ao_state ao_evs]. rewrite S2. done.
Qed.
Lemma rounds_run (r : list label) s : arun cf BT s r = (s, round_events tm u) ->
  forall n, arun cf BT s (concat (replicate n r)) = (s, concat (replicate n (round_events tm u))).
Proof.
  intros H. induction n as [|n IH]; [done|]. cbn [replicate concat]. rewrite arun_app, H. cbn [fst snd]. by rewrite IH.
Qed.
End rounds.

(** For every number [n]: an immediate task [t] accepted now can be passed over by [n] steps
    and more, because before each step one more interrupt task arrives, or one more deferred
    task is due; each of these steps runs that task. *)
Theorem C93_immediate_starves : forall cf tm t u now at_ n, config_ok cf -> u <> NULL ->
  ((exists k, 1 <= k /\ MAX_IRQ cf = 2 ^ k) -> exists m,
    mrun cf (machine0 cf tm) (LOp (OImmed t) :: concat (replicate n (irq_round now u))) =
    Ok (m, [ERet (RErr SCHED_NONE)] :: concat (replicate n (round_events tm u)))) /\
  (precedes cf now at_ = false -> exists m,
    mrun cf (machine0 cf tm) (LOp (OImmed t) :: concat (replicate n (def_round now at_ u))) =
    Ok (m, [ERet (RErr SCHED_NONE)] :: concat (replicate n (round_events tm u)))).
Proof.
  intros cf tm t u now at_ n Hcf Hu. pose proof Hcf as (Hd & _ & Him & _).
  assert (H0 : forall r, arun cf (by_time (precedes cf)) (calm tm [t] []) r = (calm tm [t] [], round_events tm u) ->
    exists m, mrun cf (machine0 cf tm) (LOp (OImmed t) :: concat (replicate n r)) =
    Ok (m, [ERet (RErr SCHED_NONE)] :: concat (replicate n (round_events tm u)))).
  { intros r Hr. destruct (run_ok cf tm Hcf (LOp (OImmed t) :: concat (replicate n r))) as (m & E & _). exists m. rewrite E. do 2 f_equal.
    cbn [arun astep aop]. unfold a_immed. cbn [as_w astate0 w_sys a_imm length Z.of_nat].
    rewrite decide_True by lia. 
    change (ao_state (with_out (ret (with_sys (MkW tm 0 0 0 (MkA [] [] [] NULL NULL)) (a_with_imm (MkA [] [] [] NULL NULL) ([] ++ [t]))) (as_stack (astate0 tm)) (RErr SCHED_NONE)) [t] [] []))
      with (calm tm [t] []).
    rewrite (rounds_run cf tm u r _ Hr). done. }
  split.
  - intros (k & Hk & E). apply H0, irq_round_run; [done|]. rewrite (irq_capacity_pow2 _ k Hk E).
    assert (2 ^ 1 <= 2 ^ k) by (apply Z.pow_le_mono_r; lia). lia.
  - intros Hp. apply H0, def_round_run; [done|lia|done].
Qed.
Print Assumptions C93_immediate_starves.

(** The same for a deferred task, whether due or not, and interrupt tasks. *)
Theorem C93_deferred_starves : forall cf tm t at_ u now n, config_ok cf -> u <> NULL ->
  (exists k, 1 <= k /\ MAX_IRQ cf = 2 ^ k) -> exists m,
    mrun cf (machine0 cf tm) (LOp (ODefer t at_) :: concat (replicate n (irq_round now u))) =
    Ok (m, [ERet (RErr SCHED_NONE)] :: concat (replicate n (round_events tm u))).
Proof.
  intros cf tm t at_ u now n Hcf Hu (k & Hk & Ek). pose proof Hcf as (Hd & _ & Him & _).
  destruct (run_ok cf tm Hcf (LOp (ODefer t at_) :: concat (replicate n (irq_round now u)))) as (m & E & _). exists m. rewrite E. do 2 f_equal.
  cbn [arun astep aop]. unfold a_defer. cbn [as_w astate0 w_sys a_def length Z.of_nat].
  rewrite decide_True by lia.
  change (ao_state (with_out (ret (with_sys (MkW tm 0 0 0 (MkA [] [] [] NULL NULL)) (a_with_def (MkA [] [] [] NULL NULL) (d_put (by_time (precedes cf)) (at_, t) []))) (as_stack (astate0 tm)) (RErr SCHED_NONE)) [t] [] []))
    with (calm tm [] [(at_, t)]).
  rewrite (rounds_run cf tm u (irq_round now u)); [done|]. apply irq_round_run; [done|].
  rewrite (irq_capacity_pow2 _ k Hk Ek). assert (2 ^ 1 <= 2 ^ k) by (apply Z.pow_le_mono_r; lia). lia.
Qed.
Print Assumptions C93_deferred_starves.
Example C93_example : exists m, mrun ex_cf (machine0 ex_cf ex_tm) (LOp (OImmed 5) :: concat (replicate 2 (irq_round 0 6)) ++ [LOp (OStep 0)]) =
  Ok (m, [[ERet (RErr SCHED_NONE)]] ++ round_events ex_tm 6 ++ round_events ex_tm 6 ++ [[ECall (UTask (t_fn (ex_tm 5)) 5)]]).
Proof. eexists. vm_compute. reflexivity. Qed.
