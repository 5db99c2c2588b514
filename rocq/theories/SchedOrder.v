(** * Deferred tasks: execution order = earliest first, first accepted among equals *)
From Verif Require Import CSem FifoSpec TaskModel SchedModel SchedSpec.

(** [prec] is a strict weak order on the times satisfying [P] *)
Definition strict_weak (prec : Z -> Z -> bool) (P : Z -> Prop) : Prop :=
  (forall x, P x -> prec x x = false) /\
  (forall x y z, P x -> P y -> P z -> prec x y = true -> prec y z = true -> prec x z = true) /\
  (forall x y z, P x -> P y -> P z -> prec x y = false -> prec y z = false -> prec x z = false).

(** Among the entries [l], in order of acceptance, [e] is the earliest, and the first
    accepted of the earliest; [rest] are the others in their order. *)
Definition is_earliest (prec : Z -> Z -> bool) (l : list (Z * Z)) (e : Z * Z) (rest : list (Z * Z)) : Prop :=
  exists l1 l2, l = l1 ++ e :: l2 /\ rest = l1 ++ l2 /\
    Forall (fun x => prec (fst e) (fst x) = true) l1 /\
    Forall (fun x => prec (fst x) (fst e) = false) l2.

Definition times (l : list (Z * Z)) (x : Z) : Prop := In x (map fst l).

Section order.
Context (prec : Z -> Z -> bool).
Notation ins := (ins prec).
Notation earliest := (earliest prec).

Lemma strict_weak_sub (P Q : Z -> Prop) : (forall x, Q x -> P x) -> strict_weak prec P -> strict_weak prec Q.
Proof. intros H (H1 & H2 & H3). split_and!; eauto 10. Qed.

Lemma earliest_None l : earliest l = None <-> l = [].
Proof.
  destruct l as [|x l]; [done|]. cbn [SchedSpec.earliest]. destruct (earliest l) as [[y r]|]; [|done].
  destruct (prec _ _); done.
Qed.

Lemma earliest_spec l : strict_weak prec (times l) -> forall e rest, earliest l = Some (e, rest) -> is_earliest prec l e rest.
Proof.
  induction l as [|x l IH]; intros Hsw e rest E; [done|]. cbn [SchedSpec.earliest] in E.
  assert (Hsw' : strict_weak prec (times l)).
  { eapply strict_weak_sub; [|exact Hsw]. intros y Hy. right. done. }
  destruct (earliest l) as [[y r]|] eqn:El.
  - destruct (IH Hsw' y r eq_refl) as (l1 & l2 & -> & -> & Hl1 & Hl2).
    destruct (prec (fst y) (fst x)) eqn:Ep; injection E as <- <-.
    + exists (x :: l1), l2. split_and!; try done. by constructor.
    + exists [], (l1 ++ y :: l2). split_and!; try done.
      destruct Hsw as (_ & Ht & Hn).
      assert (Hx : times (x :: l1 ++ y :: l2) (fst x)) by (by left).
      assert (Hy : times (x :: l1 ++ y :: l2) (fst y)).
      { right. rewrite map_app. apply in_app_iff. right. by left. }
      apply Forall_app. split; [|constructor].
      * apply Forall_forall. intros z Hz. rewrite Forall_forall in Hl1. specialize (Hl1 z Hz).
        destruct (prec (fst z) (fst x)) eqn:Ez; [|done]. rewrite <- Ep. symmetry.
        apply (Ht (fst y) (fst z) (fst x)); try done.
        right. apply in_map, in_app_iff. left. by apply elem_of_list_In.
      * done.
      * apply Forall_forall. intros z Hz. rewrite Forall_forall in Hl2. specialize (Hl2 z Hz).
        apply (Hn (fst z) (fst y) (fst x)); try done.
        right. apply in_map, in_app_iff. right. right. by apply elem_of_list_In.
  - apply earliest_None in El as ->. injection E as <- <-. exists [], []. done.
Qed.

(** the entries in execution order *)
Definition exec_order (l : list (Z * Z)) : list (Z * Z) := fold_left (fun acc e => ins e acc) l [].

Lemma exec_snoc l e : exec_order (l ++ [e]) = ins e (exec_order l).
Proof. unfold exec_order. by rewrite fold_left_app. Qed.
Lemma fold_head e l2 : forall acc, Forall (fun x => prec (fst x) (fst e) = false) l2 ->
  fold_left (fun acc e => ins e acc) l2 (e :: acc) = e :: fold_left (fun acc e => ins e acc) l2 acc.
Proof.
  induction l2 as [|y l2 IH]; intros acc H; [done|]. inversion H as [|?? H1 H2]; subst.
  cbn [fold_left]. rewrite <- IH by done. cbn [SchedSpec.ins]. by rewrite H1.
Qed.
Lemma ins_perm e l : ins e l ≡ₚ e :: l.
Proof.
  induction l as [|x l IH]; [done|]. cbn [SchedSpec.ins]. destruct (prec _ _); [done|].
  rewrite IH. constructor.
Qed.
Lemma exec_perm l : exec_order l ≡ₚ l.
Proof.
  induction l as [|x l IH] using rev_ind; [done|]. rewrite exec_snoc, ins_perm, IH.
  by rewrite Permutation_cons_append.
Qed.
Lemma exec_length l : length (exec_order l) = length l.
Proof. apply Permutation_length, exec_perm. Qed.

Lemma exec_earliest l e rest : is_earliest prec l e rest -> exec_order l = e :: exec_order rest.
Proof.
  intros (l1 & l2 & -> & -> & H1 & H2).
  assert (E : exec_order (l1 ++ [e]) = e :: exec_order l1).
  { rewrite exec_snoc. pose proof (exec_perm l1) as Hp. destruct (exec_order l1) as [|h t]; [done|].
    cbn [SchedSpec.ins]. rewrite Forall_forall in H1. rewrite H1; [done|].
    rewrite <- Hp. by left. }
  replace (l1 ++ e :: l2) with ((l1 ++ [e]) ++ l2) by (by rewrite <- app_assoc).
  unfold exec_order in *. rewrite !fold_left_app in *. cbn [fold_left] in *. rewrite E. by apply fold_head.
Qed.

(** sortedness *)
Definition sorted (l : list (Z * Z)) : Prop :=
  forall i j x y, (i < j)%nat -> l !! i = Some x -> l !! j = Some y -> prec (fst y) (fst x) = false.
Inductive srt : list (Z * Z) -> Prop :=
| srt_nil : srt []
| srt_cons x l : Forall (fun y => prec (fst y) (fst x) = false) l -> srt l -> srt (x :: l).

Lemma ins_srt P e l : strict_weak prec P -> P (fst e) -> Forall (fun x => P (fst x)) l -> srt l -> srt (ins e l).
Proof.
  intros (Hi & Ht & Hn) He HP Hs. induction Hs as [|x l Hx Hs IH]; cbn [SchedSpec.ins].
  - constructor; constructor.
  - inversion HP as [|?? HPx HPl]; subst. destruct (prec (fst e) (fst x)) eqn:Ep.
    + constructor; [|by constructor].
      assert (Hasym : forall a b, P a -> P b -> prec a b = true -> prec b a = false).
      { intros a b Ha Hb Hab. destruct (prec b a) eqn:Hba; [|done].
        rewrite <- (Hi a Ha). symmetry. by apply (Ht a b a). }
      constructor; [by apply Hasym|].
      apply Forall_forall. intros y Hy. rewrite Forall_forall in Hx, HPl.
      apply (Hn (fst y) (fst x) (fst e)); auto.
    + constructor; [|by apply IH]. rewrite ins_perm. by constructor.
Qed.
Lemma exec_srt l : strict_weak prec (times l) -> srt (exec_order l).
Proof.
  induction l as [|x l IH] using rev_ind; intros Hsw; [constructor|]. rewrite exec_snoc.
  eapply (ins_srt (times (l ++ [x]))); [done| | |].
  - unfold times. rewrite map_app. apply in_app_iff. right. by left.
  - rewrite exec_perm. apply Forall_forall. intros y Hy. unfold times. rewrite map_app. apply in_app_iff. left.
    apply in_map. by apply elem_of_list_In.
  - apply IH. eapply strict_weak_sub; [|exact Hsw]. intros y Hy. unfold times in *. rewrite map_app.
    apply in_app_iff. by left.
Qed.

(** removing entries commutes with sorting *)
Lemma ins_filter P (Q : Z * Z -> Prop) `{!forall x, Decision (Q x)} e l :
  strict_weak prec P -> P (fst e) -> Forall (fun x => P (fst x)) l -> srt l -> Q e ->
  filter Q (ins e l) = ins e (filter Q l).
Proof.
  intros (Hi & Ht & Hn) He HP Hs HQ. induction Hs as [|x l Hx Hs IH]; cbn [SchedSpec.ins].
  - rewrite filter_cons_True by done. done.
  - inversion HP as [|?? HPx HPl]; subst. destruct (prec (fst e) (fst x)) eqn:Ep.
    + rewrite (filter_cons_True Q e) by done.
      (* all of x :: l is later than e, so ins puts e in front of whatever is left *)
      assert (Hall : Forall (fun y => prec (fst e) (fst y) = true) (x :: l)).
      { constructor; [done|]. apply Forall_forall. intros y Hy. rewrite Forall_forall in Hx, HPl.
        destruct (prec (fst e) (fst y)) eqn:Ey; [done|]. exfalso.
        assert (prec (fst e) (fst x) = false); [|congruence]. apply (Hn (fst e) (fst y) (fst x)); auto. }
      assert (Hall' : Forall (fun y => prec (fst e) (fst y) = true) (filter Q (x :: l))).
      { apply Forall_forall. intros y Hy. apply elem_of_list_filter in Hy as [_ Hy]. rewrite Forall_forall in Hall. by apply Hall. }
      destruct (filter Q (x :: l)) as [|h t]; [done|]. cbn [SchedSpec.ins].
      inversion Hall' as [|?? Hh]; subst. by rewrite Hh.
    + destruct (decide (Q x)).
      * rewrite !filter_cons_True by done. cbn [SchedSpec.ins]. rewrite Ep. f_equal. by apply IH.
      * rewrite !filter_cons_False by done. by apply IH.
Qed.
Lemma ins_filter_out (Q : Z * Z -> Prop) `{!forall x, Decision (Q x)} e l : ~ Q e -> filter Q (ins e l) = filter Q l.
Proof.
  intros HQ. induction l as [|x l IH]; cbn [SchedSpec.ins].
  - by rewrite filter_cons_False.
  - destruct (prec _ _); [by rewrite filter_cons_False|].
    destruct (decide (Q x)); [rewrite !filter_cons_True by done|rewrite !filter_cons_False by done]; by rewrite IH.
Qed.
Lemma exec_filter (Q : Z * Z -> Prop) `{!forall x, Decision (Q x)} l : strict_weak prec (times l) ->
  exec_order (filter Q l) = filter Q (exec_order l).
Proof.
  induction l as [|x l IH] using rev_ind; intros Hsw; [done|]. rewrite filter_app.
  assert (Hsw' : strict_weak prec (times l)).
  { eapply strict_weak_sub; [|exact Hsw]. intros y Hy. unfold times in *. rewrite map_app. apply in_app_iff. by left. }
  rewrite exec_snoc. destruct (decide (Q x)).
  - rewrite (filter_cons_True Q x []) by done. rewrite filter_nil, exec_snoc, IH by done. symmetry.
    apply (ins_filter (times (l ++ [x]))); try done.
    + unfold times. rewrite map_app. apply in_app_iff. right. by left.
    + rewrite exec_perm. apply Forall_forall. intros y Hy. unfold times. rewrite map_app. apply in_app_iff. left.
      apply in_map. by apply elem_of_list_In.
    + by apply exec_srt.
  - rewrite (filter_cons_False Q x []) by done. rewrite filter_nil, app_nil_r, IH by done.
    by rewrite ins_filter_out.
Qed.
End order.

(** ** The two disciplines give the same events *)
Section same.
Context (cf : config).
Notation prec := (precedes cf).
Notation BT := (by_time prec).
Notation BA := (by_arrival prec).

Definition in_time_order (a : asched) : asched := a_with_def a (exec_order prec (a_def a)).
Definition tview (s : astate) : astate :=
  MkAs (with_sys (as_w s) (in_time_order (w_sys (as_w s)))) (as_stack s).
Definition pending (s : astate) : Z -> Prop := times (a_def (queues s)).

Lemma due_same now l : strict_weak prec (times l) ->
  due cf BT now (exec_order prec l) =
    match due cf BA now l with Some (t, rest) => Some (t, exec_order prec rest) | None => None end.
Proof.
  intros Hsw. unfold due. cbn [by_time by_arrival d_next].
  destruct (earliest prec l) as [[e rest]|] eqn:E.
  - rewrite (exec_earliest prec l e rest) by (by apply earliest_spec). destruct e as [at_ t].
    by destruct (prec now at_).
  - apply earliest_None in E as ->. done.
Qed.

Lemma choose_same now a : strict_weak prec (times (a_def a)) ->
  choose cf BT now (in_time_order a) =
    let '(t, gone, a') := choose cf BA now a in (t, gone, in_time_order a').
Proof.
  intros Hsw. unfold choose. cbn [in_time_order a_with_def a_irq a_def].
  destruct (a_irq a) as [|x irq]; [|done]. rewrite due_same by done.
  destruct (due cf BA now (a_def a)) as [[t rest]|]; cbn [a_with_def a_irq a_imm a_def a_curr a_idle].
  - destruct (decide (t <> NULL)); [reflexivity|]. destruct (a_imm a) eqn:Ei; unfold in_time_order, a_with_def, a_with_imm; cbn; rewrite ?Ei; reflexivity.
  - destruct (decide (NULL <> NULL)); [congruence|]. destruct (a_imm a) eqn:Ei; unfold in_time_order, a_with_def, a_with_imm; cbn; rewrite ?Ei; reflexivity.
Qed.

Lemma astep_same s l : strict_weak prec (pending s) ->
  astep cf BT (tview s) l =
    let r := astep cf BA s l in
    MkOut (tview (ao_state r)) (ao_evs r) (ao_in r) (ao_out r) (ao_drop (astep cf BT (tview s) l)).
Proof.
  destruct s as [[tm h1 h2 h3 a] stk]. unfold pending, queues, tview. cbn [as_w as_stack w_sys]. intros Hsw.
  destruct l as [o| |m]; cbn [astep as_w as_stack].
  - destruct o; cbn [aop with_sys w_sys]; try reflexivity.
    + rewrite choose_same by done. destruct (choose cf BA now a) as [[t gone] a']. destruct (decide (t = NULL)); [done|].
      unfold enter. unfold with_sys. cbn [w_call_hook w_tasks]. destruct (decide (h2 = NULL)); reflexivity.
    + (* next *) cbn [by_time by_arrival d_next in_time_order a_with_def a_def].
      destruct (earliest prec (a_def a)) as [[e rest]|] eqn:E.
      * rewrite (exec_earliest prec (a_def a) e rest) by (by apply earliest_spec). done.
      * apply earliest_None in E. rewrite E. done.
    + unfold with_sys. cbn [w_transfer_hook]. destruct (decide (h3 = NULL)); [|reflexivity].
      unfold a_immed. cbn [w_sys in_time_order a_with_def a_imm]. destruct (decide _); reflexivity.
    + unfold a_immed, with_sys. cbn [w_sys in_time_order a_with_def a_imm]. destruct (decide _); reflexivity.
    + cbn [in_time_order a_with_def a_irq]. destruct (decide _); reflexivity.
    + unfold a_defer, with_sys. cbn [w_sys in_time_order a_with_def a_def]. rewrite exec_length.
      destruct (decide _); [|reflexivity]. cbn [by_time by_arrival d_put].
      unfold with_out, ret. cbn [ao_state ao_evs]. unfold in_time_order. cbn [a_with_def a_def with_sys w_sys as_w as_stack ao_state ao_evs].
      rewrite exec_snoc. done.
    + unfold a_defer, with_sys. cbn [w_sys in_time_order a_with_def a_def]. rewrite exec_length.
      destruct (decide _); [|reflexivity]. cbn [by_time by_arrival d_put].
      unfold with_out, ret. cbn [ao_state ao_evs]. unfold in_time_order. cbn [a_with_def a_def with_sys w_sys as_w as_stack ao_state ao_evs].
      rewrite exec_snoc. done.
    + unfold with_out, ret. cbn [ao_state ao_evs ao_in ao_out ao_drop]. unfold in_time_order. cbn [a_with_def a_def with_sys w_sys as_w as_stack].
      rewrite (exec_filter prec (fun e => snd e <> t)) by done.
      assert (Hd : filter (fun e : Z * Z => snd e = t) (exec_order prec (a_def a)) = [] <-> filter (fun e : Z * Z => snd e = t) (a_def a) = []).
      { rewrite <- (exec_filter prec (fun e => snd e = t)) by done. split; intros H.
        - apply (f_equal length) in H. rewrite exec_length in H. by apply nil_length_inv.
        - by rewrite H. }
      destruct (decide (filter _ (exec_order prec _) = [])) as [H|H], (decide (filter _ (a_def a) = [])) as [H'|H']; try done.
      * exfalso. by apply H', Hd.
      * exfalso. by apply H, Hd.
    + destruct (decide (t = NULL)); [done|]. unfold enter. unfold with_sys. cbn [w_call_hook w_tasks]. destruct (decide (h2 = NULL)); reflexivity.
    + destruct (decide (t = NULL)); [done|]. unfold with_sys. cbn [w_set_state_hook w_tasks]. destruct (decide (h1 = NULL)); reflexivity.
  - destruct stk as [|f stk]; [reflexivity|]. destruct f; cbn [areturn]; try reflexivity.
    unfold a_immed. cbn [w_sys in_time_order a_with_def a_imm with_sys]. destruct (decide _); reflexivity.
  - reflexivity.
Qed.

(** the pending times are strictly weakly ordered at every moment of the history *)
Definition ordered_from (s : astate) (ls : list label) : Prop :=
  forall ls1 ls2, ls = ls1 ++ ls2 -> strict_weak prec (pending (fst (arun cf BA s ls1))).

Lemma arun_same : forall ls s, ordered_from s ls ->
  arun cf BT (tview s) ls = (tview (fst (arun cf BA s ls)), snd (arun cf BA s ls)).
Proof.
  induction ls as [|l ls IH]; intros s Ho; [done|]. cbn [arun].
  assert (Hs : strict_weak prec (pending s)) by (apply (Ho [] (l :: ls)); done).
  pose proof (astep_same s l Hs) as E. cbn zeta in E. rewrite E. cbn [ao_state ao_evs].
  rewrite IH.
  - destruct (arun cf BA (ao_state (astep cf BA s l)) ls) as [s' es]. done.
  - intros ls1 ls2 ->. specialize (Ho (l :: ls1) ls2 eq_refl). cbn [arun] in Ho.
    destruct (arun cf BA (ao_state (astep cf BA s l)) ls1) as [s' es]. done.
Qed.
End same.
