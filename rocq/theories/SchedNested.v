(** * mu_sched_from_isr called from two interrupt levels: property C95 (machine: SchedIsr.v) *)
From Verif Require Import CSem FifoSpec Ring QueueModel QueueProofs SpscModel SpscProofs SpscMore TaskModel.
From Verif Require Import SchedModel SchedSpec SchedProofs SchedOrder SchedProps SchedIsr.

(** the accesses of mu_sched_from_isr in the two machines *)
Definition il_of (l : SpscModel.label) : ilabel := match l with LPut t => IPut t | _ => IP end.
Definition put_label (l : SpscModel.label) : Prop := match l with LPut _ | LP => True | _ => False end.
Lemma irun_puts cf : forall ls m p c e, Forall put_label ls -> crun (MkC (irq_of m) p CIdle) ls = Ok (c, e) ->
  irun cf (MkI m p MNone) (map il_of ls) = Ok (MkI (set_irq m (c_q c)) (c_p c) MNone, concat (map put_out e)) /\ c_c c = CIdle.
Proof.
  induction ls as [|l ls IH]; intros m p c e Hl E.
  - injection E as <- <-. cbn [map irun concat c_q c_p c_c]. split; [|done]. by rewrite (set_irq_id m).
  - apply Forall_cons in Hl as [Hl Hls]. cbn [crun] in E.
    destruct (cstep (MkC (irq_of m) p CIdle) l) as [[c1 e1]| |] eqn:E1; try discriminate. cbn [bind] in E.
    destruct (crun c1 ls) as [[c2 e2]| |] eqn:E2; try discriminate. cbn [bind] in E. injection E as <- <-.
    assert (Hc : c1 = MkC (irq_of (set_irq m (c_q c1))) (c_p c1) CIdle).
    { destruct l; try done; cbn [cstep c_p c_q c_c] in E1.
      - destruct p; injection E1 as <- <-; done.
      - destruct p; try (injection E1 as <- <-; done).
        + destruct (_ =? _); injection E1 as <- <-; done.
        + destruct (st _ _ _); simpl in E1; try discriminate. injection E1 as <- <-. done. }
    rewrite Hc in E2. destruct (IH _ _ _ _ Hls E2) as [E3 Hcc]. split; [|done].
    assert (Hi : istep cf (MkI m p MNone) (il_of l) = Ok (MkI (set_irq m (c_q c1)) (c_p c1) MNone, concat (map put_out e1))).
    { destruct l; try done; cbn [il_of istep i_m i_p i_c]; rewrite E1; done. }
    cbn [map irun]. rewrite Hi. cbn [bind]. rewrite E3. cbn [bind]. rewrite map_app, concat_app. done.
Qed.
Lemma map_repeat_il n : map il_of (repeat LP n) = repeat IP n.
Proof. induction n as [|n IH]; [done|]. cbn [repeat map]. by rewrite IH. Qed.
Lemma put_labels_repeat n : Forall put_label (repeat LP n).
Proof. induction n; [apply Forall_nil_2|]. cbn [repeat]. by apply Forall_cons_2. Qed.

Lemma put_ends : forall n q p c e, (pleft p <= n)%nat -> crun (MkC q p CIdle) (repeat LP n) = Ok (c, e) -> c_p c = PIdle.
Proof.
  induction n as [|n IH]; intros q p c e Hn E.
  - cbn [repeat crun] in E. injection E as <- _. cbn [c_p]. destruct p; simpl in Hn; try done; lia.
  - cbn [repeat crun] in E. destruct (cstep (MkC q p CIdle) LP) as [[c1 e1]| |] eqn:E1; try discriminate. cbn [bind] in E.
    destruct (crun c1 (repeat LP n)) as [[c2 e2]| |] eqn:E2; try discriminate. cbn [bind] in E. injection E as <- _.
    assert (Hc : exists q' p', c1 = MkC q' p' CIdle /\ (pleft p' <= n)%nat).
    { destruct p; cbn [cstep c_p c_q c_c] in E1; simpl in Hn; try (injection E1 as <- <-; eexists _, _; (split; [done|]); simpl; lia).
      - destruct (_ =? _); injection E1 as <- <-; eexists _, _; (split; [done|]); simpl; lia.
      - destruct (st _ _ _); simpl in E1; try discriminate. injection E1 as <- <-. eexists _, _; (split; [done|]); simpl; lia. }
    destruct Hc as (q' & p' & -> & Hp). by eapply IH.
Qed.

Lemma emits_is cf tm (Hcf : config_ok cf) ls l ev : emits cf tm ls l ev ->
  ev = ao_evs (astep cf (by_time (precedes cf)) (after cf (by_time (precedes cf)) tm ls) l).
Proof.
  intros (m & evs & E & Hl). destruct (emits_time cf tm Hcf ls l) as (m' & evs' & E' & Hl').
  rewrite E in E'. assert (H : evs ++ [ev] = evs' ++ [ao_evs (astep cf (by_time (precedes cf)) (after cf (by_time (precedes cf)) tm ls) l)]) by congruence.
  apply app_inj_2 in H as [_ H]; [|done]. congruence.
Qed.

(** After any history [ls] with room for the tasks: mu_sched_from_isr(a) is interrupted
    after [j] of its five accesses by mu_sched_from_isr(b), which runs to completion, and
    then goes on.  Both return NONE.  From then on the scheduler behaves as if only the
    survivors had been scheduled: b and a if the nested call came before the first access;
    otherwise one of them, and the other one, though accepted, never runs. *)
Definition survivors (j : nat) (a b : Z) : list Z := match j with O => [b; a] | 3 => [a] | _ => [b] end%nat.
Theorem C95_nested_from_isr : forall cf tm k ls a b j, config_ok cf -> 1 <= k -> MAX_IRQ cf = 2 ^ k -> (j <= 4)%nat ->
  emits cf tm ls (LOp (OIsr b)) [ERet (RErr SCHED_NONE)] ->
  (j = 0%nat -> emits cf tm (ls ++ [LOp (OIsr b)]) (LOp (OIsr a)) [ERet (RErr SCHED_NONE)]) ->
  exists m evs i1 mb m2,
    mrun cf (machine0 cf tm) ls = Ok (m, evs) /\
    irun cf (MkI m PIdle MNone) (IPut a :: repeat IP j) = Ok (i1, []) /\
    mstep cf (i_m i1) (LOp (OIsr b)) = Ok (mb, [ERet (RErr SCHED_NONE)]) /\
    irun cf (MkI mb (i_p i1) MNone) (repeat IP 5) = Ok (MkI m2 PIdle MNone, [Done (LOp (OIsr a)) [ERet (RErr SCHED_NONE)]]) /\
    forall later, exists m3 m4 e0 e1,
      mrun cf m2 later = Ok (m3, e1) /\
      mrun cf (machine0 cf tm) (ls ++ map (fun t => LOp (OIsr t)) (survivors j a b) ++ later) = Ok (m4, e0 ++ e1) /\
      length e0 = length (ls ++ map (fun t => LOp (OIsr t)) (survivors j a b)).
Proof.
  intros cf tm k ls a b j Hcf Hk HkM Hj He1 He2.
  set (n := MAX_IRQ cf) in *.
  destruct (run_ok cf tm Hcf ls) as (m & E & Hm). set (S := after cf (by_time (precedes cf)) tm ls) in *.
  assert (H1 : Z.of_nat (length (a_irq (queues S))) < n - 1).
  { pose proof (emits_is cf tm Hcf _ _ _ He1) as F1'. fold S in F1'.
    rewrite (isr_step cf k Hk HkM) in F1'. fold n in F1'. by destruct (decide _). }
  assert (H2 : j = 0%nat -> Z.of_nat (length (a_irq (queues S))) + 1 < n - 1).
  { intros Hj0. pose proof (emits_is cf tm Hcf _ _ _ (He2 Hj0)) as F1'.
    rewrite after_snoc in F1'. fold S in F1'. rewrite (isr_step cf k Hk HkM S) in F1'. fold n in F1'. rewrite decide_True in F1' by done.
    cbn [ao_state] in F1'. rewrite (isr_step cf k Hk HkM) in F1'. fold n in F1'.
    unfold queues in F1'. cbn [set_airq as_w with_sys w_sys a_with_irq a_irq] in F1'. fold (queues S) in F1'.
    rewrite app_length in F1'. cbn [length] in F1'. destruct (decide _); [lia|done]. }
  pose proof Hm as [(_ & _ & _ & _ & (Hirq & _)) _].
  assert (Hr : srep n (irq_of m) (a_irq (queues S))).
  { destruct Hirq as [[Hr _]|(Hc & _)]; [done|]. exfalso. fold n in Hc. rewrite (irq_capacity_pow2 n k Hk HkM) in Hc. unfold n in *.
    pose proof (Nat2Z.is_nonneg (length (a_irq (queues S)))). lia. }
  destruct (nested_ok n (irq_of m) (a_irq (queues S)) j a b Hr) as (q2 & En & Hr2).
  { destruct (Nat.eqb_spec j 0) as [Hj0|]; [specialize (H2 Hj0)|]; lia. }
  { done. }
  unfold nested in En.
  destruct (crun (MkC (irq_of m) PIdle CIdle) (LPut a :: repeat LP j)) as [[s1 e1]| |] eqn:C1; try discriminate. cbn [bind] in En.
  destruct (mu_spsc_put (c_q s1) b) as [[eb q1]| |] eqn:C2; try discriminate. cbn [bind] in En.
  destruct (crun (MkC q1 (c_p s1) CIdle) (repeat LP 5)) as [[s2 e2]| |] eqn:C3; try discriminate. cbn [bind] in En.
  injection En as <- Ee ->.
  assert (He : e1 = [InvPut a]).
  { assert (Hq : irq_of m = MkS (s_store (irq_of m)) (s_mask (irq_of m)) (s_head (irq_of m)) (s_tail (irq_of m))) by (by destruct (irq_of m)).
    rewrite Hq in C1.
    destruct (spsc_put_ok n (irq_of m) _ a Hr) as (ea & qa & Ea & Hcase). unfold mu_spsc_put in Ea.
    destruct Hcase as [(_ & -> & _)|(? & _)]; [|lia].
    destruct (Z.eqb_spec (to_u16 (Z.land (s_tail (irq_of m) + 1) (s_mask (irq_of m)))) (s_head (irq_of m))) as [|Hne]; [discriminate|].
    pose proof (srep_bounds _ _ _ Hr) as Hb.
    assert (Hl : Z.of_nat (length (s_store (irq_of m))) = n) by (by destruct Hr as (_ & _ & ? & _)).
    rewrite put_first in C1 by first [done|lia]. by injection C1 as _ <-. }
  subst e1. cbn [app] in Ee. injection Ee as ->.
  destruct (irun_puts cf (LPut a :: repeat LP j) m PIdle s1 [InvPut a]) as [I1 Hcc1]; [apply Forall_cons_2; [done|apply put_labels_repeat]|exact C1|].
  cbn [map il_of] in I1. rewrite map_repeat_il in I1.
  set (m1 := set_irq m (c_q s1)) in *.
  assert (Hb1 : mstep cf m1 (LOp (OIsr b)) = Ok (set_irq m1 q1, [ERet (RErr SCHED_NONE)])).
  { cbn [mstep api]. unfold mu_sched_from_isr. change (sc_irq (w_sys (m_w m1))) with (c_q s1). rewrite C2. cbn [bind]. done. }
  destruct (irun_puts cf (repeat LP 5) (set_irq m1 q1) (c_p s1) s2 [RespPut a true]) as [I2 _]; [apply put_labels_repeat|exact C3|].
  rewrite map_repeat_il in I2.
  assert (Hp2 : c_p s2 = PIdle) by (eapply put_ends; [|exact C3]; destruct (c_p s1); simpl; lia).
  rewrite Hp2 in I2.
  eexists m, _, _, _, _. split; [exact E|]. split; [exact I1|]. split; [exact Hb1|]. split; [exact I2|].
  intros later.
  assert (Hm2 : mrep cf (set_irq (set_irq m1 q1) (c_q s2)) (set_airq S (a_irq (queues S) ++ survivors j a b))).
  { change (set_irq (set_irq m1 q1) (c_q s2)) with (set_irq m (c_q s2)). eapply mrep_set; [exact Hk|exact HkM|done|]. exact Hr2. }
  assert (Haf : after cf (by_time (precedes cf)) tm (ls ++ map (fun t => LOp (OIsr t)) (survivors j a b)) =
     set_airq S (a_irq (queues S) ++ survivors j a b)).
  { assert (Hone : forall x, Z.of_nat (length (a_irq (queues S))) < n - 1 ->
      after cf (by_time (precedes cf)) tm (ls ++ [LOp (OIsr x)]) = set_airq S (a_irq (queues S) ++ [x])).
    { intros x Hx. rewrite after_snoc. fold S. rewrite (isr_step cf k Hk HkM). fold n. by rewrite decide_True by done. }
    destruct j as [|[|[|[|[|j]]]]]; [| | | | |lia]; cbn [survivors map]; [|by apply Hone..].
    change [LOp (OIsr b); LOp (OIsr a)] with ([LOp (OIsr b)] ++ [LOp (OIsr a)]). rewrite app_assoc, after_snoc, Hone by done.
    rewrite (isr_step cf k Hk HkM). fold n. unfold queues. cbn [set_airq as_w with_sys w_sys a_with_irq a_irq]. fold (queues S).
    specialize (H2 eq_refl). rewrite decide_True by (rewrite app_length; cbn [length]; lia).
    cbn [ao_state]. rewrite <- app_assoc. done. }
  destruct (mrep_behaves cf Hcf _ _ Hm2 later) as (m3 & E3).
  destruct (run_ok cf tm Hcf ((ls ++ map (fun t => LOp (OIsr t)) (survivors j a b)) ++ later)) as (m4 & E4 & _).
  rewrite arun_app in E4. cbn [snd] in E4.
  change (fst (arun cf (by_time (precedes cf)) (astate0 tm) (ls ++ map (fun t => LOp (OIsr t)) (survivors j a b)))) with
    (after cf (by_time (precedes cf)) tm (ls ++ map (fun t => LOp (OIsr t)) (survivors j a b))) in E4. rewrite Haf in E4.
  rewrite <- app_assoc in E4.
  eexists m3, m4, _, _. split; [exact E3|]. split; [exact E4|]. apply arun_length.
Qed.
Print Assumptions C95_nested_from_isr.

(** tasks 7 and 8, the second call between the third and the fourth access of the first one:
    both get NONE, one step runs 7, the next one finds nothing *)
Example C95_example : exists m i1 mb m2 m3,
  mrun ex_cf (machine0 ex_cf ex_tm) [] = Ok (m, []) /\
  irun ex_cf (MkI m PIdle MNone) (IPut 7 :: repeat IP 3) = Ok (i1, []) /\
  mstep ex_cf (i_m i1) (LOp (OIsr 8)) = Ok (mb, [ERet (RErr SCHED_NONE)]) /\
  irun ex_cf (MkI mb (i_p i1) MNone) (repeat IP 5) = Ok (MkI m2 PIdle MNone, [Done (LOp (OIsr 7)) [ERet (RErr SCHED_NONE)]]) /\
  mrun ex_cf m2 [LOp (OStep 0); LReturn; LOp (OStep 0)] = Ok (m3, [[ECall (UTask 1007 7)]; [ERet RUnit]; [ERet RUnit]]) /\
  emits ex_cf ex_tm [] (LOp (OIsr 8)) [ERet (RErr SCHED_NONE)].
Proof.
  eexists _, _, _, _, _. split; [vm_compute; reflexivity|]. split; [vm_compute; reflexivity|]. split; [vm_compute; reflexivity|].
  split; [vm_compute; reflexivity|]. split; [vm_compute; reflexivity|]. eexists _, []. split; [vm_compute; reflexivity|done].
Qed.
