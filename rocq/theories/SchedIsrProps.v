(** * mu_sched with interrupts inside API calls: property C48 (model: SchedIsr.v) *)
From Verif Require Import CSem FifoSpec Ring QueueModel QueueProofs SpscModel SpscProofs TaskModel.
From Verif Require Import SchedModel SchedSpec SchedProofs SchedOrder SchedProps SchedProps2 SchedIsr.
Notation label := SchedModel.label.

Lemma irun_app cf : forall l1 s l2 s1 o1, irun cf s l1 = Ok (s1, o1) ->
  irun cf s (l1 ++ l2) = (let* '(s2, o2) := irun cf s1 l2 in Ok (s2, o1 ++ o2)).
Proof.
  induction l1 as [|l l1 IH]; intros s l2 s1 o1 H; cbn [irun app] in *.
  - injection H as <- <-. destruct (irun cf s l2) as [[]| |]; done.
  - destruct (istep cf s l) as [[s' o]| |]; try discriminate. cbn [bind] in *.
    destruct (irun cf s' l1) as [[s2 o2]| |] eqn:E; try discriminate. cbn [bind] in H. injection H as <- <-.
    rewrite (IH s' l2 s2 o2 E). destruct (irun cf s2 l2) as [[s3 o3]| |]; cbn [bind]; [|done|done].
    by rewrite app_assoc.
Qed.

(** Every interleaving is defined, and is equivalent to a sequential history of the real
    scheduler (to which C39-C46 apply): each call takes effect at one point between its
    start and its end ([history]); the results on the interrupt side are those of this
    history, in order, and so are the results on the main side, except that the last step
    may have taken effect without having entered user code yet. *)
Theorem C48_linearizable : forall cf tm k sched, config_ok cf -> 1 <= k -> MAX_IRQ cf = 2 ^ k ->
  exists st os m evs, irun cf (istart cf tm) sched = Ok (st, os) /\
    mrun cf (machine0 cf tm) (history os) = Ok (m, evs) /\
    let z := combine (history os) evs in
    on_isr z = on_isr (results os) /\
    (on_main z = on_main (results os) \/
     exists now ok v ev, i_c st = MGot now ok v /\ on_main z = on_main (results os) ++ [(LOp (OStep now), ev)]).
Proof.
  intros cf tm k sched Hcf Hk HkM.
  destruct (irun_sim cf Hcf k Hk HkM sched _ _ _ (istart_inv cf Hcf k Hk HkM tm)) as (st & os & S' & pend' & E & Hi & H1 & H2 & H3).
  destruct (run_ok cf tm Hcf (history os)) as (m & Em & _).
  exists st, os, m. eexists. split; [done|]. split; [exact Em|]. cbn zeta. split; [done|]. simpl in H3. rewrite H3.
  unfold iinv in Hi. destruct (i_c st) as [|now pc|now ok v] eqn:Ec.
  - destruct Hi as (_ & _ & ->). left. by rewrite app_nil_r.
  - destruct Hi as (_ & _ & _ & ->). left. by rewrite app_nil_r.
  - destruct Hi as (S0 & _ & _ & _ & _ & ->). right. eauto 10.
Qed.
Print Assumptions C48_linearizable.

(** No task is lost or run twice (C42 for the history of any interleaving) *)
Theorem C48_exactly_once : forall cf tm k sched t, config_ok cf -> 1 <= k -> MAX_IRQ cf = 2 ^ k ->
  t <> NULL -> Forall (fun il => il <> IMain (LOp (OSetIdle t))) sched ->
  exists st os m evs, irun cf (istart cf tm) sched = Ok (st, os) /\
    mrun cf (machine0 cf tm) (history os) = Ok (m, evs) /\
    accepts t [] (history os) evs =
      (runs_of t (history os) evs + drops cf t (astate0 tm) (history os) +
       cnt t (queued (queues (after cf (by_time (precedes cf)) tm (history os)))))%nat.
Proof.
  intros cf tm k sched t Hcf Hk HkM Ht Hs.
  destruct (irun_sim cf Hcf k Hk HkM sched _ _ _ (istart_inv cf Hcf k Hk HkM tm)) as (st & os & S' & pend' & E & _).
  assert (Hh : Forall (fun l => l <> LOp (OSetIdle t)) (history os)).
  { clear -E Hs. revert E. generalize (istart cf tm). revert st os. induction Hs as [|il ils Hil Hs IH]; intros st os s0 E; cbn [irun] in E.
    - injection E as <- <-. constructor.
    - destruct (istep cf s0 il) as [[s1 o1]| |] eqn:E1; try discriminate. cbn [bind] in E.
      destruct (irun cf s1 ils) as [[s2 o2]| |] eqn:E2; try discriminate. cbn [bind] in E. injection E as <- <-.
      rewrite history_app. apply Forall_app. split; [|by eapply IH].
      clear -E1 Hil. destruct il as [x| |l| |]; cbn [istep] in E1.
      + destruct (cstep _ _) as [[c e]| |]; try discriminate. cbn [bind] in E1. injection E1 as _ <-.
        unfold history. induction e as [|ev e IH]; [constructor|]. cbn [map concat]. rewrite map_app, concat_app. apply Forall_app. split; [|done].
        destruct ev; simpl; repeat constructor; discriminate.
      + destruct (cstep _ _) as [[c e]| |]; try discriminate. cbn [bind] in E1. injection E1 as _ <-.
        unfold history. induction e as [|ev e IH]; [constructor|]. cbn [map concat]. rewrite map_app, concat_app. apply Forall_app. split; [|done].
        destruct ev; simpl; repeat constructor; discriminate.
      + destruct (i_c s0); try (injection E1 as _ <-; apply Forall_nil_2).
        destruct (excluded l); [injection E1 as _ <-; apply Forall_nil_2|].
        destruct l as [o| |]; try destruct o; try (injection E1 as _ <-; apply Forall_nil_2);
          (destruct (mstep _ _ _) as [[m' ev]| |]; try discriminate; cbn [bind] in E1; injection E1 as _ <-;
           unfold history; simpl; repeat constructor; congruence).
      + destruct (i_c s0); try (injection E1 as _ <-; apply Forall_nil_2).
        destruct (cstep _ _) as [[c e]| |]; try discriminate. cbn [bind] in E1.
        destruct e as [|[| | |] [|? ?]]; injection E1 as _ <-; repeat constructor; discriminate.
      + destruct (i_c s0); try (injection E1 as _ <-; apply Forall_nil_2).
        destruct (settle _ _) as [[m' ev]| |]; try discriminate. cbn [bind] in E1. injection E1 as _ <-. constructor. }
  destruct (C42_exactly_once cf tm (history os) t Hcf Ht Hh) as (m & evs & Em & Hc).
  exists st, os, m, evs. done.
Qed.
Print Assumptions C48_exactly_once.

(** *** preference *)
Global Instance ilabel_IC_dec il : Decision (il = IC).
Proof. destruct il; try (by left); by right. Defined.

Section pref.
Context (cf : config) (Hcf : config_ok cf) (k : Z) (Hk : 1 <= k) (HkM : MAX_IRQ cf = 2 ^ k).
Notation n := (MAX_IRQ cf).
Definition pref (S1 : astate) (now t : Z) (s : istate) : Prop :=
  match i_c s with
  | MNone => False
  | MGet nw pc => nw = now /\ exists l, mrep cf (i_m s) (set_airq S1 (t :: l)) /\ inv n (MkC (irq_of (i_m s)) (i_p s) pc) (t :: l) /\ pc <> CIdle
  | MGot nw ok v => nw = now /\ ok = true /\ v = t /\ exists l, mrep cf (i_m s) (set_airq S1 l) /\ inv n (MkC (irq_of (i_m s)) (i_p s) CIdle) l
  end.
Lemma set_set S l l' : set_airq (set_airq S l) l' = set_airq S l'.
Proof. done. Qed.
Lemma pref_put S1 now t s lab : pref S1 now t s -> (lab = LP \/ exists x, lab = LPut x) ->
  exists c e, cstep (MkC (irq_of (i_m s)) (i_p s) CIdle) lab = Ok (c, e) /\
    pref S1 now t (MkI (set_irq (i_m s) (c_q c)) (c_p c) (i_c s)).
Proof.
  intros Hp Hlab. unfold pref in *. cbn [i_c i_m i_p]. destruct (i_c s) as [|nw pc|nw ok v]; [done| |].
  - destruct Hp as (-> & l & Hm & Hinv & Hpc).
    destruct (put_step cf k _ _ _ _ lab Hlab Hinv) as (c & e & Ec & Hcase). exists c, e. split; [done|]. split; [done|].
    assert (exists l', inv n (MkC (c_q c) (c_p c) pc) (t :: l')) as (l' & Hl').
    { destruct Hcase as [(_ & H & _)|[(x & _ & _ & H)|(x & _ & _ & H)]]; eauto. }
    exists l'. rewrite irq_set_irq. split; [|done]. rewrite <- (set_set S1 (t :: l)). apply mrep_set with (k := k); try done. by destruct Hl'.
  - destruct Hp as (-> & -> & -> & l & Hm & Hinv).
    destruct (put_step cf k _ _ _ _ lab Hlab Hinv) as (c & e & Ec & Hcase). exists c, e. split; [done|]. do 3 (split; [done|]).
    assert (exists l', inv n (MkC (c_q c) (c_p c) CIdle) l') as (l' & Hl').
    { destruct Hcase as [(_ & H & _)|[(x & _ & _ & H)|(x & _ & _ & H)]]; eauto. }
    exists l'. rewrite irq_set_irq. split; [|done]. rewrite <- (set_set S1 l). apply mrep_set with (k := k); try done. by destruct Hl'.
Qed.
(** accesses left before mu_spsc_get returns *)
Definition left_ (c : mpc) : nat :=
  match c with
  | MGet _ CLoadHead => 6 | MGet _ (CLoadTail _) => 5 | MGet _ CLoadHead2 => 4 | MGet _ (CReadSlot _) => 3
  | MGet _ (CLoadHead3 _) => 2 | MGet _ (CStoreHead _ _) => 1 | _ => 0
  end.
Lemma pref_step S1 now t s il : pref S1 now t s -> il <> ICont ->
  exists s' os, istep cf s il = Ok (s', os) /\ pref S1 now t s' /\
    (left_ (i_c s') <= left_ (i_c s) - (if decide (il = IC) then 1 else 0))%nat.
Proof.
  intros Hp Hil. destruct il as [x| |l| |]; [| | | |done].
  - destruct (pref_put S1 now t s (LPut x) Hp ltac:(eauto)) as (c & e & Ec & H). cbn [istep]. rewrite Ec. cbn [bind].
    eexists _, _. split; [done|]. split; [done|]. simpl. lia.
  - destruct (pref_put S1 now t s LP Hp ltac:(eauto)) as (c & e & Ec & H). cbn [istep]. rewrite Ec. cbn [bind].
    eexists _, _. split; [done|]. split; [done|]. simpl. lia.
  - destruct s as [m p c]. destruct c; [done| |]; eexists _, _; (split; [done|]; split; [done|]; simpl; lia).
  - destruct s as [m p c]. unfold pref in Hp. cbn [i_c i_m i_p istep] in *. destruct c as [|nw pc|nw ok v]; [done| |].
    2:{ eexists _, _. split; [done|]. split; [done|]. simpl. lia. }
    destruct Hp as (-> & l & Hm & Hinv & Hpc). pose proof Hinv as (Hr & Hpi & Hc). cbn [c_q c_p c_c] in *.
    pose proof (srep_bounds n _ _ Hr) as Hb.
    destruct (cstep_ok n _ _ LC Hinv) as (c' & e & l' & E & Hinv' & Hf). rewrite E. cbn [bind].
    assert (Hcase : (exists pc', c' = MkC (irq_of m) p pc' /\ e = [] /\ pc' <> CIdle /\ (left_ (MGet now pc') + 1 <= left_ (MGet now pc))%nat) \/
                    (exists q', c' = MkC q' p CIdle /\ e = [RespGet true t])).
    { destruct pc; cbn [cstep c_c c_q c_p] in E; try done.
      - injection E as <- <-. left. eexists. split; [done|]. split; [done|]. split; [done|]. simpl. lia.
      - destruct (Z.eqb_spec h (s_tail (irq_of m))) as [He|He].
        + exfalso. simpl in Hc. subst h. assert (t :: l = []); [by apply (empty_iff n (irq_of m) (t :: l) Hr)|done].
        + injection E as <- <-. left. eexists. split; [done|]. split; [done|]. split; [done|]. simpl. lia.
      - injection E as <- <-. left. eexists. split; [done|]. split; [done|]. split; [done|]. simpl. lia.
      - destruct (ld _ _); cbn [bind] in E; try discriminate. injection E as <- <-. left. eexists. split; [done|]. split; [done|]. split; [done|]. simpl. lia.
      - injection E as <- <-. left. eexists. split; [done|]. split; [done|]. split; [done|]. simpl. lia.
      - injection E as <- <-. right. eexists. split; [done|]. destruct Hc as (_ & l'' & [= -> ->]). done. }
    destruct Hcase as [(pc' & -> & -> & Hpc' & Hle)|(q' & -> & ->)].
    + simpl in Hf. injection Hf as <-. cbn [c_q c_c]. eexists _, _. split; [done|]. rewrite set_irq_id. split.
      * split; [done|]. eauto.
      * rewrite decide_True by done. cbn [i_c]. lia.
    + simpl in Hf. injection Hf as <-. cbn [c_q]. eexists _, _. split; [done|]. split; [|simpl; lia].
      do 3 (split; [done|]). exists l. cbn [i_m i_p]. rewrite irq_set_irq. split; [|done].
      rewrite <- (set_set S1 (t :: l)). apply mrep_set with (k := k); try done. by destruct Hinv'.
Qed.
Lemma pref_run S1 now t : forall ils s, pref S1 now t s -> Forall (fun il => il <> ICont) ils ->
  exists s' os, irun cf s ils = Ok (s', os) /\ pref S1 now t s' /\
    (left_ (i_c s') <= left_ (i_c s) - length (filter (fun il => il = IC) ils))%nat.
Proof.
  induction ils as [|il ils IH]; intros s Hp Hf; cbn [irun].
  - eexists _, _. split; [done|]. split; [done|]. simpl. lia.
  - inversion Hf; subst. destruct (pref_step S1 now t s il Hp ltac:(done)) as (s1 & o1 & -> & Hp1 & Hl1). cbn [bind].
    destruct (IH s1 Hp1 ltac:(done)) as (s2 & o2 & -> & Hp2 & Hl2). cbn [bind].
    eexists _, _. split; [done|]. split; [done|]. destruct (decide (il = IC)).
    + rewrite filter_cons_True by done. simpl length. lia.
    + rewrite filter_cons_False by done. lia.
Qed.
End pref.

(** A task [t] that is first in the interrupt queue when mu_sched_step starts is the one it
    runs, whatever the interrupt side does meanwhile; and mu_sched_step needs at most six
    accesses to the queue, i.e. interrupts cannot delay its decision. *)
Theorem C48_interrupt_preferred : forall cf tm k sched1 s1 os1 now t irq sched2,
  config_ok cf -> 1 <= k -> MAX_IRQ cf = 2 ^ k ->
  irun cf (istart cf tm) sched1 = Ok (s1, os1) -> i_c s1 = MNone ->
  let S1 := after cf (by_time (precedes cf)) tm (history os1) in
  a_irq (queues S1) = t :: irq ->
  (* the step starts; anything happens but its last part *)
  Forall (fun il => il <> ICont) sched2 ->
  (6 <= length (filter (fun il => il = IC) sched2))%nat ->
  exists s2 os2 s3 ev,
    irun cf (istart cf tm) (sched1 ++ IMain (LOp (OStep now)) :: sched2) = Ok (s2, os2) /\
    istep cf s2 ICont = Ok (s3, [Done (LOp (OStep now)) ev]) /\ runs S1 t ev.
Proof.
  intros cf tm k sched1 s1 os1 now t irq sched2 Hcf Hk HkM E1 Hc S1 Hirq Hn H6.
  destruct (irun_sim cf Hcf k Hk HkM sched1 _ _ _ (istart_inv cf Hcf k Hk HkM tm)) as (s1' & os1' & S' & pend' & E & Hi & HS & _).
  rewrite E in E1. injection E1 as -> ->. unfold iinv in Hi. rewrite Hc in Hi. destruct Hi as (Hm & Hinv & _).
  fold (after cf (by_time (precedes cf)) tm (history os1)) in HS. fold S1 in HS. subst S'. rewrite Hirq in Hinv.
  set (s1g := MkI (i_m s1) (i_p s1) (MGet now CLoadHead)).
  assert (Hp : pref cf S1 now t s1g).
  { unfold pref. cbn [s1g i_c i_m i_p]. split; [done|]. exists irq. rewrite <- Hirq, set_airq_id. split; [done|]. split; [|done].
    rewrite Hirq. destruct Hinv as (? & ? & ?). by split_and!. }
  destruct (pref_run cf k Hk HkM S1 now t sched2 s1g Hp Hn) as (s2 & o2 & E2 & Hp2 & Hl).
  eexists s2, _. 
  assert (Hfull : irun cf (istart cf tm) (sched1 ++ IMain (LOp (OStep now)) :: sched2) = Ok (s2, os1 ++ [] ++ o2)).
  { rewrite (irun_app cf _ _ _ _ _ E). cbn [irun istep]. rewrite Hc. cbn [excluded bind]. fold s1g. rewrite E2. done. }
  unfold pref in Hp2. destruct (i_c s2) as [|nw pc|nw ok v] eqn:Ec2; [done| |].
  - exfalso. destruct Hp2 as (_ & ? & _ & _ & Hne).
    replace (length (filter (λ il : ilabel, il = IC) sched2)) with (length (filter (fun il => il = IC) sched2)) in Hl by done.
    destruct pc; simpl in Hl; try done; lia.
  - destruct Hp2 as (-> & -> & -> & l & Hm2 & Hinv2).
    destruct (cont_ok cf Hcf k now true t (i_m s2) _ Hm2 ltac:(done)) as (m' & Es & _ & _).
    eexists _, _. split; [exact Hfull|]. cbn [istep]. rewrite Ec2, Es. cbn [bind]. split; [done|].
    unfold finish, pick. cbn [set_airq as_w as_stack].
    destruct (decide (t = NULL)) as [->|Ht]; [by left|]. unfold with_out, call. cbn [ao_evs].
    unfold enter. cbn [with_sys w_call_hook w_tasks]. unfold runs. destruct (decide _); right; [left|right]; done.
Qed.
Print Assumptions C48_interrupt_preferred.

(** an interrupt arrives in the middle of a step that found the queue empty: the step runs
    the immediate task, the next step the interrupt task *)
Definition ex48 : list ilabel :=
  [IMain (LOp (OImmed 3)); IMain (LOp (OStep 0)); IPut 7; IP; IC; IP; IC; IP; IP; IP; ICont;
   IMain LReturn; IMain (LOp (OStep 0)); IC; IC; IPut 8; IP; IC; IC; IC; IP; IC; ICont].
Example C48_example : exists st, irun ex_cf (istart ex_cf ex_tm) ex48 = Ok (st,
  [Done (LOp (OImmed 3)) [ERet (RErr SCHED_NONE)]; Took 0; Done (LOp (OIsr 7)) [ERet (RErr SCHED_NONE)];
   Done (LOp (OStep 0)) [ECall (UTask 1003 3)]; Done LReturn [ERet RUnit]; Took 0; Done (LOp (OStep 0)) [ECall (UTask 1007 7)]]).
Proof. eexists. vm_compute. reflexivity. Qed.
Example C48_example_hyps : exists s1 os1,
  irun ex_cf (istart ex_cf ex_tm) (take 12 ex48) = Ok (s1, os1) /\ i_c s1 = MNone /\
  a_irq (queues (after ex_cf (by_time Z.ltb) ex_tm (history os1))) = [7] /\
  (6 <= length (filter (fun il => il = IC) [IC; IC; IPut 8; IP; IC; IC; IC; IP; IC]))%nat.
Proof. eexists _, _. split; [vm_compute; reflexivity|]. split; [reflexivity|]. split; [reflexivity|]. vm_compute. lia. Qed.
