(** * The whole system: properties C90, C91 *)
From Verif Require Import CSem FifoSpec QueueModel SpscModel MqueueModel MqueueSpec TaskModel SchedModel SchedSpec SchedProofs SchedProps.
From Verif Require Import SystemModel SystemSpec SystemProofs.

(** ** C90 *)
(** Every history of scheduler, task and queue calls, made by the main program and by
    tasks, notification tasks and hooks at any nesting, is executed without undefined
    behaviour and produces exactly the events of the specification. *)
Theorem C90_system : forall cf tm conf ls, config_ok cf -> conf_ok cf conf ->
  exists m, srun cf (smach0 cf tm conf) ls = Ok (m, snd (s_run cf (qconf_of conf) (s_start tm) ls)).
Proof.
  intros cf tm conf ls Hcf Hq.
  destruct (srun_ok cf (qconf_of conf) Hcf ls _ _ (smach0_ok cf tm conf Hcf Hq)) as (m & E & _). eauto.
Qed.
Print Assumptions C90_system.

(** The calls made on queue [q] in a history *)
Definition calls_on (q : Z) (ls : list slabel) : list qop :=
  concat (map (fun l => match l with SQ a o => if a =? q then [o] else [] | _ => [] end) ls).
(** after [ls], label [l] produces the events [ev] *)
Definition semits (cf : config) (tm : Z -> task) (conf : Z -> list Z * Z * Z) (ls : list slabel) (l : slabel) (ev : list sevent) : Prop :=
  exists m evs, srun cf (smach0 cf tm conf) (ls ++ [l]) = Ok (m, evs ++ [ev]) /\ length evs = length ls.

Lemma s_run_app cf qc : forall l1 s l2, s_run cf qc s (l1 ++ l2) =
  (fst (s_run cf qc (fst (s_run cf qc s l1)) l2), snd (s_run cf qc s l1) ++ snd (s_run cf qc (fst (s_run cf qc s l1)) l2)).
Proof.
  induction l1 as [|l l1 IH]; intros s l2; cbn [s_run app fst snd].
  - by destruct (s_run cf qc s l2).
  - destruct (s_step cf qc s l) as [s1 e1]. rewrite IH. by destruct (s_run cf qc s1 l1) as [s2 e2].
Qed.
Lemma s_run_length cf qc : forall ls s, length (snd (s_run cf qc s ls)) = length ls.
Proof.
  induction ls as [|l ls IH]; intros s; [done|]. cbn [s_run]. destruct (s_step cf qc s l) as [s1 e1].
  specialize (IH s1). destruct (s_run cf qc s1 ls). simpl in *. lia.
Qed.
Definition s_after (cf : config) (conf : Z -> list Z * Z * Z) (tm : Z -> task) (ls : list slabel) : ssys :=
  fst (s_run cf (qconf_of conf) (s_start tm) ls).
Lemma s_after_snoc cf conf tm ls l : s_after cf conf tm (ls ++ [l]) = fst (s_step cf (qconf_of conf) (s_after cf conf tm ls) l).
Proof. unfold s_after. rewrite s_run_app. cbn [fst s_run]. by destruct (s_step _ _ _ l). Qed.
Lemma semits_ok cf tm conf ls l : config_ok cf -> conf_ok cf conf ->
  semits cf tm conf ls l (snd (s_step cf (qconf_of conf) (s_after cf conf tm ls) l)).
Proof.
  intros Hcf Hq. destruct (C90_system cf tm conf (ls ++ [l]) Hcf Hq) as (m & E). rewrite s_run_app in E. cbn [snd s_run] in E.
  fold (s_after cf conf tm ls) in E. destruct (s_step cf (qconf_of conf) (s_after cf conf tm ls) l) as [s' e]. cbn [snd] in *.
  eexists _, _. split; [exact E|]. apply s_run_length.
Qed.

Lemma queue_label cf qc s l q : ss_q (fst (s_step cf qc s l)) q =
  snd (fifo_run (qc_cap (qc q)) (ss_q s q) (match l with SQ a o => if a =? q then [o] else [] | _ => [] end)).
Proof.
  destruct l as [[o| |tm]|a o]; cbn [s_step]; try done.
  - destruct (ss_stack s) as [|[] ]; done.
  - destruct (fifo_step (qc_cap (qc a)) (ss_q s a) o) as [r l] eqn:E.
    assert (H : forall w stk, ss_q (MkSS w (upd (ss_q s) a l) stk) q =
      snd (fifo_run (qc_cap (qc q)) (ss_q s q) (if a =? q then [o] else []))).
    { intros w stk. cbn [ss_q]. unfold upd. rewrite (Z.eqb_sym q a). destruct (Z.eqb_spec a q) as [->|]; [|done].
      cbn [fifo_run]. by rewrite E. }
    destruct (decide _); [apply H|]. destruct (decide _); apply H.
Qed.
Lemma queue_after cf conf tm q : forall ls, ss_q (s_after cf conf tm ls) q =
  snd (fifo_run (qc_cap (qconf_of conf q)) [] (calls_on q ls)).
Proof.
  induction ls as [|l ls IH] using rev_ind; [done|]. rewrite s_after_snoc, queue_label, IH. unfold calls_on.
  rewrite map_app, concat_app. cbn [map concat]. rewrite app_nil_r, fifo_run_app.
  by destruct (fifo_run _ [] _) as [o1 l1]; cbn [snd]; destruct (fifo_run _ l1 _) as [o2 l2].
Qed.

(** Each queue is a FIFO of its own: a call on [q] finds the items left by the earlier
    calls on [q], whatever else the program did; it returns at once, or, if it is a
    successful put (get) on a queue with an on_put (on_get) task, enters first the call
    hook or, without one, that task's function. *)
Theorem C90_queue_call : forall cf tm conf ls q o, config_ok cf -> conf_ok cf conf ->
  let '(storage, on_put, on_get) := conf q in
  let held := snd (fifo_run (Z.of_nat (length storage)) [] (calls_on q ls)) in
  let r := fst (fifo_step (Z.of_nat (length storage)) held o) in
  let t := match o, r with QPut _, QBool true => on_put | QGet, QItem true _ => on_get | _, _ => NULL end in
  let w := ss_w (s_after cf conf tm ls) in
  semits cf tm conf ls (SQ q o)
    [if decide (t = NULL) then SRet (SQRes r)
     else if decide (w_call_hook w = NULL) then SCall (UTask (t_fn (w_tasks w t)) t)
     else SCall (UCallHook (w_call_hook w) t)].
Proof.
  intros cf tm conf ls q o Hcf Hq. destruct (conf q) as [[sto a] b] eqn:Eq. cbv zeta.
  pose proof (semits_ok cf tm conf ls (SQ q o) Hcf Hq) as H. cbn [s_step] in H. rewrite queue_after in H.

  assert (E : qconf_of conf q = MkQC (Z.of_nat (length sto)) a b) by (unfold qconf_of; by rewrite Eq).
  rewrite E in H. cbn [qc_cap qc_put qc_get] in H.
  destruct (fifo_step _ (snd (fifo_run _ [] _)) o) as [r l]. cbn [fst].
  change (notify_of a b o r) with (match o, r with QPut _, QBool true => a | QGet, QItem true _ => b | _, _ => NULL end) in H.
  destruct (decide _); [exact H|]. destruct (decide _); exact H.
Qed.
Print Assumptions C90_queue_call.

(** Queue 7 holds one message and notifies task 100 on put; task 100 puts on queue 8,
    which notifies 200 on get; a call hook (fn 50) is installed before the second put. *)
Definition ex90_conf (q : Z) : list Z * Z * Z := if q =? 7 then ([0], 100, 0) else ([0;0], 0, 200).
Definition ex90 : list slabel :=
  [SQ 7 (QPut 1); SQ 8 (QPut 2); SL LReturn; SQ 7 (QPut 3); SL (LOp (OHooks 0 50 0)); SQ 8 QGet; SL (LOp (OImmed 9)); SL LReturn; SL LReturn; SL (LOp (OStep 0))].
Example C90_example : conf_ok ex_cf ex90_conf /\
  match srun ex_cf (smach0 ex_cf ex_tm ex90_conf) ex90 with
  | Ok (_, evs) => evs = [[SCall (UTask (t_fn (ex_tm 100)) 100)]; [SRet (SQRes (QBool true))]; [SRet (SQRes (QBool true))];
      [SRet (SQRes (QBool false))]; [SRet (SRes RUnit)]; [SCall (UCallHook 50 200)]; [SRet (SRes (RErr SCHED_NONE))];
      [SCall (UTask (t_fn (ex_tm 200)) 200)]; [SRet (SQRes (QItem true 2))]; [SCall (UCallHook 50 9)]]
  | _ => False end.
Proof.
  split; [|by vm_compute]. intros q. unfold qconf_of, ex90_conf. destruct (q =? 7); split; vm_compute; discriminate.
Qed.

(** ** C91: no lost wake-up *)
(** Which user function is returning, by the innermost library call in progress: the
    notification of a successful put on [q], or task [c] run by mu_sched_step. *)
Definition put_notification (q : Z) (s : ssys) : Prop :=
  exists t rest, ss_stack s = FQFn q t (QBool true) :: rest.
Definition consumer_run (c : Z) (s : ssys) : Prop :=
  exists rest, ss_stack s = FS (FStepFn c) :: rest.
(** The protocol for queue [q] and its consumer task [c], for every return in [ls], [l]
    being the last call made before it: the notification function of [q] returns right
    after a mu_sched_immed(c) that succeeded; the consumer's function returns right after
    a mu_mqueue_get(q) that found the queue empty. *)
Definition protocol (cf : config) (conf : Z -> list Z * Z * Z) (tm : Z -> task) (q c : Z) (ls : list slabel) : Prop :=
  forall before l rest, ls = before ++ l :: SL LReturn :: rest ->
    let ev := snd (s_step cf (qconf_of conf) (s_after cf conf tm before) l) in
    let s := s_after cf conf tm (before ++ [l]) in
    (put_notification q s -> l = SL (LOp (OImmed c)) /\ ev = [SRet (SRes (RErr SCHED_NONE))]) /\
    (consumer_run c s -> l = SQ q QGet /\ ev = [SRet (SQRes (QItem false NULL))]).
Definition no_reset (l : slabel) : Prop :=
  match l with SL (LOp OInit) | SL (LOp OReset) => False | _ => True end.

Section wakeup.
Context (cf : config) (qc : Z -> qconf) (q c : Z) (Hc : c <> NULL) (Hput : qc_put (qc q) <> NULL).
Notation BT := (by_time (precedes cf)).
Definition responsible (f : sframe) : Prop :=
  match f with
  | FS (FStepHook t) | FS (FStepFn t) => t = c
  | FQHook a _ (QBool true) | FQFn a _ (QBool true) => a = q
  | _ => False
  end.
Definition imm_of (s : ssys) : list Z := a_imm (w_sys (ss_w s)).
Definition covered (s : ssys) : Prop :=
  ss_q s q <> [] -> In c (imm_of s) \/ Exists responsible (ss_stack s).

Lemma choose_imm_c now a : In c (a_imm a) ->
  let '(t, _, a') := choose cf BT now a in In c (a_imm a') \/ t = c.
Proof.
  intros H. unfold choose. destruct (a_irq a); [|by left].
  destruct (due _ _ _ _) as [[t rest]|]; [|cbv iota zeta]; (destruct (decide _); [by left|]);
  cbn [a_with_def a_imm]; destruct (a_imm a) as [|x im]; try done; cbn [a_with_imm a_imm];
  destruct H as [->|H]; eauto.
Qed.
Lemma immed_keeps w stk t : In c (a_imm (w_sys w)) -> In c (a_imm (w_sys (as_w (ao_state (a_immed cf w stk t))))).
Proof. intros H. unfold a_immed. destruct (decide _); [|done]. cbn. apply in_app_iff. by left. Qed.
Lemma defer_keeps w stk t at_ : a_imm (w_sys (as_w (ao_state (a_defer cf BT w stk t at_)))) = a_imm (w_sys w).
Proof. unfold a_defer. by destruct (decide _). Qed.

(** a scheduler call keeps the consumer queued, or runs it *)
Lemma op_covers w o : no_reset (SL (LOp o)) -> In c (a_imm (w_sys w)) ->
  let r := aop cf BT w [] o in
  In c (a_imm (w_sys (as_w (ao_state r)))) \/ Exists responsible (map FS (as_stack (ao_state r))).
Proof.
  intros Hn Hin. destruct o; try done; cbn [aop]; try (by left).
  - pose proof (choose_imm_c now (w_sys w) Hin) as Hx. destruct (choose _ _ _ _) as [[t gone] a'].
    destruct (decide (t = NULL)) as [->|Ht].
    + left. destruct Hx as [Hx|Hx]; [exact Hx|]. by destruct Hc.
    + destruct Hx as [Hx| ->]; [left; exact Hx|]. right. unfold enter. destruct (decide _); by apply Exists_cons_hd.
  - destruct (decide _); left; [by apply immed_keeps|done].
  - left. by apply immed_keeps.
  - destruct (decide _); by left.
  - left. by rewrite defer_keeps.
  - left. by rewrite defer_keeps.
  - destruct (decide _); [by left|]. by left.
  - destruct (decide _); [by left|]. destruct (decide _); by left.
Qed.
Lemma return_covers w f : In c (a_imm (w_sys w)) ->
  In c (a_imm (w_sys (as_w (ao_state (areturn cf w [] f))))).
Proof. intros Hin. destruct f; cbn [areturn]; try done. by apply immed_keeps. Qed.

Lemma covered_step s l : no_reset l -> covered s ->
  (l = SL LReturn -> (put_notification q s -> In c (imm_of s)) /\ (consumer_run c s -> ss_q s q = [])) ->
  covered (fst (s_step cf qc s l)).
Proof.
  intros Hn Hcov Hret. unfold covered. destruct l as [[o| |tm]|a o].
  - cbn [s_step]. unfold lift. cbn [fst]. intros Hne. cbn [ss_q] in Hne. unfold imm_of. cbn [ss_w ss_stack].
    destruct (Hcov Hne) as [Hin|Hex].
    + destruct (op_covers (ss_w s) o Hn Hin) as [H|H]; [by left|]. right. apply Exists_app. by left.
    + right. apply Exists_app. by right.
  - destruct (Hret eq_refl) as [H1 H2]. cbn [s_step]. destruct (ss_stack s) as [|f stk] eqn:Es.
    { intros Hne. cbn [fst]. apply Hcov in Hne. rewrite Es in *. done. }
    destruct f as [f|a t r|a t r]; cbn [fst]; unfold lift; cbn [fst]; intros Hne; cbn [ss_q] in Hne; unfold imm_of; cbn [ss_w ss_stack].
    + specialize (Hcov Hne) as [Hin|Hex].
      * left. by apply return_covers.
      * rewrite Es in Hex. apply Exists_cons in Hex as [Hf|Hex].
        -- destruct f; simpl in Hf; try done; subst t.
           ++ right. by apply Exists_cons_hd.
           ++ exfalso. apply Hne. apply H2. by exists stk.
        -- right. apply Exists_app. by right.
    + specialize (Hcov Hne) as [Hin|Hex]; [by left|]. rewrite Es in Hex. right. apply Exists_cons in Hex as [Hf|Hex].
      * by apply Exists_cons_hd.
      * by apply Exists_cons_tl.
    + specialize (Hcov Hne) as [Hin|Hex]; [by left|]. rewrite Es in Hex. apply Exists_cons in Hex as [Hf|Hex].
      * left. apply H1. destruct r as [[]| | |]; simpl in Hf; try done. subst a. by exists t, stk.
      * by right.
  - cbn [s_step fst]. exact Hcov.
  - cbn [s_step]. destruct (fifo_step (qc_cap (qc a)) (ss_q s a) o) as [r l] eqn:E.
    set (t := notify_of _ _ _ _).
    assert (H : forall stk, (a = q -> r = QBool true -> (exists x, o = QPut x) -> Exists responsible stk) ->
       (exists s1, stk = s1 ++ ss_stack s) -> covered (MkSS (ss_w s) (upd (ss_q s) a l) stk)).
    { intros stk Hr [s1 ->]. unfold covered, imm_of. cbn [ss_q ss_w ss_stack]. unfold upd.
      destruct (Z.eqb_spec q a) as [<-|Hne].
      - intros Hl.
        assert (Ho : ss_q s q <> [] \/ (r = QBool true /\ exists x, o = QPut x)).
        { destruct o; cbn [fifo_step] in E.
          - destruct (_ <? _); injection E as <- <-; [right; eauto|by left].
          - destruct (ss_q s q); [injection E as <- <-; done|by left].
          - destruct (ss_q s q); [injection E as <- <-; done|by left].
          - injection E as <- <-. done.
          - injection E as <- <-. by left.
          - injection E as <- <-. by left.
          - injection E as <- <-. by left.
          - injection E as <- <-. by left. }
        destruct Ho as [Ho|[Ho Hp]].
        + destruct (Hcov Ho) as [?|?]; [by left|]. right. apply Exists_app. by right.
        + right. by apply Hr.
      - intros Hl. destruct (Hcov Hl) as [?|?]; [by left|]. right. apply Exists_app. by right. }
    destruct (decide (t = NULL)) as [Et|Et]; cbn [fst].
    + apply H; [|by exists []]. intros -> -> [x ->]. by destruct Hput.
    + destruct (decide _); cbn [fst].
      * apply H; [|by eexists [_]]. intros -> -> _. by apply Exists_cons_hd.
      * apply H; [|by eexists [_]]. intros -> -> _. by apply Exists_cons_hd.
Qed.
End wakeup.

(** With that protocol - and whatever the rest of the program does, short of resetting the
    scheduler - no message is ever forgotten: whenever the main program is in control, the
    queue is empty or the consumer is in the scheduler's immediate queue. *)
Theorem C91_no_lost_wakeup : forall cf conf tm q c ls, config_ok cf -> conf_ok cf conf ->
  c <> NULL -> snd (fst (conf q)) <> NULL ->
  Forall no_reset ls -> protocol cf conf tm q c ls ->
  let s := s_after cf conf tm ls in
  ss_stack s = [] ->
  semits cf tm conf ls (SQ q QIsEmpty) [SRet (SQRes (QBool true))] \/ In c (a_imm (w_sys (ss_w s))).
Proof.
  intros cf conf tm q c ls Hcf Hq Hc Hput Hn Hp s Hs.
  assert (Hput' : qc_put (qconf_of conf q) <> NULL). { unfold qconf_of. by destruct (conf q) as [[? ?] ?]. }
  assert (HC : forall l1 l2, ls = l1 ++ l2 -> covered q c (s_after cf conf tm l1)).
  { induction l1 as [|l l1 IH] using rev_ind; intros l2 E; [intros H; by destruct H|]. rewrite s_after_snoc.
    apply covered_step; try done.
    - rewrite Forall_forall in Hn. apply Hn. rewrite E. rewrite !elem_of_app, elem_of_list_singleton. eauto.
    - eapply IH. rewrite E, <- app_assoc. done.
    - intros ->. destruct l1 as [|l0 l1 _] using rev_ind.
      { split; [intros (t & r & Hx)|intros (r & Hx)]; discriminate. }
      rewrite <- !app_assoc in E. destruct (Hp l1 l0 l2 E) as [H1 H2]. split; intros Hx.
      + destruct (H1 Hx) as [-> He]. rewrite s_after_snoc. unfold imm_of. cbn [s_step] in *. unfold lift in *.
        cbn [fst snd aop] in *. unfold a_immed in *. destruct (decide _); [|discriminate]. cbn. apply in_app_iff. right. by left.
      + destruct (H2 Hx) as [-> He]. rewrite s_after_snoc, queue_label. rewrite Z.eqb_refl. cbn [fifo_run fifo_step].
        cbn [s_step fifo_step] in He. destruct (ss_q (s_after cf conf tm l1) q) as [|x m]; [done|].
        exfalso. cbn [fst snd] in He. destruct (decide _); [discriminate|]. destruct (decide _); discriminate. }
  specialize (HC ls [] ltac:(by rewrite app_nil_r)). fold s in HC.
  destruct (ss_q s q) as [|x m] eqn:E.
  - left. pose proof (semits_ok cf tm conf ls (SQ q QIsEmpty) Hcf Hq) as H. cbn [s_step fifo_step] in H. fold s in H. rewrite E in H.
    cbn [notify_of] in H. rewrite decide_True in H by done. exact H.
  - right. destruct HC as [H|H]; [by rewrite E|exact H|]. fold s in H. rewrite Hs in H. by apply Exists_nil in H.
Qed.
Print Assumptions C91_no_lost_wakeup.

(** queue 7, notification task 100, consumer 300: two messages, then two steps *)
Definition ex91_conf (q : Z) : list Z * Z * Z := ([0;0], 100, 0).
Definition ex91 : list slabel :=
  [SQ 7 (QPut 1); SL (LOp (OImmed 300)); SL LReturn; SQ 7 (QPut 2); SL (LOp (OImmed 300)); SL LReturn; SL (LOp (OStep 0));
   SQ 7 QGet; SQ 7 QGet; SQ 7 QGet; SL LReturn].
Example C91_example : protocol ex_cf ex91_conf ex_tm 7 300 ex91 /\ Forall no_reset ex91 /\
  ss_stack (s_after ex_cf ex91_conf ex_tm ex91) = [] /\
  ss_stack (s_after ex_cf ex91_conf ex_tm (take 6 ex91)) = [] /\
  ss_q (s_after ex_cf ex91_conf ex_tm (take 6 ex91)) 7 = [1; 2] /\
  imm_of (s_after ex_cf ex91_conf ex_tm (take 6 ex91)) = [300; 300].
Proof.
  split; [|split; [repeat (apply Forall_cons_2; [exact I|]); apply Forall_nil_2|vm_compute; done]].
  intros before l rest E. unfold ex91 in E.
  do 10 (destruct before as [|b before];
    [first [discriminate|injection E as <- <-; split; [intros (t & r & Hx)|intros (r & Hx)]; first [vm_compute; done|vm_compute in Hx; discriminate]]
    |injection E as <- E]).
  destruct before as [|? [|? before]]; discriminate.
Qed.
(** A notification function that ignores MU_SCHED_ERR_FULL breaks the protocol, and a
    message is forgotten: nothing is scheduled, yet the queue is not empty. *)
Definition ex91_full : list slabel :=
  map (fun t => SL (LOp (OImmed t))) [1;2;3;4] ++ [SQ 7 (QPut 1); SL (LOp (OImmed 300)); SL LReturn] ++
  concat (replicate 4 [SL (LOp (OStep 0)); SL LReturn]).
Example C91_needs_protocol :
  let s := s_after ex_cf ex91_conf ex_tm ex91_full in
  ss_stack s = [] /\ queued (w_sys (ss_w s)) = [] /\ ss_q s 7 = [1].
Proof. vm_compute. done. Qed.
