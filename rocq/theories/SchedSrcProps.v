(** * Property C114: the text of mu_sched.c, mu_task.c, mu_queue.c and mu_spsc.c, run by the rules of C by a program
    whose tasks and hooks call the scheduler again *)
From Verif Require Import CSym SrcSched FifoSpec QueueModel SpscModel TaskModel SchedModel SchedSpec SchedProofs SchedProps
  SchedSrc SchedSrc2 SchedSrc3 SchedSrc4 SchedSrc5 SchedSrc6.
Open Scope string_scope. Open Scope Z_scope.
Notation length := List.length.

(** ** What a user program can see of a run, in time order, and how it writes it down *)
Inductive uev :=
| UOp (o : op)             (* it calls a function of the library *)
| UEnter (fn t : Z)        (* its function [fn] is entered with argument [t]: a task, the call hook or the transfer hook *)
| UEnter2 (fn t s : Z)     (* ... with arguments [t] and [s]: the set-state hook *)
| UReturn                  (* ... and returns *)
| URet (o : obs).          (* the library function returns *)
Definition op_code (o : op) : list Z :=
  match o with
  | OInit => [0; 0; 0; 0] | OReset => [1; 0; 0; 0] | OStep now => [2; now; 0; 0] | OSetIdle t => [3; t; 0; 0] | OGetIdle => [4; 0; 0; 0]
  | OCurrent => [5; 0; 0; 0] | ONext => [6; 0; 0; 0] | OWait t => [7; t; 0; 0] | OTransfer t => [8; t; 0; 0] | OImmed t => [9; t; 0; 0]
  | OIsr t => [10; t; 0; 0] | ODefer t a => [11; t; a; 0] | ODeferFor t now dt => [12; t; now; dt] | ORemove t => [13; t; 0; 0]
  | OCall t => [14; t; 0; 0] | OSetState t s => [15; t; s; 0] | OHooks a b c => [16; a; b; c]
  end.
Definition obs_code (o : obs) : list Z := match o with RUnit => [1; 0] | RErr e => [2; sched_code e] | RTask t => [3; t] end.
Definition uev_code (e : uev) : list Z :=
  match e with
  | UOp o => 1 :: op_code o
  | UEnter fn t => [2; fn; t; 0; 0]
  | UEnter2 fn t s => [3; fn; t; s; 0]
  | UReturn => [4; 0; 0; 0; 0]
  | URet o => [5] ++ obs_code o ++ [0; 0]
  end%list.
Definition enc (e : uev) : list val := VI <$> uev_code e.
Definition encs (l : list uev) : list val := concat (enc <$> l).
Lemma enc_length e : length (enc e) = 5%nat.
Proof. destruct e as [o| | | |o]; try destruct o; reflexivity. Qed.
Lemma op_code_inj a b : op_code a = op_code b -> a = b.
Proof. destruct a, b; cbn; intros H; try discriminate H; try done; injection H; intros; subst; done. Qed.
Lemma obs_code_inj a b : obs_code a = obs_code b -> a = b.
Proof. destruct a as [|[]|], b as [|[]|]; cbn; intros H; try discriminate H; try done. by injection H as ->. Qed.
Lemma enc_inj a b : enc a = enc b -> a = b.
Proof.
  intros H. assert (uev_code a = uev_code b) as H'.
  { revert H. unfold enc. generalize (uev_code a), (uev_code b). induction l as [|x l IH]; intros [|y l'] H; try discriminate H; [done|].
    cbn in H. injection H as -> H. f_equal. by apply IH. }
  clear H. destruct a as [o|fn t|fn t s| |o], b as [o'|fn' t'|fn' t' s'| |o']; cbn in H'; try discriminate H'.
  - injection H' as H'. f_equal. by apply op_code_inj.
  - injection H' as -> ->. done.
  - injection H' as -> -> ->. done.
  - done.
  - injection H' as H'. apply app_inj_1 in H' as [H' _]; [|by destruct o, o']. f_equal. by apply obs_code_inj.
Qed.
Lemma encs_app a b : (encs (a ++ b) = encs a ++ encs b)%list.
Proof. unfold encs. rewrite fmap_app, concat_app. done. Qed.
Lemma encs_1 e : encs [e] = enc e.
Proof. unfold encs. cbn. apply app_nil_r. Qed.
Lemma encs_length l : length (encs l) = (5 * length l)%nat.
Proof. induction l as [|e l IH]; [done|]. change (encs (e :: l)) with (enc e ++ encs l)%list. rewrite app_length, IH, enc_length. cbn [length]. lia. Qed.
(** nothing is lost in what the program writes down *)
Theorem C114_log_reads_back : forall a b, encs a = encs b -> a = b.
Proof.
  induction a as [|x a IH]; intros [|y b] H; [done| | |].
  - apply (f_equal length) in H. rewrite !encs_length in H. cbn in H. lia.
  - apply (f_equal length) in H. rewrite !encs_length in H. cbn in H. lia.
  - change (encs (x :: a)) with (enc x ++ encs a)%list in H. change (encs (y :: b)) with (enc y ++ encs b)%list in H.
    apply app_inj_1 in H; [|by rewrite !enc_length]. destruct H as [H1 H2]. apply enc_inj in H1 as ->. f_equal. by apply IH.
Qed.
(** what the program sees of a history: its own calls and returns, and what the library does in answer *)
Definition seen_ev (e : event) : uev :=
  match e with
  | ECall (UTask fn t) | ECall (UCallHook fn t) | ECall (UTransferHook fn t) => UEnter fn t
  | ECall (UStateHook fn t s) => UEnter2 fn t s
  | ERet o => URet o
  end.
Definition seen_label (l : label) : list uev := match l with LOp o => [UOp o] | LReturn => [UReturn] | LPoke _ => [] end.
Definition seen (tr : list (label * list event)) : list uev := concat ((fun '(l, es) => seen_label l ++ (seen_ev <$> es))%list <$> tr).
Definition calls_only (tr : list (label * list event)) : Prop := Forall (fun '(l, _) => match l with LPoke _ => False | _ => True end) tr.
Lemma seen_app a b : seen (a ++ b) = (seen a ++ seen b)%list.
Proof. unfold seen. rewrite fmap_app, concat_app. done. Qed.
Lemma seen_cons l es tr : seen ((l, es) :: tr) = (seen_label l ++ (seen_ev <$> es) ++ seen tr)%list.
Proof. unfold seen. cbn. rewrite app_assoc. done. Qed.

(** the platform functions: the clock is the object [cb] *)
Definition platform (cf : config) (cb : nat) (f : string) (vs : list val) (m : mem) : res (val * ty * mem) :=
  if String.eqb f "mu_time_now" then match vs with [] => let* v := load_mem m cb 0 in Ok (v, Tint false W64, m) | _ => UB end
  else if String.eqb f "mu_time_precedes" then match vs with [VI a; VI b] => Ok (truth (precedes cf a b), Tbool, m) | _ => UB end
  else if String.eqb f "mu_time_offset" then match vs with [VI a; VI b] => Ok (VI (offset cf a b), Tint false W64, m) | _ => UB end
  else UB.
Definition as_task (v : val) : res Z := match v with VI 0 => Ok 0 | VP (S t) 0 => Ok (Z.of_nat (S t)) | _ => UB end.
Definition as_err (v : val) : res sched_err := match v with VI 0 => Ok SCHED_NONE | VI 1 => Ok SCHED_FULL | VI 2 => Ok SCHED_NOT_FOUND | _ => UB end.
Lemma as_task_tv t : 0 <= t -> as_task (tv t) = Ok t.
Proof.
  intros H. unfold tv. destruct (Z.eqb_spec t 0) as [->|]; [done|]. unfold as_task. destruct (Z.to_nat t) eqn:E; [lia|].
  rewrite <- E, Z2Nat.id by done. done.
Qed.
Lemma as_err_code e : as_err (VI (sched_code e)) = Ok e.
Proof. by destruct e. Qed.

Section source.
Context (cf : config) (fuel : nat).
(** the clock, the program's log, the tasks with their user data; [sigma] is the program: what it does next, from what it has written down *)
Context (cb lb : nat) (T : list Z) (info : Z -> val) (sigma : list val -> option op).
Notation P := (sched_prog (MAX_DEFERRED cf) (MAX_IRQ cf) (MAX_IMMED cf)).
Notation W := (world sched).

Definition log (m : mem) : list val := match heap m !! lb with Some l => l | None => [] end.
Definition say (e : uev) (m : mem) : mem := MkMem (<[lb := (log m ++ enc e)%list]> (heap m)) (next m).
Definition set_clock (now : Z) (m : mem) : mem := MkMem (<[cb := [VI now]]> (heap m)) (next m).

(** one call by the user; [code fn args m] is what the function pointers of the user do *)
Section one.
Context (code : val -> list val -> mem -> res (val * ty * mem)).
Definition sc (f : string) (vs : list val) (m : mem) : res (val * mem) :=
  let* '(v, _, m) := CLang.call (plat_ cf) P fuel (platform cf cb) code 4 f vs m in Ok (v, m).
Definition sc_err (f : string) (vs : list val) (m : mem) : res (obs * mem) :=
  let* '(v, m) := sc f vs m in let* e := as_err v in Ok (RErr e, m).
Definition sc_task (f : string) (vs : list val) (m : mem) : res (obs * mem) :=
  let* '(v, m) := sc f vs m in let* t := as_task v in Ok (RTask t, m).
Definition sc_unit (f : string) (vs : list val) (m : mem) : res (obs * mem) :=
  let* '(v, m) := sc f vs m in Ok (RUnit, m).
Definition src_op (o : op) (m : mem) : res (obs * mem) :=
  match o with
  | OInit => sc_unit "mu_sched_init" [] m
  | OReset => sc_unit "mu_sched_reset" [] m
  | OStep now => sc_unit "mu_sched_step" [] (set_clock now m)
  | OSetIdle t => sc_unit "mu_sched_set_idle_task" [tv t] m
  | OGetIdle => sc_task "mu_sched_get_idle_task" [] m
  | OCurrent => sc_task "mu_sched_current_task" [] m
  | ONext => sc_task "mu_sched_next_task" [] m
  | OWait t => sc_err "mu_sched_wait" [tv t] m
  | OTransfer t => sc_err "mu_sched_transfer" [tv t] m
  | OImmed t => sc_err "mu_sched_immed" [tv t] m
  | OIsr t => sc_err "mu_sched_from_isr" [tv t] m
  | ODefer t at_ => sc_err "mu_sched_defer_until" [tv t; VI at_] m
  | ODeferFor t now dt => sc_err "mu_sched_defer_for" [tv t; VI dt] (set_clock now m)
  | ORemove t => sc_err "mu_sched_remove_deferred_task" [tv t] m
  | OCall t => sc_unit "mu_task_call" [tv t] m
  | OSetState t s => sc_task "mu_task_set_state" [tv t; VI s] m
  | OHooks a b c => let* '(_, m) := sc "mu_task_install_set_state_hook" [tv a] m in
                    let* '(_, m) := sc "mu_task_install_call_hook" [tv b] m in
                    sc_unit "mu_task_install_transfer_hook" [tv c] m
  end.
End one.
(** what the program may do: its tasks are the objects [T] or NULL, times and states fit their C types, and it does
    not initialise the scheduler a second time *)
Definition live (t : Z) : Prop := t = 0 \/ In t T.
Definition time (x : Z) : Prop := 0 <= x < 18446744073709551616.
Definition op_ok (o : op) : Prop :=
  match o with
  | OInit => False
  | OReset | OGetIdle | OCurrent | ONext => True
  | OStep now => time now
  | OSetIdle t | OWait t | OTransfer t | OImmed t | OIsr t | ORemove t | OCall t => live t
  | ODefer t at_ => live t /\ time at_
  | ODeferFor t now dt => live t /\ time now /\ -9223372036854775808 <= dt <= 9223372036854775807
  | OSetState t s => live t /\ 0 <= s < 4294967296
  | OHooks a b c => 0 <= a /\ 0 <= b /\ 0 <= c
  end.

(** a user function: note the entry, run the program, note the exit *)
Definition task_fn (run : mem -> res mem) (fn : val) (args : list val) (m : mem) : res (val * ty * mem) :=
  let* f := as_task fn in
  match args with
  | [a] => let* t := as_task a in let* m := run (say (UEnter f t) m) in Ok (VI 0, Tvoid, say UReturn m)
  | [a; VI s] => let* t := as_task a in let* m := run (say (UEnter2 f t s) m) in Ok (VI 0, Tvoid, say UReturn m)
  | _ => UB
  end.
(** the code in control - the main program, a task or a hook *)
Fixpoint src_body (n : nat) (m : mem) : res mem :=
  match sigma (log m) with
  | None => Ok m
  | Some o =>
    match n with
    | O => NoFuel
    | S n => let* '(r, m) := src_op (task_fn (src_body n)) o (say (UOp o) m) in src_body n (say (URet r) m)
    end
  end.

(** ** The invariant *)
Context (Hcb : (6 < cb)%nat) (Hlb : (6 < lb)%nat) (Hcl : cb <> lb).
Context (HT : forall t, In t T -> 6 < t /\ Z.to_nat t <> cb /\ Z.to_nat t <> lb).
Context (Hint : MAX_DEFERRED cf <= int_max) (Hsize : MAX_DEFERRED cf * (8 + ptr_bytes (plat_ cf)) < size_mod (plat_ cf)).
Context (Hoff : forall a b, time (offset cf a b)) (Hfuel : (Z.to_nat (MAX_DEFERRED cf) < fuel)%nat).
Definition mine (b : nat) : Prop := (b <= 6)%nat \/ b = cb \/ b = lb \/ exists t, In t T /\ b = Z.to_nat t.
Definition untouched (m m' : mem) : Prop := next m' = next m /\ forall b, ~ mine b -> heap m' !! b = heap m !! b.
Definition task_cells (w : Z -> task) (t : Z) : list val := [tv (t_fn (w t)); VI (t_state (w t)); info t].
Record rel (m : mem) (w : W) : Prop := {
  r_at : sched_at cf m (w_sys w);
  r_inv : inv cf live (w_sys w);
  r_h4 : heap m !! 4%nat = Some [tv (w_set_state_hook w)]; r_p4 : 0 <= w_set_state_hook w;
  r_h5 : heap m !! 5%nat = Some [tv (w_call_hook w)]; r_p5 : 0 <= w_call_hook w;
  r_h6 : heap m !! 6%nat = Some [tv (w_transfer_hook w)]; r_p6 : 0 <= w_transfer_hook w;
  r_log : exists l, heap m !! lb = Some (encs l);
  r_task : forall t, In t T -> heap m !! Z.to_nat t = Some (task_cells (w_tasks w) t) /\ 0 < t_fn (w_tasks w t) }.
Lemma L0 : live 0. Proof. by left. Qed.
Lemma live_pos t : live t -> 0 <= t.
Proof. intros [->|H]; [done|]. apply HT in H. lia. Qed.
Lemma untouched_refl m : untouched m m. Proof. done. Qed.
Lemma untouched_trans m1 m2 m3 : untouched m1 m2 -> untouched m2 m3 -> untouched m1 m3.
Proof. intros [H1 H2] [H3 H4]. split; [congruence|]. intros b Hb. rewrite H4, H2 by done. done. Qed.
Lemma untouched_set m b c : mine b -> untouched m (MkMem (<[b := c]> (heap m)) (next m)).
Proof. intros H. split; [done|]. intros b' Hb. cbn. rewrite lookup_insert_ne; [done|]. intros ->. done. Qed.
Lemma say_log e m : log (say e m) = (log m ++ enc e)%list.
Proof. unfold log at 1. cbn. by rewrite lookup_insert. Qed.
Lemma at_lookup m m' s : sched_at cf m s -> (forall b, (b <= 3)%nat -> heap m' !! b = heap m !! b) -> sched_at cf m' s.
Proof. intros [] E. split; try done; rewrite E by lia; done. Qed.
(** changes of the log and of the clock *)
Lemma rel_other m m' w : rel m w -> (forall b, b <> lb -> b <> cb -> heap m' !! b = heap m !! b) ->
  (exists l, heap m' !! lb = Some (encs l)) -> rel m' w.
Proof.
  intros H E El. destruct H. split; try done; try (rewrite E by lia; done).
  - eapply at_lookup; [done|]. intros b Hb. apply E; lia.
  - intros t Ht. pose proof (HT t Ht). rewrite E by lia. by apply r_task0.
Qed.
Lemma say_rel m w e : rel m w -> rel (say e m) w /\ untouched m (say e m).
Proof.
  intros H. split.
  - eapply rel_other; [done|..].
    + intros b Hb _. cbn. by rewrite lookup_insert_ne.
    + cbn. rewrite lookup_insert. destruct (r_log _ _ H) as [l E]. exists (l ++ [e])%list. unfold log. rewrite E, encs_app, encs_1. done.
  - apply untouched_set. right. right. by left.
Qed.
Lemma clock_rel m w now : rel m w -> rel (set_clock now m) w /\ untouched m (set_clock now m) /\ log (set_clock now m) = log m /\ heap (set_clock now m) !! cb = Some [VI now].
Proof.
  intros H. split; [|split; [|split]].
  - eapply rel_other; [done|..].
    + intros b _ Hb. cbn. by rewrite lookup_insert_ne.
    + cbn. rewrite lookup_insert_ne by done. apply H.
  - apply untouched_set. right. by left.
  - unfold log. cbn. by rewrite lookup_insert_ne.
  - cbn. apply lookup_insert.
Qed.
Lemma set_log m s : log (set_sched m s) = log m.
Proof. unfold log. rewrite set_other by lia. done. Qed.
Lemma set_untouched m s : untouched m (set_sched m s).
Proof. split; [done|]. intros b Hb. apply set_other. destruct (decide (3 < b)%nat); [done|]. exfalso. apply Hb. left. lia. Qed.
(** changes of the scheduler *)
Lemma set_rel m w s : rel m w -> inv cf live s -> rel (set_sched m s) (with_sys w s).
Proof.
  intros H Hi. destruct H. split; cbn [w_sys with_sys w_tasks w_call_hook w_set_state_hook w_transfer_hook]; try done; try (rewrite set_other by lia; done).
  - apply set_at. apply Hi.
  - intros t Ht. pose proof (HT t Ht). rewrite set_other by lia. by apply r_task0.
Qed.
(** changes of a hook *)
Lemma cell_log m b c : (b <= 6)%nat -> log (set_cell_at m b c) = log m.
Proof. intros H. unfold log. cbn. rewrite lookup_insert_ne by lia. done. Qed.
Lemma cell_untouched m b c : (b <= 6)%nat -> untouched m (set_cell_at m b c).
Proof. intros H. apply untouched_set. by left. Qed.
Lemma hook_rel m w a b c : rel m w -> 0 <= a -> 0 <= b -> 0 <= c ->
  rel (set_cell_at (set_cell_at (set_cell_at m 4 [tv a]) 5 [tv b]) 6 [tv c]) (MkW (w_tasks w) a b c (w_sys w)).
Proof.
  intros H Ha Hb Hc. destruct H. split; cbn [w_sys w_tasks w_call_hook w_set_state_hook w_transfer_hook heap set_cell_at]; try done;
    try (rewrite !lookup_insert_ne by lia; done).
  - eapply at_lookup; [done|]. intros b' Hb'. cbn. rewrite !lookup_insert_ne by lia. done.
  - rewrite !lookup_insert_ne by lia. apply lookup_insert.
  - rewrite !lookup_insert_ne by lia. apply lookup_insert.
  - apply lookup_insert.
  - intros t Ht. pose proof (HT t Ht). rewrite !lookup_insert_ne by lia. by apply r_task0.
Qed.
(** changes of the state of a task *)
Lemma state_rel m w t s : rel m w -> In t T ->
  let o := w_tasks w t in let m' := set_cell_at m (Z.to_nat t) [tv (t_fn o); VI s; info t] in
  rel m' (with_tasks w (tput (w_tasks w) t (MkTask (t_fn o) s (t_info o)))) /\ untouched m m' /\ log m' = log m.
Proof.
  intros H Hin o m'. pose proof (HT t Hin) as (Ht & Hc & Hl). split; [|split].
  - destruct H. split; cbn [w_sys with_tasks w_tasks w_call_hook w_set_state_hook w_transfer_hook]; try done;
      try (cbn; rewrite lookup_insert_ne by lia; done).
    + eapply at_lookup; [done|]. intros b Hb. cbn. rewrite lookup_insert_ne by lia. done.
    + intros t' Hin'. unfold task_cells, tput. cbn [heap m' set_cell_at]. destruct (Z.eqb_spec t' t) as [->|Hne].
      * rewrite lookup_insert. cbn. split; [done|]. by apply r_task0.
      * pose proof (HT t' Hin'). rewrite lookup_insert_ne by lia. by apply r_task0.
  - apply untouched_set. right. right. right. eauto.
  - unfold log. cbn. rewrite lookup_insert_ne by done. done.
Qed.

(** ** Runs of the model *)
Definition steps (x : machine) (tr : list (label * list event)) (y : machine) : Prop := mrun cf x (fst <$> tr) = Ok (y, snd <$> tr).
Definition crash (x : machine) : Prop := exists ls, forall y, mrun cf x ls <> Ok y.
Lemma steps_cons x l es tr y z : mstep cf x l = Ok (y, es) -> steps y tr z -> steps x ((l, es) :: tr) z.
Proof. intros E H. unfold steps in *. rewrite fmap_cons. cbn [mrun fst]. rewrite E. cbn [bind]. rewrite H. done. Qed.
Lemma steps_app x t1 y t2 z : steps x t1 y -> steps y t2 z -> steps x (t1 ++ t2) z.
Proof.
  revert x. induction t1 as [|[l es] t1 IH]; intros x H1 H2.
  - unfold steps in H1. cbn in H1. injection H1 as <-. done.
  - unfold steps in H1. rewrite fmap_cons in H1. cbn [mrun fst] in H1. destruct (mstep cf x l) as [[x1 e]| |] eqn:E; cbn [bind] in H1; try done.
    destruct (mrun cf x1 (fst <$> t1)) as [[y1 es1]| |] eqn:E1; cbn [bind] in H1; try done. injection H1 as -> -> ->.
    cbn [app]. eapply steps_cons; [done|]. apply IH; done.
Qed.
Lemma crash_step x l y es : mstep cf x l = Ok (y, es) -> crash y -> crash x.
Proof.
  intros E [ls H]. exists (l :: ls). cbn [mrun]. rewrite E. cbn [bind]. intros [z zs]. destruct (mrun cf y ls) as [v| |] eqn:E1; [exfalso; by apply (H v)|done|done].
Qed.
Lemma crash_steps x tr y : steps x tr y -> crash y -> crash x.
Proof.
  revert x. induction tr as [|[l es] tr IH]; intros x H1 H2.
  - unfold steps in H1. cbn in H1. injection H1 as <-. done.
  - unfold steps in H1. rewrite fmap_cons in H1. cbn [mrun fst] in H1. destruct (mstep cf x l) as [[x1 e]| |] eqn:E; cbn [bind] in H1; try done.
    destruct (mrun cf x1 (fst <$> tr)) as [[y1 es1]| |] eqn:E1; cbn [bind] in H1; try done. injection H1 as -> -> ->.
    eapply crash_step; [done|]. apply IH; done.
Qed.
(** the program is still running when it has written down [k] cells *)
Definition long (k : nat) : Prop := exists l, (k <= 5 * length l)%nat /\ sigma (encs l) <> None.
Lemma long_le a b : (b <= a)%nat -> long a -> long b.
Proof. intros H (l & H1 & H2). exists l. split; [lia|done]. Qed.
Definition len (m : mem) : nat := length (log m).

Definition user_sim (n : nat) (m : mem) (w : W) (r : res mem) : Prop :=
  (r = NoFuel /\ long (5 * n + len m)) \/
  ((r = UB \/ r = NoFuel) /\ forall stk, crash (MkM w stk)) \/
  (exists m2 w2 tr, r = Ok m2 /\ rel m2 w2 /\ log m2 = (log m ++ encs (seen tr))%list /\ untouched m m2 /\ calls_only tr /\
    forall stk, steps (MkM w stk) tr (MkM w2 stk)).
Definition lib_sim (n : nat) (pr : prog sched obs) (m : mem) (r : res (obs * mem)) : Prop :=
  (r = NoFuel /\ long (5 * n + len m)) \/
  ((r = UB \/ r = NoFuel) /\ forall stk, match settle pr stk with Ok (x, _) => crash x | _ => True end) \/
  (exists o m2 w2 e0 tr, r = Ok (o, m2) /\ rel m2 w2 /\
    (log m2 ++ encs [URet o])%list = (log m ++ encs ((seen_ev <$> e0) ++ seen tr))%list /\ untouched m m2 /\ calls_only tr /\
    forall stk, exists x, settle pr stk = Ok (x, e0) /\ steps x tr (MkM w2 stk)).
Lemma ret_sim n o m m2 w2 : rel m2 w2 -> log m2 = log m -> untouched m m2 -> lib_sim n (PRet o w2) m (Ok (o, m2)).
Proof.
  intros H El U. right. right. exists o, m2, w2, [ERet o], []. split; [done|]. split; [done|]. split; [by rewrite El|]. split; [done|].
  split; [constructor|]. intros stk. eexists. split; [reflexivity|done].
Qed.
Lemma ub_sim n m : lib_sim n PUB m UB.
Proof. right. left. split; [by left|]. done. Qed.
Lemma nf_sim n m : lib_sim n PNoFuel m NoFuel.
Proof. right. left. split; [by right|]. done. Qed.
Lemma lib_pre n pr m m' r : lib_sim n pr m' r -> log m' = log m -> untouched m m' -> lib_sim n pr m r.
Proof.
  intros H El U. destruct H as [[-> H]|[H|(o & m2 & w2 & e0 & tr & -> & Hr & Hl & U2 & Hc & Hs)]].
  - left. split; [done|]. unfold len in *. by rewrite <- El.
  - right. by left.
  - right. right. exists o, m2, w2, e0, tr. rewrite El in Hl. split_and!; try done. eapply untouched_trans; done.
Qed.

Section run.
Context (n : nat) (run : mem -> res mem) (Hrun : forall m w, rel m w -> user_sim n m w (run m)).
Notation code := (task_fn run).
Definition u_fn (c : ucall) : Z := match c with UTask f _ | UCallHook f _ | UStateHook f _ _ | UTransferHook f _ => f end.
Definition u_task (c : ucall) : Z := match c with UTask _ t | UCallHook _ t | UStateHook _ t _ | UTransferHook _ t => t end.
Definition u_args (c : ucall) : list val := match c with UStateHook _ t s => [tv t; VI s] | UTask _ t | UCallHook _ t | UTransferHook _ t => [tv t] end.
Lemma code_call c m : 0 <= u_fn c -> 0 <= u_task c ->
  code (tv (u_fn c)) (u_args c) m = let* m1 := run (say (seen_ev (ECall c)) m) in Ok (VI 0, Tvoid, say UReturn m1).
Proof. intros H1 H2. unfold task_fn. destruct c; cbn [u_fn u_task u_args] in *; rewrite !as_task_tv by done; done. Qed.
(** what the call of user code leaves behind *)
Lemma code_rel c m w v t m' : 0 <= u_fn c -> live (u_task c) -> rel m w -> code (tv (u_fn c)) (u_args c) m = Ok (v, t, m') -> exists w', rel m' w'.
Proof.
  intros H1 H2 H E. rewrite code_call in E by (done || by apply live_pos). destruct (say_rel m w (seen_ev (ECall c)) H) as [H3 _].
  destruct (Hrun _ _ H3) as [[Er _]|[[[Er|Er] _]|(m2 & w2 & tr & Er & Hr & _)]]; rewrite Er in E; cbn [bind] in E; try done.
  injection E as <- <- <-. exists w2. by apply say_rel.
Qed.
Lemma call_sim c w m k rest : 0 <= u_fn c -> live (u_task c) -> rel m w ->
  (forall m1 w1, rel m1 w1 -> lib_sim n (k w1) m1 (rest m1)) ->
  lib_sim n (PCall c w k) m (let* '(_, _, m1) := code (tv (u_fn c)) (u_args c) m in rest m1).
Proof.
  intros H1 H2 H Hk. rewrite code_call by (done || by apply live_pos). destruct (say_rel m w (seen_ev (ECall c)) H) as [H3 U3].
  pose proof (say_log (seen_ev (ECall c)) m) as El.
  destruct (Hrun _ _ H3) as [[Er Hl]|[[Er Hc]|(m2 & w2 & tr & Er & Hr & Hl & U2 & Hco & Hs)]].
  - rewrite Er. cbn [bind]. left. split; [done|]. eapply long_le; [|exact Hl]. unfold len. rewrite El, app_length. lia.
  - right. left. split.
    + destruct Er as [Er|Er]; rewrite Er; cbn; [by left|by right].
    + intros stk. cbn [settle]. apply Hc.
  - rewrite Er. cbn [bind]. destruct (say_rel m2 w2 UReturn Hr) as [H4 U4]. pose proof (say_log UReturn m2) as El2.
    destruct (Hk _ _ H4) as [[E Hlo]|[[E Hc]|(o & m5 & w5 & e0 & tr2 & E & Hr5 & Hl5 & U5 & Hco5 & Hs5)]].
    + left. split; [done|]. eapply long_le; [|exact Hlo]. unfold len. rewrite El2, Hl, El, !app_length. lia.
    + right. left. split; [done|]. intros stk. cbn [settle].
      specialize (Hc stk). eapply crash_steps; [apply Hs|].
      destruct (settle (k w2) stk) as [[x e]| |] eqn:Es.
      * eapply (crash_step _ LReturn x e); [|done]. cbn [mstep m_stack m_w]. done.
      * exists [LReturn]. intros y. cbn [mrun mstep m_stack m_w]. rewrite Es. done.
      * exists [LReturn]. intros y. cbn [mrun mstep m_stack m_w]. rewrite Es. done.
    + right. right. exists o, m5, w5, [ECall c], (tr ++ (LReturn, e0) :: tr2)%list. split; [done|]. split; [done|]. split; [|split; [|split]].
      * rewrite Hl5, El2, Hl, El, <- !encs_1. rewrite <- !app_assoc. f_equal. rewrite <- !encs_app. f_equal.
        rewrite seen_app, seen_cons. reflexivity.
      * do 3 (eapply untouched_trans; [done|]). done.
      * apply Forall_app. split; [done|]. constructor; done.
      * intros stk. cbn [settle]. eexists. split; [reflexivity|]. eapply steps_app; [apply Hs|].
        destruct (Hs5 stk) as (x & Es & Hx). eapply steps_cons; [|exact Hx]. cbn [mstep m_stack m_w]. done.
Qed.

Notation CALL := (CLang.call (plat_ cf) P fuel (platform cf cb) code).
Lemma plat_now m now : heap m !! cb = Some [VI now] -> platform cf cb "mu_time_now" [] m = Ok (VI now, Tint false W64, m).
Proof. intros H. unfold platform. cbn [String.eqb Ascii.eqb Bool.eqb]. unfold load_mem. rewrite H. done. Qed.
Lemma plat_prec m a b : platform cf cb "mu_time_precedes" [VI a; VI b] m = Ok (truth (precedes cf a b), Tbool, m).
Proof. done. Qed.
Lemma plat_off m a b : platform cf cb "mu_time_offset" [VI a; VI b] m = Ok (VI (offset cf a b), Tint false W64, m).
Proof. done. Qed.
(** calls of functions that call no user code *)
Lemma simple_sim (f : res (sched_err * sched)) (c : res (val * ty * mem)) m w :
  rel m w -> (forall e s, f = Ok (e, s) -> inv cf live s) ->
  c = (let* '(e, s) := f in Ok (VI (sched_code e), Tint false W32, set_sched m s)) ->
  lib_sim n (simple w f RErr) m (let* '(v, m) := (let* '(v, _, m) := c in Ok (v, m)) in let* e := as_err v in Ok (RErr e, m)).
Proof.
  intros H Hi ->. unfold simple. destruct f as [[e s]| |]; cbn [bind plift]; [|apply ub_sim|apply nf_sim].
  rewrite as_err_code. cbn [bind]. apply ret_sim; [apply set_rel; [done|by eapply Hi]|apply set_log|apply set_untouched].
Qed.
(** mu_task_call, inside any library function *)
Lemma task_call_sim d t w m (F : prog sched unit -> prog sched obs) rest :
  (forall c w k, F (PCall c w k) = PCall c w (fun w => F (k w))) -> live t -> rel m w ->
  (forall m1 w1, rel m1 w1 -> lib_sim n (F (PRet tt w1)) m1 (rest m1)) ->
  lib_sim n (F (mu_task_call t w)) m (let* '(_, _, m1) := CALL (S d) "mu_task_call" [tv t] m in rest m1).
Proof.
  intros HF Hl H Hk. destruct Hl as [->|Hin].
  - rewrite src_call_null. cbn [bind]. by apply Hk.
  - pose proof (HT t Hin) as (Ht & _). unfold mu_task_call. destruct (Z.eqb_spec t NULL) as [->|_]; [unfold NULL in *; lia|]. cbn [negb].
    assert (Hcall : forall m1 w1, rel m1 w1 -> lib_sim n (F (ucallp (UTask (t_fn (w_tasks w1 t)) t) w1)) m1
       (let* '(_, _, m) := code (tv (t_fn (w_tasks w1 t))) [tv t] m1 in rest m)).
    { intros m1 w1 H1. unfold ucallp. rewrite HF. destruct (r_task _ _ H1 t Hin) as [_ Hfn].
      apply (call_sim (UTask (t_fn (w_tasks w1 t)) t)); [cbn; lia|by right|done|]. intros m2 w2 H2. by apply Hk. }
    destruct (r_task _ _ H t Hin) as [Ec Hfn]. unfold task_cells in Ec.
    destruct (Z.eqb_spec (w_call_hook w) NULL) as [E0|E0]; cbn [negb].
    + cbn [pbind]. pose proof (r_h5 _ _ H) as H5. rewrite E0 in H5.
      erewrite src_call_nohook; [|lia|exact H5|exact Ec|apply tv_defined].
      match goal with |- lib_sim _ _ _ ?r => replace r with (let* '(_, _, m1) := code (tv (t_fn (w_tasks w t))) [tv t] m in rest m1)
        by (destruct (code (tv (t_fn (w_tasks w t))) [tv t] m) as [[[? ?] ?]| |]; done) end.
      by apply Hcall.
    + pose proof (r_p5 _ _ H). unfold NULL in *.
      rewrite (src_call_hook cf fuel (platform cf cb) code d m t (w_call_hook w)); [|lia|lia|apply H|].
      * match goal with |- lib_sim _ _ _ ?r => replace r with (let* '(_, _, m1) := code (tv (w_call_hook w)) [tv t] m in
          (let* fn := load_mem m1 (Z.to_nat t) 0 in let* '(_, _, m2) := code fn [tv t] m1 in rest m2)) end.
        2: { destruct (code (tv (w_call_hook w)) [tv t] m) as [[[? ?] m1]| |]; cbn [bind]; [|done|done].
             destruct (load_mem m1 (Z.to_nat t) 0) as [fn| |]; cbn [bind]; [|done|done]. destruct (code fn [tv t] m1) as [[[? ?] ?]| |]; done. }
        unfold ucallp at 1. cbn [pbind]. rewrite HF.
        apply (call_sim (UCallHook (w_call_hook w) t)); [cbn; lia|by right|done|]. intros m1 w1 H1.
        destruct (r_task _ _ H1 t Hin) as [Ec1 Hfn1]. unfold load_mem. rewrite Ec1. cbn [ofopt bind]. unfold task_cells.
        change (ld (?a :: ?b) 0) with (Ok a). cbn [bind]. by apply Hcall.
      * intros v ty m' E. destruct (code_rel (UCallHook (w_call_hook w) t) m w v ty m') as [w' H']; [cbn; lia|by right|done|exact E|].
        destruct (r_task _ _ H' t Hin) as [Ec' _]. do 3 eexists. split; [exact Ec'|apply tv_defined].
Qed.
Lemma op_sim o m w : op_ok o -> rel m w -> lib_sim n (api cf o w) m (src_op code o m).
Proof.
  intros Ho H. pose proof (r_at _ _ H) as Hat. pose proof (r_inv _ _ H) as Hi.
  destruct o as [ | |now|t| | | |t|t|t|t|t at_|t now dt|t|t|t st|a b c]; cbn [op_ok] in Ho; cbn [api src_op].
  - done.
  - unfold sc_unit, sc. rewrite src_reset with (s := w_sys w) by done. cbn [bind].
    apply ret_sim; [apply set_rel; [done|apply inv_reset; [apply L0|done]]|apply set_log|apply set_untouched].
  - destruct (clock_rel m w now H) as (H1 & U1 & El1 & Ec1).
    eapply lib_pre; [|exact El1|exact U1]. unfold sc_unit, sc.
    rewrite (src_step cf fuel (platform cf cb) code cb plat_now plat_prec 0 (set_clock now m) (w_sys w) now) by (done || lia || apply H1).
    unfold mu_sched_step. destruct (step_choose cf now (w_sys w)) as [s1| |] eqn:Es; cbn [bind plift]; [|apply ub_sim|apply nf_sim].
    assert (Hi1 : inv cf live s1) by (eapply inv_step; [apply L0|apply H|done]).
    eapply lib_pre; [|apply set_log|apply set_untouched].
    assert (H2 : rel (set_sched (set_clock now m) s1) (with_sys w s1)) by (by apply set_rel).
    unfold step_tail.
    match goal with |- lib_sim _ _ _ ?r => replace r with (let* '(_, _, m1) := CALL 3 "mu_task_call" [tv (sc_curr s1)] (set_sched (set_clock now m) s1) in
      (let* m := store_mem m1 3 9 (VI 0) in Ok (RUnit, m))) end.
    2: { destruct (CALL 3 "mu_task_call" _ _) as [[[? ?] m1]| |]; cbn [bind]; [|done|done]. destruct (store_mem m1 3 9 (VI 0)); done. }
    apply (task_call_sim 2 _ _ _ (fun a => pmap (pbind a (fun _ w => PRet tt (with_sys w (with_curr (w_sys w) NULL)))) (fun _ => RUnit))); [done|apply Hi1|done|].
    intros m1 w1 H3. cbn [pbind pmap]. unfold store_mem. rewrite (sa_obj _ _ _ (r_at _ _ H3)). cbn [ofopt bind].
    unfold scells at 1. rewrite st_ok by (cbn [List.length]; lia). cbn [bind].
    match goal with |- lib_sim _ _ _ (Ok (_, ?mm)) => replace mm with (set_sched m1 (with_curr (w_sys w1) NULL)) end.
    2: { symmetry. apply set_make; [done|..].
         - cbn [heap]. rewrite lookup_insert_ne by done. apply (r_at _ _ H3).
         - cbn [heap]. rewrite lookup_insert_ne by done. apply (r_at _ _ H3).
         - cbn [heap]. rewrite lookup_insert_ne by done. apply (r_at _ _ H3).
         - cbn [heap]. rewrite lookup_insert. reflexivity.
         - intros b Hb. cbn [heap]. rewrite lookup_insert_ne by lia. done. }
    apply ret_sim; [apply set_rel; [done|apply inv_curr; [apply H3|apply L0]]|apply set_log|apply set_untouched].
  - unfold sc_unit, sc. rewrite src_set_idle with (s := w_sys w) by done. cbn [bind].
    apply ret_sim; [apply set_rel; [done|by apply inv_idle]|apply set_log|apply set_untouched].
  - unfold sc_task, sc. rewrite src_get_idle with (s := w_sys w) by done. cbn [bind]. rewrite as_task_tv by apply live_pos, Hi. cbn [bind]. by apply ret_sim.
  - unfold sc_task, sc. rewrite src_current with (s := w_sys w) by done. cbn [bind]. rewrite as_task_tv by apply live_pos, Hi. cbn [bind]. by apply ret_sim.
  - unfold sc_task, sc. rewrite src_next_task with (s := w_sys w) by done.
    destruct (mu_sched_next_task cf (w_sys w)) as [t| |] eqn:E; cbn [bind plift]; [|apply ub_sim|apply nf_sim].
    assert (live t) as Ht.
    { unfold mu_sched_next_task in E. destruct (next_deferred_task _ _); [|injection E as <-; apply L0].
      destruct (ld _ _) as [e| |] eqn:El; cbn [bind] in E; try done. injection E as <-. apply (ld_Forall (fun e => live (snd e)) _ _ _ El). apply Hi. }
    rewrite as_task_tv by (by apply live_pos). cbn [bind]. by apply ret_sim.
  - unfold sc_err, sc. rewrite src_wait. cbn [bind as_err]. by apply ret_sim.
  - unfold sc_err, sc. rewrite src_transfer. rewrite src_transfer_hook with (h := w_transfer_hook w) by apply H.
    unfold mu_sched_transfer, mu_task_call_transfer_hook.
    assert (Hend : forall m1 w1, rel m1 w1 -> lib_sim n (pmap (plift (mu_sched_immed cf t (w_sys w1)) (fun '(e, s) => PRet e (with_sys w1 s))) RErr) m1
       (let* '(v, m) := (let* '(v, _, m) := (let* '(v, _, m) := CALL 3 "mu_sched_immed" [tv t] m1 in let* v := conv (plat_ cf) (Tint false W32) v in Ok (v, Tint false W32, m)) in Ok (v, m)) in
        let* e := as_err v in Ok (RErr e, m))).
    { intros m1 w1 H1. rewrite src_immed with (s := w_sys w1) by apply H1. destruct (mu_sched_immed cf t (w_sys w1)) as [[e s]| |] eqn:E; cbn [bind plift]; [|apply ub_sim|apply nf_sim].
      replace (conv (plat_ cf) (Tint false W32) (VI (sched_code e))) with (Ok (VI (sched_code e)) : res val) by (destruct e; reflexivity).
      cbn [bind]. rewrite as_err_code. cbn [bind pmap pbind].
      apply ret_sim; [apply set_rel; [done|eapply inv_immed; [apply H1|done|done]]|apply set_log|apply set_untouched]. }
    destruct (Z.eqb_spec (w_transfer_hook w) NULL) as [E0|E0]; cbn [negb].
    + rewrite E0. cbn [Z.eqb]. cbn [bind pbind]. by apply Hend.
    + destruct (Z.eqb_spec (w_transfer_hook w) 0); [done|].
      pose proof (r_p6 _ _ H).
      match goal with |- lib_sim _ _ _ ?r => replace r with (let* '(_, _, m1) := code (tv (w_transfer_hook w)) [tv t] m in
        (let* '(v, m) := (let* '(v, _, m) := (let* '(v, _, m) := CALL 3 "mu_sched_immed" [tv t] m1 in let* v := conv (plat_ cf) (Tint false W32) v in Ok (v, Tint false W32, m)) in Ok (v, m)) in
        let* e := as_err v in Ok (RErr e, m)))
        by (destruct (code (tv (w_transfer_hook w)) [tv t] m) as [[[? ?] ?]| |]; done) end.
      unfold ucallp. cbn [pbind pmap].
      apply (call_sim (UTransferHook (w_transfer_hook w) t)); [done|done|done|]. intros m1 w1 H1. by apply Hend.
  - apply simple_sim; [done|intros e s; by apply inv_immed|]. by apply src_immed.
  - apply simple_sim; [done|intros e s; by apply inv_from_isr|]. by apply src_from_isr.
  - destruct Ho as [Ht Ha]. apply simple_sim; [done|intros e s E; eapply inv_defer; [|done|exact E]; done|]. exact (src_defer_until cf fuel (platform cf cb) code plat_prec Hint Hsize 1 m (w_sys w) t at_ Hat Ha Hfuel).
  - destruct Ho as (Ht & Hn & Hdt). destruct (clock_rel m w now H) as (H1 & U1 & El1 & Ec1).
    eapply lib_pre; [|exact El1|exact U1].
    apply simple_sim; [done|intros e s E; eapply inv_defer; [|done|exact E]; done|]. exact (src_defer_for cf fuel (platform cf cb) code cb plat_now plat_prec plat_off Hint Hsize 1 (set_clock now m) (w_sys w) t now dt (r_at _ _ H1) Ec1 Hdt (Hoff now dt) Hfuel).
  - apply simple_sim; [done|intros e s; by apply inv_remove|]. apply (src_remove cf fuel (platform cf cb) code Hsize 3 m (w_sys w) t); [done|..|done].
    + by apply live_pos.
    + eapply Forall_impl; [apply Hi|]. intros x. apply live_pos.
  - unfold sc_unit, sc. unfold pmap.
    match goal with |- lib_sim _ _ _ ?r => replace r with (let* '(_, _, m1) := CALL 4 "mu_task_call" [tv t] m in Ok (RUnit, m1))
      by (destruct (CALL 4 "mu_task_call" [tv t] m) as [[[? ?] ?]| |]; done) end.
    apply (task_call_sim 3 t w m (fun a => pbind a (fun _ w => PRet RUnit w)) (fun m => Ok (RUnit, m))); [done|done|done|].
    intros m1 w1 H1. by apply ret_sim.
  - destruct Ho as [Ht Hs]. unfold sc_task, sc. unfold mu_task_set_state. destruct Ht as [->|Hin].
    { rewrite src_set_state_null by done. cbn [negb Z.eqb]. cbn [bind as_task]. by apply ret_sim. }
    pose proof (HT t Hin) as (Ht & _). destruct (Z.eqb_spec t NULL) as [->|_]; [unfold NULL in *; lia|]. cbn [negb].
    destruct (r_task _ _ H t Hin) as [Ec Hfn]. unfold task_cells in Ec.
    destruct (Z.eqb_spec (w_set_state_hook w) NULL) as [E0|E0]; cbn [negb].
    + pose proof (r_h4 _ _ H) as H4. rewrite E0 in H4.
      erewrite src_set_state_nohook; [|lia|exact H4|exact Ec|done]. cbn [bind]. rewrite as_task_tv by lia. cbn [bind pbind pmap].
      destruct (state_rel m w t st H Hin) as (H1 & U1 & El1). by apply ret_sim.
    + pose proof (r_p4 _ _ H). unfold NULL in *.
      rewrite (src_set_state_hook cf fuel (platform cf cb) code 3 m t (w_set_state_hook w)); [|lia|lia|apply H|done|].
      * match goal with |- lib_sim _ _ _ ?r => replace r with (let* '(_, _, m1) := code (tv (w_set_state_hook w)) [tv t; VI st] m in
          (let* m := store_mem m1 (Z.to_nat t) 1 (VI st) in Ok (RTask t, m))) end.
        2: { destruct (code (tv (w_set_state_hook w)) [tv t; VI st] m) as [[[? ?] m1]| |]; cbn [bind]; [|done|done].
             destruct (store_mem m1 (Z.to_nat t) 1 (VI st)) as [m2| |]; cbn [bind]; [|done|done]. rewrite as_task_tv by lia. done. }
        unfold ucallp. cbn [pbind pmap].
        apply (call_sim (UStateHook (w_set_state_hook w) t st)); [cbn; lia|by right|done|]. intros m1 w1 H1.
        destruct (r_task _ _ H1 t Hin) as [Ec1 Hfn1]. unfold store_mem. rewrite Ec1. cbn [ofopt bind]. unfold task_cells.
        rewrite st_ok by (cbn [List.length]; lia). cbn [bind].
        destruct (state_rel m1 w1 t st H1 Hin) as (H2 & U2 & El2). by apply ret_sim.
      * intros v ty m' E. destruct (code_rel (UStateHook (w_set_state_hook w) t st) m w v ty m') as [w' H']; [cbn; lia|by right|done|exact E|].
        destruct (r_task _ _ H' t Hin) as [Ec' _]. do 3 eexists. exact Ec'.
  - destruct Ho as (Ha & Hb & Hc). unfold sc_unit, sc.
    erewrite src_install_state by apply H. cbn [bind].
    erewrite src_install_call by (cbn; rewrite lookup_insert_ne by done; apply H). cbn [bind].
    erewrite src_install_transfer by (cbn; rewrite !lookup_insert_ne by done; apply H). cbn [bind].
    apply ret_sim; [by apply (hook_rel m w a b c)|rewrite !cell_log by lia; done|].
    eapply untouched_trans; [|apply cell_untouched; lia]. eapply untouched_trans; apply cell_untouched; lia.
Qed.
End run.

Lemma body_sim : (forall l o, sigma l = Some o -> op_ok o) -> forall n m w, rel m w -> user_sim n m w (src_body n m).
Proof.
  intros Hok. induction n as [|n IH]; intros m w H; cbn [src_body].
  - destruct (sigma (log m)) eqn:Es.
    + left. split; [done|]. destruct (r_log _ _ H) as [l E]. exists l. unfold len, log in *. rewrite E in *. rewrite encs_length. split; [lia|congruence].
    + right. right. exists m, w, []. split; [done|]. split; [done|]. split; [by rewrite app_nil_r|]. split; [done|]. split; [constructor|]. done.
  - destruct (sigma (log m)) as [o|] eqn:Es.
    2: { right. right. exists m, w, []. split; [done|]. split; [done|]. split; [by rewrite app_nil_r|]. split; [done|]. split; [constructor|]. done. }
    destruct (say_rel m w (UOp o) H) as [H1 U1]. pose proof (say_log (UOp o) m) as El1.
    destruct (op_sim n (src_body n) IH o _ _ (Hok _ _ Es) H1) as [[Er Hl]|[[Er Hc]|(r & m2 & w2 & e0 & tr & Er & Hr & Hl & U2 & Hco & Hs)]].
    + rewrite Er. left. split; [done|]. eapply long_le; [|exact Hl]. unfold len. rewrite El1, app_length, enc_length. lia.
    + right. left. split.
      * destruct Er as [Er|Er]; rewrite Er; [by left|by right].
      * intros stk. specialize (Hc stk). destruct (settle (api cf o w) stk) as [[x e]| |] eqn:E.
        -- eapply (crash_step _ (LOp o) x e); [exact E|done].
        -- exists [LOp o]. intros y. cbn [mrun mstep m_stack m_w]. rewrite E. done.
        -- exists [LOp o]. intros y. cbn [mrun mstep m_stack m_w]. rewrite E. done.
    + rewrite Er. cbn [bind]. destruct (say_rel m2 w2 (URet r) Hr) as [H3 U3]. pose proof (say_log (URet r) m2) as El3.
      rewrite <- encs_1, Hl in El3.
      assert (Hst : forall stk, steps (MkM w stk) ((LOp o, e0) :: tr) (MkM w2 stk)).
      { intros stk. destruct (Hs stk) as (x & E & Hx). eapply steps_cons; [exact E|exact Hx]. }
      destruct (IH _ _ H3) as [[E4 Hl4]|[[E4 Hc]|(m4 & w4 & tr4 & E4 & H4 & Hl4 & U4 & Hco4 & Hs4)]].
      * left. split; [done|]. eapply long_le; [|exact Hl4]. unfold len. rewrite El3, El1, !app_length, enc_length. lia.
      * right. left. split; [done|]. intros stk. eapply crash_steps; [apply Hst|apply Hc].
      * right. right. exists m4, w4, (((LOp o, e0) :: tr) ++ tr4)%list. split; [done|]. split; [done|]. split; [|split; [|split]].
        -- rewrite Hl4, El3, El1, <- encs_1. rewrite <- !app_assoc. f_equal. rewrite <- !encs_app. f_equal.
           rewrite seen_app, seen_cons. cbn [seen_label]. rewrite <- !app_assoc. reflexivity.
        -- do 3 (eapply untouched_trans; [done|]). done.
        -- apply Forall_app. split; [|done]. constructor; done.
        -- intros stk. eapply steps_app; [apply Hst|apply Hs4].
Qed.
End source.

(** ** C114.  In any memory in which the objects of mu_sched.c and mu_task.c are as at power-up and the tasks [T] are
    the objects with function, state and user data as given by [tm] and [info]: after [mu_sched_init], the program
    [sigma] - main code, tasks and hooks, which call the scheduler again to any depth - never meets undefined
    behaviour.  If it stops, what it has written down is what it sees of a history of the specification of the
    scheduler, and no object other than those of the library, the clock, the log and the states of the tasks is
    changed. *)
Definition source_ok (cf : config) (fuel cb lb : nat) (T : list Z) (info : Z -> val) (tm : Z -> task) (m : mem) : Prop :=
  config_ok cf /\ (exists k, 1 <= k /\ MAX_IRQ cf = 2 ^ k) /\ MAX_DEFERRED cf * (8 + ptr_bytes (plat_ cf)) < size_mod (plat_ cf) /\
  (forall a b, time (offset cf a b)) /\ (Z.to_nat (MAX_DEFERRED cf) < fuel)%nat /\
  (6 < cb)%nat /\ (6 < lb)%nat /\ cb <> lb /\
  (forall t, In t T -> 6 < t /\ Z.to_nat t <> cb /\ Z.to_nat t <> lb /\
     heap m !! Z.to_nat t = Some (task_cells info tm t) /\ 0 < t_fn (tm t)) /\
  power_up cf m /\ heap m !! 4%nat = Some [VI 0] /\ heap m !! 5%nat = Some [VI 0] /\ heap m !! 6%nat = Some [VI 0] /\ heap m !! lb = Some [].
Lemma init_sim cf fuel cb lb T info tm m code : source_ok cf fuel cb lb T info tm m ->
  let s := mu_sched_init cf (sched_static cf) in
  sc cf fuel cb code "mu_sched_init" [] m = Ok (VI 0, set_sched m s) /\ rel cf lb T info (set_sched m s) (MkW tm 0 0 0 s) /\
  untouched cb lb T m (set_sched m s) /\ log lb (set_sched m s) = [].
Proof.
  intros (Hcf & (k & Hk & Ek) & Hsz & Ho & Hf & Hc & Hl & Hcl & HT & Hpu & H4 & H5 & H6 & H7) s.
  pose proof Hcf as (HD & HI & HM & HV).
  assert (HM' : 0 <= MAX_IMMED cf < size_mod (plat_ cf)) by (destruct HV; unfold size_max in *; destruct (plat_ cf); cbn in *; lia).
  assert (HD' : 0 <= MAX_DEFERRED cf < size_mod (plat_ cf)) by (destruct (plat_ cf); cbn in *; lia).
  destruct (src_init cf fuel (platform cf cb) code 1 m k Hpu Hk Ek ltac:(lia) HM' HD') as [E Hok]. fold s in E, Hok.
  split; [unfold sc; rewrite E; done|]. split; [|split].
  - split; cbn [w_sys w_tasks w_set_state_hook w_call_hook w_transfer_hook]; try done; try (rewrite set_other by lia; done).
    + by apply set_at.
    + apply inv_init; [by left|done].
    + exists []. rewrite set_other by lia. done.
    + intros t Ht. pose proof (HT t Ht). rewrite set_other by lia. tauto.
  - split; [done|]. intros b Hb. apply set_other. destruct (decide (3 < b)%nat); [done|]. exfalso. apply Hb. left. lia.
  - unfold log. rewrite set_other by lia. rewrite H7. done.
Qed.
Theorem C114_source_sched : forall cf fuel cb lb T info tm sigma m n,
  source_ok cf fuel cb lb T info tm m -> (forall l o, sigma l = Some o -> op_ok T o) ->
  exists m1, sc cf fuel cb (fun _ _ _ => UB) "mu_sched_init" [] m = Ok (VI 0, m1) /\
  (src_body cf fuel cb lb sigma n m1 = NoFuel \/
   exists m2 tr, src_body cf fuel cb lb sigma n m1 = Ok m2 /\
     heap m2 !! lb = Some (encs (seen tr)) /\ calls_only tr /\
     snd <$> tr = snd (arun cf (by_time (precedes cf)) (astate0 tm) (fst <$> tr)) /\
     untouched cb lb T m m2 /\
     forall t, In t T -> heap m2 !! Z.to_nat t = Some (task_cells info (w_tasks (as_w (after cf (by_time (precedes cf)) tm (fst <$> tr)))) t)).
Proof.
  intros cf fuel cb lb T info tm sigma m n Hs Hok.
  destruct (init_sim _ _ _ _ _ _ _ _ (fun _ _ _ => UB) Hs) as (E & Hr & U & El). eexists. split; [exact E|].
  destruct Hs as (Hcf & (k & Hk & Ek) & Hsz & Ho & Hf & Hc & Hl & Hcl & HT & Hpu & H4 & H5 & H6 & H7).
  pose proof Hcf as (HD & HI & HM & HV).
  assert (HT' : forall t, In t T -> 6 < t /\ Z.to_nat t <> cb /\ Z.to_nat t <> lb) by (intros t Ht; pose proof (HT t Ht); tauto).
  destruct (body_sim cf fuel cb lb T info sigma Hc Hl Hcl HT' ltac:(lia) Hsz Ho Hf Hok n _ _ Hr)
    as [[Er _]|[[Er Hcr]|(m2 & w2 & tr & Er & Hr2 & Hl2 & U2 & Hco & Hst)]].
  - left. done.
  - exfalso. destruct (Hcr []) as [ls Hls]. destruct (run_ok cf tm Hcf ls) as (x & Ex & _). by apply (Hls (x, snd (arun cf (by_time (precedes cf)) (astate0 tm) ls))).
  - right. exists m2, tr. split; [done|]. rewrite El in Hl2.
    specialize (Hst []). unfold steps in Hst. destruct (run_ok cf tm Hcf (fst <$> tr)) as (x & Ex & Hm).
    change (machine0 cf tm) with (MkM (MkW tm 0 0 0 (mu_sched_init cf (sched_static cf))) []) in Ex. rewrite Hst in Ex. injection Ex as <- Ex.
    split; [|split; [done|split; [done|split; [by eapply untouched_trans|]]]].
    + destruct (r_log _ _ _ _ _ _ Hr2) as [l El2]. unfold log in Hl2. rewrite El2 in Hl2 |- *. cbn in Hl2. by rewrite Hl2.
    + intros t Ht. destruct (r_task _ _ _ _ _ _ Hr2 t Ht) as [Ec _]. rewrite Ec. destruct Hm as ((Hw & _) & _). cbn [m_w] in Hw. by rewrite Hw.
Qed.
Print Assumptions C114_source_sched.
(** ... and a program that stops after some number of events is executed completely *)
Theorem C114_source_completes : forall cf fuel cb lb T info tm sigma m N,
  source_ok cf fuel cb lb T info tm m -> (forall l o, sigma l = Some o -> op_ok T o) ->
  (forall l, (N <= length l)%nat -> sigma (encs l) = None) ->
  exists m1 m2, sc cf fuel cb (fun _ _ _ => UB) "mu_sched_init" [] m = Ok (VI 0, m1) /\ src_body cf fuel cb lb sigma (S N) m1 = Ok m2.
Proof.
  intros cf fuel cb lb T info tm sigma m N Hs Hok HN.
  destruct (C114_source_sched cf fuel cb lb T info tm sigma m (S N) Hs Hok) as (m1 & E & Hb).
  destruct (init_sim _ _ _ _ _ _ _ _ (fun _ _ _ => UB) Hs) as (E' & Hr & U & El). rewrite E' in E. injection E as <-.
  destruct Hs as (Hcf & (k & Hk & Ek) & Hsz & Ho & Hf & Hc & Hl & Hcl & HT & Hpu & H4 & H5 & H6 & H7).
  pose proof Hcf as (HD & HI & HM & HV).
  assert (HT' : forall t, In t T -> 6 < t /\ Z.to_nat t <> cb /\ Z.to_nat t <> lb) by (intros t Ht; pose proof (HT t Ht); tauto).
  destruct (body_sim cf fuel cb lb T info sigma Hc Hl Hcl HT' ltac:(lia) Hsz Ho Hf Hok (S N) _ _ Hr)
    as [[Er (l & Hl1 & Hl2)]|[[Er Hcr]|(m2 & w2 & tr & Er & _)]].
  - exfalso. apply Hl2. apply HN. lia.
  - exfalso. destruct (Hcr []) as [ls Hls]. destruct (run_ok cf tm Hcf ls) as (x & Ex & _). by apply (Hls (x, snd (arun cf (by_time (precedes cf)) (astate0 tm) ls))).
  - eexists _, m2. split; [exact E'|done].
Qed.
Print Assumptions C114_source_completes.

(** the hypotheses are met, and the source can be run: a call hook (9), a task (100, function 7) that is deferred and
    schedules another (200, function 8), which changes its own state *)
Definition src_cf : config := MkConfig P32 2 4 2 Z.ltb (fun a b => (a + b) mod 18446744073709551616).
Definition src_sigma (l : list val) : option op :=
  match (length l / 5)%nat with
  | 0%nat => Some (OHooks 0 9 0) | 2%nat => Some (ODefer 100 5) | 4%nat => Some (OStep 10) | 8%nat => Some (OImmed 200)
  | 12%nat => Some (OStep 11) | 16%nat => Some (OSetState 200 3) | 20%nat => Some (OStep 12) | _ => None
  end.
Definition src_tm (t : Z) : task := MkTask (if t =? 100 then 7 else 8) 0 0.
Definition src_mem : mem :=
  MkMem (<[0%nat := replicate 4 (VI 0)]> (<[1%nat := replicate 2 (VI 0)]> (<[2%nat := replicate 4 (VI 0)]> (<[3%nat := replicate 11 (VI 0)]>
    (<[4%nat := [VI 0]]> (<[5%nat := [VI 0]]> (<[6%nat := [VI 0]]> (<[11%nat := []]>
    (<[100%nat := [VP 7 0; VI 0; VU]]> (<[200%nat := [VP 8 0; VI 0; VU]]> ∅)))))))))) 300.
Example C114_example :
  (let* '(_, m) := sc src_cf 5 10 (fun _ _ _ => UB) "mu_sched_init" [] src_mem in
   let* m := src_body src_cf 5 10 11 src_sigma 20 m in Ok (heap m !! 11%nat, heap m !! 200%nat)) =
  Ok (Some (encs [UOp (OHooks 0 9 0); URet RUnit; UOp (ODefer 100 5); URet (RErr SCHED_NONE);
    UOp (OStep 10); UEnter 9 100; UReturn; UEnter 7 100; UOp (OImmed 200); URet (RErr SCHED_NONE); UReturn; URet RUnit;
    UOp (OStep 11); UEnter 9 200; UReturn; UEnter 8 200; UOp (OSetState 200 3); URet (RTask 200); UReturn; URet RUnit;
    UOp (OStep 12); URet RUnit]), Some [VP 8 0; VI 3; VU]).
Proof. vm_compute. reflexivity. Qed.
Example C114_example_hyps : source_ok src_cf 5 10 11 [100; 200] (fun _ => VU) src_tm src_mem /\
  (forall l o, src_sigma l = Some o -> op_ok [100; 200] o).
Proof.
  split.
  - split; [unfold config_ok, valid_cap, int_max; vm_compute; intuition (try congruence)|]. split; [exists 2; split; [lia|reflexivity]|].
    split; [vm_compute; reflexivity|]. split; [intros a b; cbn; apply Z.mod_pos_bound; lia|]. split; [vm_compute; lia|].
    split; [lia|]. split; [lia|]. split; [done|]. split.
    + intros t [<-|[<-|[]]]; vm_compute; intuition congruence.
    + split; [split; [reflexivity..|eexists; split; reflexivity]|]. vm_compute. done.
  - intros l o. unfold src_sigma. generalize (length l / 5)%nat. intros k H.
    do 21 (destruct k as [|k]; [first [discriminate H | injection H as <-; cbn; unfold live, time, In; lia]|]). discriminate H.
Qed.
