(** * Properties of mu_log: C57, C58 *)
From Verif Require Import CSem FifoSpec LogModel.

(** ** Specification, from the history alone (newest label last) *)
(** threshold in force: the last one set; TRACE if none was set *)
Fixpoint threshold_after (t : Z) (h : list llabel) : Z :=
  match h with
  | [] => t
  | LCall (LInit t' _) :: h | LCall (LSetThreshold t') :: h => threshold_after t' h
  | _ :: h => threshold_after t h
  end.
(** function installed: the last one set; none if none was set *)
Fixpoint function_after (f : Z) (h : list llabel) : Z :=
  match h with
  | [] => f
  | LCall (LInit _ f') :: h | LCall (LSetFn f') :: h => function_after f' h
  | _ :: h => function_after f h
  end.
(** the calls and what they did *)
Definition logged (l : llabel) (e : list lev) : option Z :=
  match l, e with LCall (LLog lv _ _), [LEnter _ _ _] => Some lv | _, _ => None end.
(** level of the last mu_log call that called the logging function *)
Fixpoint last_logged (d : Z) (z : list (llabel * list lev)) : Z :=
  match z with
  | [] => d
  | (l, e) :: z => last_logged (match logged l e with Some lv => lv | None => d end) z
  end.
Definition level_ok (l : llabel) : Prop :=
  match l with LCall (LName x) => 0 <= x <= uint_max | _ => True end.

Lemma name_ok p x : 0 <= x <= uint_max -> exists s, mu_log_level_name p x = Ok s.
Proof.
  intros Hx. unfold mu_log_level_name. unfold uint_max in Hx. pose proof (size_mod_big p). rewrite to_size_id by lia.
  assert (N_LOG_LEVELS p = 6) as -> by by destruct p. zb; [|eauto].
  destruct (ld_ex s_level_names x) as (s & _ & E); [simpl; lia|]. eauto.
Qed.
Lemma lrun_inv p : forall h s n, Forall level_ok h ->
  exists s' n' es, lrun p s n h = Ok (s', n', es) /\ List.length es = List.length h /\
    s_reporting_threshold s' = threshold_after (s_reporting_threshold s) h /\
    s_logging_fn s' = function_after (s_logging_fn s) h /\
    s_reporting_level s' = last_logged (s_reporting_level s) (combine h es).
Proof.
  induction h as [|l h IH]; intros s n Hok; cbn [lrun].
  - eexists _, _, _. done.
  - inversion Hok as [|? ? Hl Hh]; subst.
    assert (exists s1 n1 e, lstep p s n l = Ok (s1, n1, e) /\
      (forall h', threshold_after (s_reporting_threshold s) (l :: h') = threshold_after (s_reporting_threshold s1) h') /\
      (forall h', function_after (s_logging_fn s) (l :: h') = function_after (s_logging_fn s1) h') /\
      (forall z, last_logged (s_reporting_level s) ((l, e) :: z) = last_logged (s_reporting_level s1) z))
      as (s1 & n1 & e & E & H1 & H2 & H3).
    { destruct l as [[]|]; cbn [lstep]; try (eexists _, _, _; done).
      - destruct (name_ok p l Hl) as (x & ->). eexists _, _, _; done.
      - unfold mu_log. destruct (_ && _); eexists _, _, _; done.
      - destruct n; eexists _, _, _; done. }
    rewrite E. cbn [bind]. destruct (IH s1 n1 Hh) as (s' & n' & es & -> & HL & HT & HF & HR). cbn [bind].
    eexists _, _, _. split; [done|]. rewrite H1, H2. split; [simpl; lia|]. split; [done|]. split; [done|].
    cbn [combine]. by rewrite H3.
Qed.
Lemma lrun_app p : forall h1 s n h2 s1 n1 e1, lrun p s n h1 = Ok (s1, n1, e1) ->
  lrun p s n (h1 ++ h2) = (let* '(s2, n2, e2) := lrun p s1 n1 h2 in Ok (s2, n2, e1 ++ e2)).
Proof.
  induction h1 as [|l h1 IH]; intros s n h2 s1 n1 e1 H; cbn [lrun app] in *.
  - injection H as <- <- <-. destruct (lrun p s n h2) as [[[]]| |]; done.
  - destruct (lstep p s n l) as [[[s' n'] e]| |]; try discriminate. cbn [bind] in *.
    destruct (lrun p s' n' h1) as [[[s'' n''] es]| |] eqn:E; try discriminate. cbn [bind] in H. injection H as <- <- <-.
    rewrite (IH _ _ _ _ _ _ E). destruct (lrun p s'' n'' h2) as [[[]]| |]; done.
Qed.

(** *** C57.  After any history (calls from inside the logging function included), mu_log
    calls exactly the installed function, exactly once, with the caller's format and
    arguments, if its level is at or above the threshold and a function is installed, and
    otherwise does nothing at all. *)
Theorem C57_gating_partial : forall p h l fmt args, Forall level_ok h ->
  exists s n es s', lrun p lstate0 0 h = Ok (s, n, es) /\
    let installed := function_after NULL h in
    if decide (threshold_after MU_LOG_LEVEL_TRACE h <= l /\ installed <> NULL)
    then lstep p s n (LCall (LLog l fmt args)) = Ok (s', S n, [LEnter installed fmt args])
    else lstep p s n (LCall (LLog l fmt args)) = Ok (s, n, [LReturned]).
Proof.
  intros p h l fmt args Hh. destruct (lrun_inv p h lstate0 0 Hh) as (s & n & es & E & _ & HT & HF & _).
  eexists s, n, es, _. split; [done|]. cbn zeta. change (s_logging_fn lstate0) with NULL in HF.
  change (s_reporting_threshold lstate0) with MU_LOG_LEVEL_TRACE in HT. rewrite <- HT, <- HF.
  cbn [lstep]. unfold mu_log, mu_log_is_reporting.
  destruct (decide _) as [[H1 H2]|Hn].
  - replace (s_reporting_threshold s <=? l) with true by (symmetry; lia).
    replace (s_logging_fn s =? NULL) with false by (symmetry; lia). done.
  - destruct (Z.leb_spec (s_reporting_threshold s) l); [|done].
    destruct (Z.eqb_spec (s_logging_fn s) NULL); [done|]. exfalso. apply Hn. done.
Qed.
Print Assumptions C57_gating_partial.

(** mu_log_is_reporting predicts it *)
Theorem C57_is_reporting : forall p h l, Forall level_ok h ->
  exists s n es, lrun p lstate0 0 h = Ok (s, n, es) /\
    lstep p s n (LCall (LIsReporting l)) = Ok (s, n, [LBool (bool_decide (threshold_after MU_LOG_LEVEL_TRACE h <= l))]) /\
    lstep p s n (LCall LGetThreshold) = Ok (s, n, [LNum (threshold_after MU_LOG_LEVEL_TRACE h)]) /\
    lstep p s n (LCall LGetFn) = Ok (s, n, [LNum (function_after NULL h)]).
Proof.
  intros p h l Hh. destruct (lrun_inv p h lstate0 0 Hh) as (s & n & es & E & _ & HT & HF & _).
  eexists s, n, es. split; [done|]. change (s_logging_fn lstate0) with NULL in HF.
  change (s_reporting_threshold lstate0) with MU_LOG_LEVEL_TRACE in HT. rewrite <- HT, <- HF.
  split; [|done]. cbn [lstep]. unfold mu_log_is_reporting. do 4 f_equal.
  destruct (Z.leb_spec (s_reporting_threshold s) l); [rewrite bool_decide_eq_true_2|rewrite bool_decide_eq_false_2]; done || lia.
Qed.
Print Assumptions C57_is_reporting.

(** mu_log_get_reporting_level returns the level of the last mu_log call that called a
    logging function: in particular, throughout that call as long as the logging function
    does not itself log. *)
Theorem C57_reporting_level : forall p h, Forall level_ok h ->
  exists s n es, lrun p lstate0 0 h = Ok (s, n, es) /\ List.length es = List.length h /\
    lstep p s n (LCall LGetLevel) = Ok (s, n, [LNum (last_logged MU_LOG_LEVEL_TRACE (combine h es))]).
Proof.
  intros p h Hh. destruct (lrun_inv p h lstate0 0 Hh) as (s & n & es & E & HL & _ & _ & HR).
  exists s, n, es. split; [done|]. split; [done|]. cbn [lstep]. unfold mu_log_get_reporting_level. by rewrite HR.
Qed.
Print Assumptions C57_reporting_level.

Lemma last_logged_app : forall z1 d z2, last_logged d (z1 ++ z2) = last_logged (last_logged d z1) z2.
Proof. induction z1 as [|[l e] z1 IH]; intros d z2; [done|]. simpl. apply IH. Qed.

Theorem C57_level_during_call_partial : forall p h l fmt args h2,
  Forall level_ok (h ++ LCall (LLog l fmt args) :: h2) ->
  threshold_after MU_LOG_LEVEL_TRACE h <= l -> function_after NULL h <> NULL ->
  (* the logging function and its callers do not log in h2 *)
  Forall (fun o => forall l' fmt' args', o <> LCall (LLog l' fmt' args')) h2 ->
  exists s n es, lrun p lstate0 0 (h ++ LCall (LLog l fmt args) :: h2) = Ok (s, n, es) /\
    lstep p s n (LCall LGetLevel) = Ok (s, n, [LNum l]).
Proof.
  intros p h l fmt args h2 Hok Ht Hf H2. apply Forall_app in Hok as Hok'. destruct Hok' as [Hh Hh2].
  destruct (C57_gating_partial p h l fmt args Hh) as (s0 & n0 & es0 & s0' & E0 & Hstep). cbn zeta in Hstep.
  rewrite decide_True in Hstep by done.
  destruct (C57_reporting_level p _ Hok) as (s & n & es & E & HL & HG). exists s, n, es. split; [done|]. rewrite HG.
  rewrite (lrun_app _ _ _ _ _ _ _ _ E0) in E. cbn [lrun] in E. rewrite Hstep in E. cbn [bind] in E.
  destruct (lrun p s0' (S n0) h2) as [[[s2 n2] e2]| |] eqn:E2; try discriminate. cbn [bind] in E. injection E as <- <- <-.
  destruct (lrun_inv p h lstate0 0 Hh) as (? & ? & ? & E0' & HL0 & _). rewrite E0 in E0'. injection E0' as <- <- <-.
  do 4 f_equal.
  assert (Hc : combine (h ++ LCall (LLog l fmt args) :: h2) (es0 ++ [LEnter (function_after NULL h) fmt args] :: e2) =
          combine h es0 ++ (LCall (LLog l fmt args), [LEnter (function_after NULL h) fmt args]) :: combine h2 e2).
  { clear -HL0. generalize (function_after NULL h). intros f. revert es0 HL0. induction h as [|x h IH]; intros [|y es0] HL0; simpl in HL0; try lia; [done|]. simpl. rewrite IH; [done|lia]. }
  rewrite Hc, last_logged_app. cbn [last_logged logged].
  clear -H2. revert e2. induction H2 as [|o h2 Ho _ IH]; intros [|e e2]; try done. cbn [combine last_logged].
  replace (logged o e) with (@None Z); [apply IH|]. destruct o as [[]|]; try done. exfalso. by eapply Ho.
Qed.
Print Assumptions C57_level_during_call_partial.

(** The full claim fails: a logging function that itself logs finds, afterwards, the level
    of the inner call. *)
Definition nested : list llabel :=
  [LCall (LInit MU_LOG_LEVEL_INFO 77); LCall (LLog MU_LOG_LEVEL_ERROR 5 []);
   LCall (LLog MU_LOG_LEVEL_WARN 6 []); LRet].
Theorem C57_nested_refuted : forall p, exists s es,
  lrun p lstate0 0 nested = Ok (s, 1%nat, es) /\
  es = [[LReturned]; [LEnter 77 5 []]; [LEnter 77 6 []]; [LReturned]] /\
  (* the outer logging function, called for ERROR, is still running *)
  lstep p s 1 (LCall LGetLevel) = Ok (s, 1%nat, [LNum MU_LOG_LEVEL_WARN]).
Proof. intros p. eexists _, _. split; [reflexivity|]. split; reflexivity. Qed.
Print Assumptions C57_nested_refuted.

Definition ex_log : list llabel :=
  [LCall (LLog 5 1 [9]); LCall (LInit 3 77); LCall (LLog 2 1 []); LCall (LLog 3 1 [8]); LRet; LCall (LSetFn 0); LCall (LLog 5 1 [])].
Example C57_example : exists s, lrun P64 lstate0 0 ex_log =
  Ok (s, 0%nat, [[LReturned]; [LReturned]; [LReturned]; [LEnter 77 1 [8]]; [LReturned]; [LReturned]; [LReturned]]).
Proof. eexists. reflexivity. Qed.

(** *** C58 *)
Theorem C58_level_name : forall p x, 0 <= x <= uint_max ->
  mu_log_level_name p x = Ok (
    if decide (x = MU_LOG_LEVEL_TRACE) then "TRACE"%string else
    if decide (x = MU_LOG_LEVEL_DEBUG) then "DEBUG"%string else
    if decide (x = MU_LOG_LEVEL_INFO) then "INFO"%string else
    if decide (x = MU_LOG_LEVEL_WARN) then "WARN"%string else
    if decide (x = MU_LOG_LEVEL_ERROR) then "ERROR"%string else
    if decide (x = MU_LOG_LEVEL_FATAL) then "FATAL"%string else "UNKNOWN"%string).
Proof.
  intros p x Hx. unfold uint_max in Hx. pose proof (size_mod_big p).
  destruct (Z.ltb_spec x 6).
  - assert (x = 0 \/ x = 1 \/ x = 2 \/ x = 3 \/ x = 4 \/ x = 5) as [->|[->|[->|[->|[->| ->]]]]] by lia; by destruct p.
  - unfold mu_log_level_name. rewrite to_size_id by lia. assert (N_LOG_LEVELS p = 6) as -> by by destruct p.
    replace (x <? 6) with false by (symmetry; lia).
    unfold MU_LOG_LEVEL_TRACE, MU_LOG_LEVEL_DEBUG, MU_LOG_LEVEL_INFO, MU_LOG_LEVEL_WARN, MU_LOG_LEVEL_ERROR, MU_LOG_LEVEL_FATAL.
    repeat (rewrite decide_False by lia). done.
Qed.
Print Assumptions C58_level_name.
Example C58_examples : mu_log_level_name P64 3 = Ok "WARN"%string /\ mu_log_level_name P32 6 = Ok "UNKNOWN"%string /\ mu_log_level_name P32 uint_max = Ok "UNKNOWN"%string.
Proof. done. Qed.
