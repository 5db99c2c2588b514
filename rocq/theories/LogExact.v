(** * C83: everything mu_log does, for every history *)
From Verif Require Import CSem FifoSpec LogModel LogProps.

(** ** Specification, from the calls made and what was seen so far *)
(** how many logging functions are running: entered and not yet returned *)
Fixpoint running (n : nat) (z : list (llabel * list lev)) : nat :=
  match z with
  | [] => n
  | (l, e) :: z => running (match l, e with
                            | LCall (LLog _ _ _), [LEnter _ _ _] => S n
                            | LRet, _ => Nat.pred n
                            | _, _ => n end) z
  end.
Definition level_name (x : Z) : string :=
  if decide (x = 0) then "TRACE" else if decide (x = 1) then "DEBUG" else if decide (x = 2) then "INFO" else
  if decide (x = 3) then "WARN" else if decide (x = 4) then "ERROR" else if decide (x = 5) then "FATAL" else "UNKNOWN".
(** what the next label shows, after history [h] with events [es] *)
Definition shown (h : list llabel) (es : list (list lev)) (l : llabel) : list lev :=
  let threshold := threshold_after MU_LOG_LEVEL_TRACE h in
  let installed := function_after NULL h in
  match l with
  | LRet => if decide (running 0 (combine h es) = 0%nat) then [] else [LReturned]
  | LCall (LInit _ _) | LCall (LSetThreshold _) | LCall (LSetFn _) => [LReturned]
  | LCall LGetThreshold => [LNum threshold]
  | LCall LGetFn => [LNum installed]
  | LCall LGetLevel => [LNum (last_logged MU_LOG_LEVEL_TRACE (combine h es))]
  | LCall (LIsReporting x) => [LBool (bool_decide (threshold <= x))]
  | LCall (LName x) => [LStr (level_name x)]
  | LCall (LLog x fmt args) => if decide (threshold <= x /\ installed <> NULL) then [LEnter installed fmt args] else [LReturned]
  end.

Lemma running_inv p : forall h s n s' n' es, lrun p s n h = Ok (s', n', es) -> n' = running n (combine h es).
Proof.
  induction h as [|l h IH]; intros s n s' n' es E; cbn [lrun] in E.
  { by injection E as <- <- <-. }
  destruct (lstep p s n l) as [[[s1 n1] e]| |] eqn:E1; try discriminate. cbn [bind] in E.
  destruct (lrun p s1 n1 h) as [[[s2 n2] es2]| |] eqn:E2; try discriminate. cbn [bind] in E. injection E as <- <- <-.
  apply IH in E2. rewrite E2. cbn [combine running]. f_equal.
  destruct l as [[]|]; cbn [lstep] in E1; try (by injection E1 as <- <- <-).
  - destruct (mu_log_level_name p l); try discriminate. by injection E1 as <- <- <-.
  - unfold mu_log in E1. destruct (_ && _); by injection E1 as <- <- <-.
  - destruct n; by injection E1 as <- <- <-.
Qed.

Theorem C83_log_exact : forall p h, Forall level_ok h ->
  exists s n es, lrun p lstate0 0 h = Ok (s, n, es) /\ List.length es = List.length h /\
    forall i l, h !! i = Some l -> es !! i = Some (shown (take i h) (take i es) l).
Proof.
  intros p h Hh. induction h as [|l h IH] using rev_ind.
  { eexists _, _, _. split; [done|]. split; [done|]. done. }
  apply Forall_app in Hh as [Hh Hl]. apply Forall_cons in Hl as [Hl _].
  destruct (IH Hh) as (s & n & es & E & HL & Hes).
  assert (Hstep : exists s' n', lstep p s n l = Ok (s', n', shown h es l)).
  { destruct (lrun_inv p h lstate0 0 Hh) as (s1 & n1 & es1 & E1 & _ & HT & HF & HR).
    rewrite E in E1. injection E1 as <- <- <-.
    pose proof (running_inv p h _ _ _ _ _ E) as Hrun.
    change (s_logging_fn lstate0) with NULL in HF. change (s_reporting_threshold lstate0) with MU_LOG_LEVEL_TRACE in HT.
    change (s_reporting_level lstate0) with MU_LOG_LEVEL_TRACE in HR.
    unfold shown. rewrite <- HT, <- HF, <- HR, <- Hrun.
    destruct l as [[]|]; cbn [lstep]; try by eauto.
    - unfold mu_log_is_reporting. eexists _, _. do 4 f_equal.
      destruct (Z.leb_spec (s_reporting_threshold s) l); [rewrite bool_decide_eq_true_2|rewrite bool_decide_eq_false_2]; done || lia.
    - simpl in Hl. rewrite (C58_level_name p l Hl). cbn [bind]. eauto.
    - unfold mu_log, mu_log_is_reporting.
      destruct (decide _) as [[H1 H2]|Hn].
      + replace (s_reporting_threshold s <=? l) with true by (symmetry; apply Z.leb_le; lia).
        replace (s_logging_fn s =? NULL) with false by (symmetry; apply Z.eqb_neq; done). eauto.
      + destruct (Z.leb_spec (s_reporting_threshold s) l); [|eauto].
        destruct (Z.eqb_spec (s_logging_fn s) NULL); [eauto|]. exfalso. apply Hn. done.
    - destruct n; eauto. }
  destruct Hstep as (s' & n' & Es).
  exists s', n', (es ++ [shown h es l]). split.
  { rewrite (lrun_app _ _ _ _ _ _ _ _ E). cbn [lrun]. rewrite Es. done. }
  rewrite !app_length. split; [simpl; lia|]. intros i x Hi.
  destruct (decide (i < List.length h)%nat) as [Hlt|Hge].
  - rewrite lookup_app_l in Hi by done. rewrite lookup_app_l by lia. rewrite !take_app_le by lia. by apply Hes.
  - pose proof (lookup_lt_Some _ _ _ Hi) as Hlt. rewrite app_length in Hlt. simpl in Hlt.
    assert (i = List.length h) as -> by lia. rewrite list_lookup_middle in Hi by done. injection Hi as ->.
    rewrite take_app. rewrite <- HL. rewrite take_app. by rewrite list_lookup_middle.
Qed.
Print Assumptions C83_log_exact.
(** a logging function that logs, nested twice *)
Definition ex83 : list llabel :=
  [LCall (LInit 2 77); LCall (LLog 4 5 [8]); LCall (LLog 3 6 []); LCall (LLog 1 6 []); LRet; LCall LGetLevel; LRet; LRet; LCall (LName 9)].
Example C83_example : exists s, lrun P32 lstate0 0 ex83 = Ok (s, 0%nat,
  [[LReturned]; [LEnter 77 5 [8]]; [LEnter 77 6 []]; [LReturned]; [LReturned]; [LNum 3]; [LReturned]; []; [LStr "UNKNOWN"]]).
Proof. eexists. reflexivity. Qed.
