(** * C84: mu_jems_number for every double *)
From Verif Require Import CSem JsonSpec JsonParse JemsModel JemsSpec JemsProofs JemsDouble JemsProofs2 JemsProps JemsProps2 JemsExact.
Open Scope Z_scope.

#[local] Instance finite_dec d : Decision (finite d).
Proof. destruct d; simpl; apply _. Defined.

(** In every state reached by legal calls, mu_jems_number applied to any double (zeros,
    subnormals, infinities and NaNs included): if the double converts to int64_t, then what
    is added to the text is the separator due and one well-formed JSON number, namely the
    only one that [shows] the double; otherwise the behaviour is undefined. *)
Theorem C84_number_exact : forall p S cs d, setting_ok p S -> Forall call_ok cs -> double d ->
  exists j1 t0, session p S cs = Ok j1 /\ written S t0 j1 /\
    (convertible d -> exists n j sep, shows d n /\ (forall n', shows d n' -> n' = n) /\ wf_num n /\
       session p S (cs ++ [CVal (CNumber d)]) = Ok j /\ a_separator sep /\ written S (t0 ++ sep ++ num_text n) j) /\
    (~ convertible d -> session p S (cs ++ [CVal (CNumber d)]) = UB).
Proof.
  intros p S cs d HS Hcs Hd. destruct (session_rep p S HS cs Hcs) as (j1 & E1 & Hj1).
  set (s0 := arun p (maxl S) ([(false, 0)], []) cs) in *.
  exists j1, (snd s0). split; [done|]. split; [by eapply written_rep|]. split.
  - intros Hc. destruct (shows_total d Hd Hc) as (n & Hn). destruct (number_text_shows d n Hd Hc Hn) as [Et Hwf].
    destruct (session_rep p S HS (cs ++ [CVal (CNumber d)])) as (j & E & Hj); [apply Forall_app; split; [done|by apply Forall_singleton]|].
    exists n, j, (asep (fst s0)). split; [done|]. split.
    { intros n' Hn'. destruct (number_text_shows d n' Hd Hc Hn') as [Et' Hwf'].
      assert (W : json_text (JNum n) (num_text n)) by (apply (text_json (JNum n)); by constructor).
      assert (W' : json_text (JNum n') (num_text n)) by (rewrite <- Et, Et'; apply (text_json (JNum n')); by constructor).
      by pose proof (json_text_unique _ _ _ W' W) as [= ->]. }
    split; [done|]. split; [done|]. split; [apply asep_ok|].
    rewrite arun_app in Hj. fold s0 in Hj. unfold arun in Hj. cbn [fold_left acall aval fst snd vtext] in Hj. rewrite Et in Hj.
    by eapply written_rep.
  - intros Hc. unfold session in *. destruct (mu_jems_init _ _ _ _ _) as [j| |]; cbn [bind] in *; try discriminate.
    assert (G : forall cs j, exec_all p j cs = Ok j1 -> exec_all p j (cs ++ [CVal (CNumber d)]) = UB).
    { clear -Hd Hc. induction cs as [|c cs IH]; intros j E; cbn [exec_all app] in *.
      - destruct (decide (finite d)) as [Hf|Hf].
        + by rewrite (C55_ub_refuted p j d Hd Hf Hc).
        + destruct d; try (by destruct Hf); done.
      - destruct (exec p j c); cbn [bind] in *; try discriminate. by apply IH. }
    by apply (G cs j).
Qed.
Print Assumptions C84_number_exact.
Example C84_example : double S754_nan /\ ~ convertible S754_nan /\ double (S754_finite true 4503599627370497 (-52)) /\
  convertible (S754_finite true 4503599627370497 (-52)) /\
  session P64 ex_set [CVal (CNumber (S754_infinity true))] = UB /\
  match session P64 ex_set [CVal (CNumber (S754_finite true 4503599627370497 (-52)))] with
  | Ok j => written ex_set (str "-1.000000") j | _ => False end.
Proof.
  split; [reflexivity|]. split; [by intros (H & _)|]. split; [reflexivity|]. split; [by split; [|split; vm_compute]|].
  split; [reflexivity|]. vm_compute. done.
Qed.
