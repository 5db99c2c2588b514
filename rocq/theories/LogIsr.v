(** * C105: mu_log while interrupts use the logging functions

    mu_log reads and writes three static variables; an interrupt between two of these
    accesses may itself log, or change the threshold or the logging function.  The model
    performs one access per step.  Only the newest activity runs (one processor, nested
    interrupts), so the mu_log calls in progress form a stack. *)
From Verif Require Import CSem FifoSpec LogModel LogProps.

(** ** Model *)
(** where a mu_log call is: before its first, second, third, fourth access, or in the
    logging function (mu_log.c:97 (twice), 98, 101) *)
Inductive lpc := AtThreshold | AtFn | AtLevel | AtCall | Inside.
Record frame := MkF { f_pc : lpc; f_level : Z; f_fmt : Z; f_args : list Z; f_fn : Z }.

Inductive mlabel :=
| MBegin (l fmt : Z) (args : list Z)   (* somebody calls mu_log *)
| MStep                                (* the newest mu_log call in progress makes its next access *)
| MReturn                              (* the newest running logging function returns *)
| MSetThreshold (t : Z) | MGetThreshold | MSetFn (fn : Z) | MGetFn | MGetLevel | MIsReporting (l : Z).

(** [once]: whether the compiler reads [s_logging_fn] once (keeping it in a register) or
    twice, as the source does; the standard allows both, the variable is not volatile.
    mu_log_init is [MSetThreshold] then [MSetFn] (mu_log.c:59-62). *)
Definition mstep (once : bool) (s : lstate) (st : list frame) (lb : mlabel) : res (lstate * list frame * list lev) :=
  match lb with
  | MBegin l fmt args => Ok (s, MkF AtThreshold l fmt args NULL :: st, [])
  | MStep =>
    match st with
    | MkF AtThreshold l fmt args fn :: st' =>
      if mu_log_is_reporting l s then Ok (s, MkF AtFn l fmt args fn :: st', []) else Ok (s, st', [LReturned])
    | MkF AtFn l fmt args _ :: st' =>
      if s_logging_fn s =? NULL then Ok (s, st', [LReturned]) else Ok (s, MkF AtLevel l fmt args (s_logging_fn s) :: st', [])
    | MkF AtLevel l fmt args fn :: st' =>
      Ok (MkL (s_reporting_threshold s) l (s_logging_fn s), MkF AtCall l fmt args fn :: st', [])
    | MkF AtCall l fmt args fn :: st' =>
      let g := if once then fn else s_logging_fn s in
      if g =? NULL then UB (* a call through a null pointer *) else Ok (s, MkF Inside l fmt args fn :: st', [LEnter g fmt args])
    | _ => Ok (s, st, [])
    end
  | MReturn => match st with MkF Inside _ _ _ _ :: st' => Ok (s, st', [LReturned]) | _ => Ok (s, st, []) end
  | MSetThreshold t => Ok (mu_log_set_reporting_threshold t s, st, [LReturned])
  | MGetThreshold => Ok (s, st, [LNum (mu_log_get_reporting_threshold s)])
  | MSetFn fn => Ok (mu_log_set_logging_function fn s, st, [LReturned])
  | MGetFn => Ok (s, st, [LNum (mu_log_get_logging_function s)])
  | MGetLevel => Ok (s, st, [LNum (mu_log_get_reporting_level s)])
  | MIsReporting l => Ok (s, st, [LBool (mu_log_is_reporting l s)])
  end.

Fixpoint mrun (once : bool) (s : lstate) (st : list frame) (h : list mlabel) : res (lstate * list frame * list (list lev)) :=
  match h with
  | [] => Ok (s, st, [])
  | lb :: h =>
    let* '(s, st, e) := mstep once s st lb in
    let* '(s, st, es) := mrun once s st h in Ok (s, st, e :: es)
  end.

(** ** Specification, from the history *)
Fixpoint last_threshold (t : Z) (h : list mlabel) : Z :=
  match h with [] => t | MSetThreshold t' :: h => last_threshold t' h | _ :: h => last_threshold t h end.
Fixpoint last_function (f : Z) (h : list mlabel) : Z :=
  match h with [] => f | MSetFn f' :: h => last_function f' h | _ :: h => last_function f h end.
Definition threshold_at (h : list mlabel) : Z := last_threshold MU_LOG_LEVEL_TRACE h.
Definition installed_at (h : list mlabel) : Z := last_function NULL h.

(** ** Proofs *)
Lemma last_threshold_app h1 : forall t h2, last_threshold t (h1 ++ h2) = last_threshold (last_threshold t h1) h2.
Proof. induction h1 as [|[] h1 IH]; intros; simpl; done. Qed.
Lemma last_function_app h1 : forall t h2, last_function t (h1 ++ h2) = last_function (last_function t h1) h2.
Proof. induction h1 as [|[] h1 IH]; intros; simpl; done. Qed.

Lemma mrun_app once : forall h1 s st h2, mrun once s st (h1 ++ h2) =
  (let* '(s1, st1, e1) := mrun once s st h1 in let* '(s2, st2, e2) := mrun once s1 st1 h2 in Ok (s2, st2, e1 ++ e2)).
Proof.
  induction h1 as [|l h1 IH]; intros s st h2; cbn [mrun app bind].
  - destruct (mrun once s st h2) as [[[]]| |]; done.
  - destruct (mstep once s st l) as [[[s' st'] e]| |]; cbn [bind]; [|done|done]. rewrite IH.
    destruct (mrun once s' st' h1) as [[[s'' st''] es]| |]; cbn [bind]; [|done|done].
    destruct (mrun once s'' st'' h2) as [[[]]| |]; done.
Qed.
Lemma mrun_snoc once h lb s0 st0 s st es s' st' e : mrun once s0 st0 h = Ok (s, st, es) ->
  mstep once s st lb = Ok (s', st', e) -> mrun once s0 st0 (h ++ [lb]) = Ok (s', st', es ++ [e]).
Proof. intros H1 H2. rewrite mrun_app, H1. cbn [bind mrun]. rewrite H2. done. Qed.
Lemma mrun_len once : forall h s st s' st' es, mrun once s st h = Ok (s', st', es) -> List.length es = List.length h.
Proof.
  induction h as [|l h IH]; intros s st s' st' es E; cbn [mrun] in E; [by injection E as <- <- <-|].
  destruct (mstep once s st l) as [[[s1 st1] e]| |]; cbn [bind] in E; try done.
  destruct (mrun once s1 st1 h) as [[[s2 st2] es2]| |] eqn:E2; cbn [bind] in E; try done. injection E as <- <- <-.
  simpl. f_equal. by eapply IH.
Qed.
Lemma mrun_snoc_inv once h lb s0 st0 s' st' es' : mrun once s0 st0 (h ++ [lb]) = Ok (s', st', es') ->
  exists s st es e, mrun once s0 st0 h = Ok (s, st, es) /\ mstep once s st lb = Ok (s', st', e) /\ es' = es ++ [e].
Proof.
  rewrite mrun_app. destruct (mrun once s0 st0 h) as [[[s st] es]| |]; cbn [bind]; try done. cbn [mrun].
  destruct (mstep once s st lb) as [[[s1 st1] e]| |] eqn:E; cbn [bind]; try done. intros [= <- <- <-].
  eexists _, _, _, _. done.
Qed.

(** what is known of a call in progress *)
Definition frame_ok (h : list mlabel) (f : frame) : Prop :=
  exists a b c, (a < b)%nat /\ (b < c)%nat /\ h !! a = Some (MBegin (f_level f) (f_fmt f) (f_args f)) /\
  match f_pc f with
  | AtThreshold => True
  | AtFn => h !! b = Some MStep /\ threshold_at (take b h) <= f_level f
  | _ => h !! b = Some MStep /\ threshold_at (take b h) <= f_level f /\
         h !! c = Some MStep /\ f_fn f = installed_at (take c h) /\ f_fn f <> NULL
  end.
Lemma frame_ok_app h lb f : frame_ok h f -> frame_ok (h ++ [lb]) f.
Proof.
  intros (a & b & c & Hab & Hbc & Ha & H). exists a, b, c. do 2 (split; [done|]).
  assert (Hk : forall i x, h !! i = Some x -> (h ++ [lb]) !! i = Some x) by (intros; by apply lookup_app_l_Some).
  assert (Hkt : forall i x, h !! i = Some x -> take i (h ++ [lb]) = take i h).
  { intros i x Hi. apply lookup_lt_Some in Hi. rewrite take_app_le; [done|lia]. }
  split; [by apply Hk|]. destruct (f_pc f); [done| | | |].
  1: destruct H as (H1 & H2); rewrite (Hkt _ _ H1); eauto.
  all: destruct H as (H1 & H2 & H3 & H4 & H5); rewrite (Hkt _ _ H1), (Hkt _ _ H3); split_and!; eauto.
Qed.
Lemma snoc_take_step (h : list mlabel) lb : (h ++ [lb]) !! List.length h = Some lb /\ take (List.length h) (h ++ [lb]) = h.
Proof. split; [by rewrite list_lookup_middle|apply take_app]. Qed.

Definition isr_inv (h : list mlabel) (s : lstate) (st : list frame) : Prop :=
  s_reporting_threshold s = threshold_at h /\ s_logging_fn s = installed_at h /\ Forall (frame_ok h) st.

Lemma isr_inv_step once h s st lb s' st' e : isr_inv h s st -> mstep once s st lb = Ok (s', st', e) ->
  isr_inv (h ++ [lb]) s' st'.
Proof.
  intros (HT & HF & HS) E. destruct (snoc_take_step h lb) as [HL HK].
  assert (HS' : Forall (frame_ok (h ++ [lb])) st) by (eapply Forall_impl; [exact HS|intros; by apply frame_ok_app]).
  unfold isr_inv, threshold_at, installed_at in *. rewrite last_threshold_app, last_function_app, <- HT, <- HF.
  destruct lb as [l fmt args| | |t| |fn| | |l]; cbn [mstep] in E; cbn [last_threshold last_function].
  - injection E as <- <- <-. split; [done|]. split; [done|]. constructor; [|done].
    exists (List.length h), (Datatypes.S (List.length h)), (Datatypes.S (Datatypes.S (List.length h))). simpl. split_and!; try lia; done.
  - destruct st as [|[pc l fmt args fn] st]; [injection E as <- <- <-; done|].
    inversion HS as [|? ? Hf _]; subst. inversion HS' as [|? ? _ Hr']; subst.
    destruct Hf as (a & b & c & Hab & Hbc & Ha & Hpc). simpl in *.
    assert (Hk : forall i x, h !! i = Some x -> (h ++ [MStep]) !! i = Some x) by (intros; by apply lookup_app_l_Some).
    assert (Hkt : forall i x, h !! i = Some x -> take i (h ++ [MStep]) = take i h).
    { intros i x Hi. apply lookup_lt_Some in Hi. rewrite take_app_le; [done|lia]. }
    pose proof (lookup_lt_Some _ _ _ Ha) as Hal.
    destruct pc.
    + unfold mu_log_is_reporting in E. destruct (Z.leb_spec (s_reporting_threshold s) l); injection E as <- <- <-; [|done].
      split_and!; try done. constructor; [|done].
      exists a, (List.length h), (Datatypes.S (List.length h)). simpl. split_and!; try lia; try (by eauto).
      rewrite HK. unfold threshold_at. lia.
    + destruct Hpc as [H1 H2]. pose proof (lookup_lt_Some _ _ _ H1).
      destruct (Z.eqb_spec (s_logging_fn s) NULL) as [?|Hne]; injection E as <- <- <-; [done|].
      split_and!; try done. constructor; [|done].
      exists a, b, (List.length h). simpl. rewrite (Hkt b MStep H1), HK. split_and!; try lia; try (by eauto).
    + injection E as <- <- <-. split_and!; try done. constructor; [|done].
      destruct Hpc as (H1 & H2 & H3 & H4 & H5). exists a, b, c. simpl. rewrite (Hkt b MStep H1), (Hkt c MStep H3). split_and!; eauto.
    + destruct ((if once then fn else s_logging_fn s) =? NULL); [done|]. injection E as <- <- <-. split_and!; try done. constructor; [|done].
      destruct Hpc as (H1 & H2 & H3 & H4 & H5). exists a, b, c. simpl. rewrite (Hkt b MStep H1), (Hkt c MStep H3). split_and!; eauto.
    + injection E as <- <- <-. split_and!; try done.
  - destruct st as [|[[] l fmt args fn] st]; injection E as <- <- <-; try done. by inversion HS'.
  - injection E as <- <- <-. done.
  - injection E as <- <- <-. done.
  - injection E as <- <- <-. done.
  - injection E as <- <- <-. done.
  - injection E as <- <- <-. done.
  - injection E as <- <- <-. done.
Qed.

Lemma isr_inv_run once : forall h s st es, mrun once lstate0 [] h = Ok (s, st, es) -> isr_inv h s st.
Proof.
  induction h as [|lb h IH] using rev_ind; intros s st es E.
  { injection E as <- <- <-. done. }
  destruct (mrun_snoc_inv _ _ _ _ _ _ _ _ E) as (s1 & st1 & es1 & e & E1 & E2 & ->).
  eapply isr_inv_step; [by eapply IH|done].
Qed.

Lemma mstep_cases once s st lb : (exists r, mstep once s st lb = Ok r) \/
  (mstep once s st lb = UB /\ lb = MStep /\ exists f st', st = f :: st' /\ f_pc f = AtCall /\
     (if once then f_fn f else s_logging_fn s) = NULL).
Proof.
  destruct lb; cbn [mstep]; try (by left; eauto).
  - destruct st as [|[[] l fmt args fn] st]; try (by left; eauto).
    + destruct (mu_log_is_reporting l s); left; eauto.
    + destruct (_ =? _); left; eauto.
    + destruct (Z.eqb_spec (if once then fn else s_logging_fn s) NULL) as [Eq|]; [right|left; eauto].
      split; [done|]. split; [done|]. eexists _, _. done.
  - destruct st as [|[[] l fmt args fn] st]; left; eauto.
Qed.

(** ** Theorems *)
(** A mu_log call that no interrupt disturbs does what LogModel says it does. *)
Theorem C105_undisturbed : forall once s st l fmt args,
  match mu_log l fmt args s with
  | (s', Some (fn, fmt', ap)) =>
    mrun once s st [MBegin l fmt args; MStep; MStep; MStep; MStep] =
      Ok (s', MkF Inside l fmt args fn :: st, [[]; []; []; []; [LEnter fn fmt' ap]])
  | (s', None) =>
    mrun once s st [MBegin l fmt args; MStep] = Ok (s', st, [[]; [LReturned]]) \/
    mrun once s st [MBegin l fmt args; MStep; MStep] = Ok (s', st, [[]; []; [LReturned]])
  end.
Proof.
  intros once s st l fmt args. unfold mu_log.
  destruct (mu_log_is_reporting l s) eqn:E1; cbn [andb].
  - destruct (Z.eqb_spec (s_logging_fn s) NULL) as [E|E]; cbn [negb].
    + right. cbn [mrun mstep bind]. rewrite E1. cbn [mrun mstep bind]. rewrite E. done.
    + cbn [mrun mstep bind]. rewrite E1. cbn [mrun mstep bind].
      destruct (Z.eqb_spec (s_logging_fn s) NULL) as [|_]; [done|]. cbn [mrun mstep bind s_logging_fn].
      destruct once; (destruct (Z.eqb_spec (s_logging_fn s) NULL) as [|_]; [done|]); done.
  - left. cbn [mrun mstep bind]. rewrite E1. done.
Qed.
Print Assumptions C105_undisturbed.

(** Whatever the interrupts do: every call of a logging function is made for a mu_log call
    with this format and these arguments, whose level was at or above the threshold in
    force when it looked ([b]), and a function was installed when it looked ([c]); the
    function called is the one installed then (if read once) or now (if read twice). *)
Theorem C105_justified : forall once h s st es i fn fmt args,
  mrun once lstate0 [] h = Ok (s, st, es) -> es !! i = Some [LEnter fn fmt args] ->
  exists l a b c, (a < b)%nat /\ (b < c)%nat /\ (c < i)%nat /\
    h !! a = Some (MBegin l fmt args) /\
    threshold_at (take b h) <= l /\ installed_at (take c h) <> NULL /\
    fn <> NULL /\ fn = (if once then installed_at (take c h) else installed_at (take i h)).
Proof.
  intros once. induction h as [|lb h IH] using rev_ind; intros s st es i fn fmt args E Hi.
  { injection E as <- <- <-. done. }
  destruct (mrun_snoc_inv _ _ _ _ _ _ _ _ E) as (s1 & st1 & es1 & e & E1 & E2 & ->).
  pose proof (mrun_len _ _ _ _ _ _ _ E1) as HL.
  assert (Hkt : forall j, (j <= List.length h)%nat -> take j (h ++ [lb]) = take j h) by (intros; by apply take_app_le).
  apply lookup_app_Some in Hi as [Hi|[Hge Hi]].
  - pose proof (lookup_lt_Some _ _ _ Hi).
    destruct (IH _ _ _ _ _ _ _ E1 Hi) as (l & a & b & c & H1 & H2 & H3 & H4 & H5 & H6 & H7 & H8).
    exists l, a, b, c. rewrite !Hkt by lia. split_and!; try done. by apply lookup_app_l_Some.
  - destruct (i - List.length es1)%nat as [|k] eqn:Ek; [|done]. simpl in Hi. injection Hi as ->.
    assert (i = List.length h) as -> by lia.
    destruct (isr_inv_run _ _ _ _ _ E1) as (HT & HF & HS).
    destruct lb; cbn [mstep] in E2; try done.
    2:{ destruct st1 as [|[[] ? ? ? ?] ?]; done. }
    destruct st1 as [|[[] l fmt' args' fn'] st1]; try done.
    { destruct (mu_log_is_reporting _ _); done. }
    { destruct (_ =? _); done. }
    destruct (Z.eqb_spec (if once then fn' else s_logging_fn s1) NULL) as [|Hne]; [done|]. injection E2 as <- <- <- <- <-.
    inversion HS as [|? ? Hf _]; subst. destruct Hf as (a & b & c & Hab & Hbc & Ha & Hpc). simpl in *.
    destruct Hpc as (H1 & H2 & H3 & H4 & H5).
    pose proof (lookup_lt_Some _ _ _ Ha). pose proof (lookup_lt_Some _ _ _ H1). pose proof (lookup_lt_Some _ _ _ H3).
    exists l, a, b, c. rewrite !Hkt by lia. rewrite <- H4. split_and!; try done.
    + by apply lookup_app_l_Some.
    + destruct once; [done|]. rewrite firstn_all. done.
Qed.
Print Assumptions C105_justified.

(** Each mu_log call calls the logging function at most once: the calls begun are those
    that called it, those that returned without calling it and those not yet there. *)
Definition begins (h : list mlabel) : nat :=
  List.length (List.filter (fun lb => match lb with MBegin _ _ _ => true | _ => false end) h).
Definition entered (es : list (list lev)) : nat :=
  List.length (List.filter (fun e => match e with [LEnter _ _ _] => true | _ => false end) es).
Definition silent (h : list mlabel) (es : list (list lev)) : nat :=
  List.length (List.filter (fun x => match x with (MStep, [LReturned]) => true | _ => false end) (zip h es)).
Definition pending (st : list frame) : nat :=
  List.length (List.filter (fun f => match f_pc f with Inside => false | _ => true end) st).

Theorem C105_once : forall once h s st es, mrun once lstate0 [] h = Ok (s, st, es) ->
  begins h = (entered es + silent h es + pending st)%nat.
Proof.
  intros once. induction h as [|lb h IH] using rev_ind; intros s st es E.
  { injection E as <- <- <-. done. }
  destruct (mrun_snoc_inv _ _ _ _ _ _ _ _ E) as (s1 & st1 & es1 & e & E1 & E2 & ->).
  pose proof (mrun_len _ _ _ _ _ _ _ E1) as HL.
  specialize (IH _ _ _ E1). unfold begins, entered, silent, pending in *.
  rewrite zip_with_app by done. rewrite !List.filter_app, !app_length, IH. clear IH. cbn [zip_with].
  destruct lb; cbn [mstep] in E2.
  - injection E2 as <- <- <-. simpl. lia.
  - destruct st1 as [|[[] l fmt' args' fn'] st1].
    + injection E2 as <- <- <-. simpl. lia.
    + destruct (mu_log_is_reporting _ _); injection E2 as <- <- <-; simpl; lia.
    + destruct (_ =? _); injection E2 as <- <- <-; simpl; lia.
    + injection E2 as <- <- <-; simpl; lia.
    + destruct (_ =? _); [done|]. injection E2 as <- <- <-; simpl; lia.
    + injection E2 as <- <- <-; simpl; lia.
  - destruct st1 as [|[[] l fmt' args' fn'] st1]; injection E2 as <- <- <-; simpl; lia.
  - injection E2 as <- <- <-. simpl. lia.
  - injection E2 as <- <- <-. simpl. lia.
  - injection E2 as <- <- <-. simpl. lia.
  - injection E2 as <- <- <-. simpl. lia.
  - injection E2 as <- <- <-. simpl. lia.
  - injection E2 as <- <- <-. simpl. lia.
Qed.
Print Assumptions C105_once.

(** If the compiled code reads the function pointer once, every interleaving is defined. *)
Theorem C105_defined_once : forall h, exists r, mrun true lstate0 [] h = Ok r.
Proof.
  induction h as [|lb h [[[s st] es] E]] using rev_ind; [by eexists|].
  destruct (mstep_cases true s st lb) as [[[[s' st'] e] E']|(_ & -> & f & st' & -> & Hpc & Hn)].
  - eexists. by eapply mrun_snoc.
  - exfalso. destruct (isr_inv_run _ _ _ _ _ E) as (_ & _ & HS). inversion HS as [|? ? Hf _]; subst.
    destruct Hf as (a & b & c & _ & _ & _ & H). rewrite Hpc in H. by destruct H as (_ & _ & _ & _ & H).
Qed.
Print Assumptions C105_defined_once.

(** If it reads it twice, an interleaving is undefined exactly when some mu_log call is about
    to call the function and meanwhile the function has been set to NULL. *)
Theorem C105_null_iff : forall h, mrun false lstate0 [] h = UB <->
  exists h1 h2 s f st es, h = h1 ++ MStep :: h2 /\ mrun false lstate0 [] h1 = Ok (s, f :: st, es) /\
    f_pc f = AtCall /\ installed_at h1 = NULL.
Proof.
  intros h. split.
  - induction h as [|lb h IH] using rev_ind; intros E; [done|]. rewrite mrun_app in E.
    destruct (mrun false lstate0 [] h) as [[[s st] es]| |] eqn:E1; cbn [bind] in E; [| |done].
    + cbn [mrun] in E. destruct (mstep_cases false s st lb) as [[[[s' st'] e] E']|(E' & -> & f & st' & -> & Hpc & Hn)].
      { rewrite E' in E. done. }
      exists h, [], s, f, st', es. split_and!; try done. by destruct (isr_inv_run _ _ _ _ _ E1) as (_ & <- & _).
    + destruct (IH eq_refl) as (h1 & h2 & s & f & st & es & -> & H). exists h1, (h2 ++ [lb]), s, f, st, es.
      split; [by rewrite <- app_assoc|done].
  - intros (h1 & h2 & s & f & st & es & -> & E1 & Hpc & Hn). rewrite mrun_app, E1. cbn [bind mrun].
    destruct (isr_inv_run _ _ _ _ _ E1) as (_ & HF & _). destruct f as [pc l fmt args fn]. simpl in Hpc. subst pc.
    cbn [mstep]. rewrite HF, Hn. done.
Qed.
Print Assumptions C105_null_iff.

(** So nothing goes wrong as long as nobody sets the function to NULL ... *)
Theorem C105_no_null : forall h, (forall fn, In (MSetFn fn) h -> fn <> NULL) ->
  exists r, mrun false lstate0 [] h = Ok r.
Proof.
  intros h Hh. destruct (mrun false lstate0 [] h) as [r| |] eqn:E; [eauto| |].
  - exfalso. apply C105_null_iff in E as (h1 & h2 & s & f & st & es & -> & E1 & Hpc & Hn).
    destruct (isr_inv_run _ _ _ _ _ E1) as (_ & _ & HS). inversion HS as [|? ? Hf _]; subst.
    destruct Hf as (a & b & c & _ & _ & _ & H). rewrite Hpc in H. destruct H as (_ & _ & Hc & Hf & Hne).
    assert (G : forall g x, (forall fn, In (MSetFn fn) g -> fn <> NULL) -> last_function x g = NULL -> x = NULL).
    { induction g as [|[] g IHg]; intros x Hg Hx; simpl in *; try done; try (eapply IHg; [|done]; intros; apply Hg; by right).
      exfalso. apply (Hg fn); [by left|]. eapply IHg; [|done]. intros; apply Hg; by right. }
    rewrite <- (take_drop c h1) in Hn. unfold installed_at in *. rewrite last_function_app in Hn.
    apply G in Hn; [congruence|]. intros fn Hin. apply Hh. apply in_or_app. left.
    rewrite <- (take_drop c h1). apply in_or_app. by right.
  - exfalso. clear Hh. revert E. generalize lstate0, (@nil frame). induction h as [|lb h IH]; intros s st E; [done|]. cbn [mrun] in E.
    destruct (mstep_cases false s st lb) as [[[[s' st'] e] E']|(E' & _)]; rewrite E' in E; [|done].
    cbn [bind] in E. destruct (mrun false s' st' h) as [[[? ?] ?]| |] eqn:E2; try done. by apply IH in E2.
Qed.
Print Assumptions C105_no_null.

(** ... and for every level, threshold, format and function there is an interleaving of one
    mu_log with one mu_log_set_logging_function(NULL) that calls through a null pointer. *)
Theorem C105_null_refuted : forall t l fmt args fn, t <= l -> fn <> NULL ->
  mrun false lstate0 [] ([MSetThreshold t; MSetFn fn] ++ [MBegin l fmt args; MStep; MStep; MStep] ++ [MSetFn NULL] ++ [MStep]) = UB.
Proof.
  intros t l fmt args fn Ht Hf.
  assert (E1 : (t <=? l) = true) by (apply Z.leb_le; lia). assert (E2 : (fn =? NULL) = false) by (by apply Z.eqb_neq).
  repeat (cbn [app mrun mstep bind mu_log_set_reporting_threshold mu_log_set_logging_function mu_log_is_reporting s_reporting_threshold s_reporting_level s_logging_fn]; rewrite ?E1, ?E2; unfold mu_log_is_reporting).
  reflexivity.
Qed.
Print Assumptions C105_null_refuted.

(** The level reported: if no mu_log call begins from the moment a call has stored its level
    until its logging function asks for it, the answer is its level ... *)
Theorem C105_level : forall once h1 h2 s f st es s2 f2 st2 es2,
  mrun once lstate0 [] h1 = Ok (s, f :: st, es) -> f_pc f = AtLevel ->
  (forall l fmt args, ~ In (MBegin l fmt args) h2) ->
  mrun once lstate0 [] (h1 ++ MStep :: h2) = Ok (s2, f2 :: st2, es2) -> List.length st2 = List.length st ->
  st2 = st /\ f_level f2 = f_level f /\ f_pc f2 <> AtLevel /\ mu_log_get_reporting_level s2 = f_level f.
Proof.
  intros once h1 h2 s f st es s2 f2 st2 es2 E1 Hpc Hnb E2 HL. rewrite mrun_app, E1 in E2. cbn [bind mrun] in E2.
  destruct f as [pc l fmt args fn]. simpl in Hpc. subst pc. cbn [mstep bind] in E2.
  set (s0 := MkL _ _ _) in E2. assert (Hs0 : s_reporting_level s0 = l) by done.
  set (f0 := MkF _ _ _ _ _) in E2. assert (Hf0 : f_level f0 = l /\ (f_pc f0 = AtCall \/ f_pc f0 = Inside)) by (split; [done|by left]).
  clearbody s0 f0. destruct (mrun once s0 (f0 :: st) h2) as [[[s3 st3] es3]| |] eqn:E3; cbn [bind] in E2; try done.
  injection E2 as -> -> _. cbn [f_level].
  assert (Hlen : forall h s st s' st' es', (forall l fmt args, ~ In (MBegin l fmt args) h) -> mrun once s st h = Ok (s', st', es') ->
    (List.length st' <= List.length st)%nat).
  { clear. induction h as [|lb h IH]; intros s st s' st' es' Hn E; cbn [mrun] in E; [by injection E as <- <- <-|].
    destruct (mstep once s st lb) as [[[s1 st1] e]| |] eqn:Es; cbn [bind] in E; try done.
    destruct (mrun once s1 st1 h) as [[[? ?] ?]| |] eqn:Er; cbn [bind] in E; try done. injection E as -> -> _.
    apply IH in Er; [|intros ? ? ? Hin; eapply Hn; by right]. etrans; [exact Er|].
    destruct lb; cbn [mstep] in Es; try (injection Es as <- <- <-; done).
    - exfalso. eapply Hn. by left.
    - destruct st as [|[[] ? ? ? ?] ?]; try (injection Es as <- <- <-; simpl; lia).
      + destruct (mu_log_is_reporting _ _); injection Es as <- <- <-; simpl; lia.
      + destruct (_ =? _); injection Es as <- <- <-; simpl; lia.
      + destruct (_ =? _); [done|]. injection Es as <- <- <-; simpl; lia.
    - destruct st as [|[[] ? ? ? ?] ?]; injection Es as <- <- <-; simpl; lia. }
  clear E1. revert s0 f0 es3 Hs0 Hf0 E3. induction h2 as [|lb h2 IH]; intros s0 f0 es3 Hs0 [Hf0 Hp0] E3; cbn [mrun] in E3.
  { injection E3 as <- <- <- _. split_and!; try done. destruct Hp0 as [->| ->]; done. }
  assert (Hnb' : forall l fmt args, ~ In (MBegin l fmt args) h2) by (intros ? ? ? Hin; eapply Hnb; by right).
  specialize (IH Hnb').
  destruct (mstep once s0 (f0 :: st) lb) as [[[s1 st1] e]| |] eqn:Es; cbn [bind] in E3; try done.
  destruct (mrun once s1 st1 h2) as [[[? ?] ?]| |] eqn:Er; cbn [bind] in E3; try done. injection E3 as -> -> _.
  pose proof (Hlen _ _ _ _ _ _ Hnb' Er) as Hle. simpl in Hle.
  destruct lb; cbn [mstep] in Es; try (injection Es as <- <- <-; eapply IH; [| |exact Er]; done).
  - exfalso. eapply Hnb. by left.
  - destruct f0 as [[] l0 ? ? ?]; simpl in Hf0, Hp0; try (by destruct Hp0).
    + destruct (_ =? _); [done|]. injection Es as <- <- <-. eapply IH; [| |exact Er]; [done|]. split; [done|by right].
    + injection Es as <- <- <-. eapply IH; [| |exact Er]; [done|]. split; [done|by right].
  - destruct f0 as [[] l0 ? ? ?]; simpl in Hf0, Hp0; try (by destruct Hp0).
    + injection Es as <- <- <-. eapply IH; [| |exact Er]; [done|]. split; [done|by left].
    + injection Es as <- <- <-. lia.
Qed.
Print Assumptions C105_level.

(** ... but an interrupt that logs in between makes the logging function report the
    interrupt's level, for every pair of levels. *)
Theorem C105_level_refuted : forall once t l1 l2 fmt1 fmt2 args1 args2 fn, t <= l1 -> t <= l2 -> fn <> NULL ->
  exists s es, mrun once lstate0 [] ([MSetThreshold t; MSetFn fn] ++ [MBegin l1 fmt1 args1; MStep; MStep; MStep] ++
      [MBegin l2 fmt2 args2; MStep; MStep; MStep; MStep; MReturn] ++ [MStep; MGetLevel]) =
    Ok (s, [MkF Inside l1 fmt1 args1 fn], es ++ [[LEnter fn fmt1 args1]; [LNum l2]]).
Proof.
  intros once t l1 l2 fmt1 fmt2 args1 args2 fn H1 H2 Hf.
  assert (E1 : (t <=? l1) = true) by (apply Z.leb_le; lia). assert (E2 : (t <=? l2) = true) by (apply Z.leb_le; lia).
  assert (E3 : (fn =? NULL) = false) by (by apply Z.eqb_neq).
  destruct once; repeat (cbn [app mrun mstep bind mu_log_set_reporting_threshold mu_log_set_logging_function mu_log_is_reporting s_reporting_threshold s_reporting_level s_logging_fn]; rewrite ?E1, ?E2, ?E3; unfold mu_log_is_reporting);
  eexists _, [_;_;_;_;_;_;_;_;_;_;_;_]; reflexivity.
Qed.
Print Assumptions C105_level_refuted.

(** ** A concrete run: an ERROR from an interrupt inside a WARN, then a threshold change *)
Definition ex105 : list mlabel :=
  [MSetThreshold 2; MSetFn 77; MBegin 3 5 [8]; MStep; MStep; MBegin 4 6 []; MStep; MSetThreshold 9; MStep; MStep; MStep;
   MGetLevel; MReturn; MStep; MStep; MGetLevel; MReturn; MBegin 4 6 []; MStep].
Example C105_example : exists s es, mrun false lstate0 [] ex105 = Ok (s, [], es) /\
  es = [[LReturned]; [LReturned]; []; []; []; []; []; [LReturned]; []; []; [LEnter 77 6 []]; [LNum 4]; [LReturned];
        []; [LEnter 77 5 [8]]; [LNum 3]; [LReturned]; []; [LReturned]].
Proof. eexists _, _. split; reflexivity. Qed.
