(** * mu_jems: properties C75 and C76: the text sent, for every sequence of calls *)
From Verif Require Import CSem JsonSpec JsonParse JemsModel JemsSpec JemsProofs JemsDouble JemsProofs2 JemsProps JemsProps2.
Open Scope Z_scope.

(** ** Specification: what each call sends, for arbitrary (also unbalanced or too deeply
    nested) sequences of calls *)
(** the text of one item *)
Inductive item_text : vcall -> list Z -> Prop :=
| it_object : item_text CObjectOpen [ch "{"]
| it_array : item_text CArrayOpen [ch "["]
| it_number d n : shows d n -> item_text (CNumber d) (num_text n)
| it_integer z : item_text (CInteger z) (num_text (int_num z))
| it_string mem s : cstring mem s -> item_text (CString mem) (str_text s)
| it_bytes mem len : item_text (CBytes mem len) (str_text (take (Z.to_nat len) mem))
| it_bool_t : item_text (CBool true) (str "true")
| it_bool_f : item_text (CBool false) (str "false")
| it_true : item_text CTrue (str "true")
| it_false : item_text CFalse (str "false")
| it_null : item_text CNull (str "null")
| it_literal mem len : item_text (CLiteral mem len) (take (Z.to_nat len) mem).
(** Open containers, innermost first, each with its kind and the number of items so far.
    [W]: item counts are kept modulo W.  [M]: at most M levels are remembered; opening one
    more is forgotten.  Closing at the top level is forgotten as well. *)
Section spec.
Context (W M : Z).
Definition enter_level (v : vcall) (st : list container) : list container :=
  match v with
  | CObjectOpen => if decide (Z.of_nat (length st) < M) then (true, 0) :: st else st
  | CArrayOpen => if decide (Z.of_nat (length st) < M) then (false, 0) :: st else st
  | _ => st
  end.
Definition leave_level (st : list container) : list container :=
  match st with _ :: c :: st => c :: st | st => st end.
Inductive emitted : list container -> list call -> list container -> list Z -> Prop :=
| e_nil st : emitted st [] st []
| e_item b n st v t cs st' t' : item_text v t -> emitted (enter_level v ((b, n + 1) :: st)) cs st' t' ->
    emitted ((b, n) :: st) (CVal v :: cs) st' (separator b (n mod W) ++ t ++ t')
| e_key mem v st cs st' t' : emitted st (CVal (CString mem) :: CVal v :: cs) st' t' ->
    emitted st (CKey mem v :: cs) st' t'
| e_close_object st cs st' t' : emitted (leave_level st) cs st' t' -> emitted st (CObjectClose :: cs) st' (ch "}" :: t')
| e_close_array st cs st' t' : emitted (leave_level st) cs st' t' -> emitted st (CArrayClose :: cs) st' (ch "]" :: t')
| e_reset st cs st' t' : emitted [(false, 0)] cs st' t' -> emitted st (CReset :: cs) st' t'.
End spec.

Section proofs.
Context (p : plat) (M : Z).
Notation W := (size_mod p).
Definition cut (st : list container) : list container := map (fun x => (fst x, to_size p (snd x))) st.

Lemma item_vtext v t : vcall_ok v -> item_text v t -> vtext v = t.
Proof.
  intros Hv H. destruct H; cbn [vtext]; try done.
  - destruct Hv as [Hd Hc]. by destruct (number_text_shows d n Hd Hc H).
  - unfold fmt_d, num_text, int_num. cbn [nneg nint nfrac nexp]. destruct (z <? 0); cbn [app]; by rewrite ?app_nil_r.
  - by rewrite (until0_ok mem s).
Qed.
Lemma item_exists v : vcall_ok v -> exists t, item_text v t.
Proof.
  intros Hv. destruct v; try (eexists; constructor; fail).
  - destruct Hv as [Hd Hc]. destruct (shows_total d Hd Hc) as (n & Hn). eexists. by econstructor.
  - destruct Hv as (t & Ht). eexists. by econstructor.
  - destruct b; eexists; constructor.
Qed.
Lemma cut_enter v st : cut (enter_level M v st) = aopen M v (cut st).
Proof.
  unfold enter_level, aopen, apush, cut. rewrite map_length.
  assert (T0 : to_size p 0 = 0) by (apply to_size_id; pose proof (size_mod_pos p); lia).
  destruct v; try done; destruct (decide _), (Z.ltb_spec (Z.of_nat (length st)) M); try lia; cbn [map fst snd]; by rewrite ?T0.
Qed.
Lemma cut_leave st : cut (leave_level st) = apop (cut st).
Proof. by destruct st as [|? [|? ?]]. Qed.
Lemma cut_one b n st : amore p (cut ((b, n) :: st)) = cut ((b, n + 1) :: st).
Proof.
  cbn [cut map amore fst snd]. f_equal. f_equal. unfold to_size. pose proof (size_mod_pos p).
  by rewrite Zplus_mod_idemp_l.
Qed.
Lemma arun_cons s c cs : arun p M s (c :: cs) = arun p M (acall p M s c) cs.
Proof. done. Qed.
Lemma emitted_arun st cs st' t : emitted W M st cs st' t -> Forall call_ok cs -> forall txt,
  arun p M (cut st, txt) cs = (cut st', txt ++ t).
Proof.
  assert (T0 : to_size p 0 = 0) by (apply to_size_id; pose proof (size_mod_pos p); lia).
  induction 1 as [st|b n st v t cs st' t' Hi _ IH|mem v st cs st' t' _ IH|st cs st' t' _ IH|st cs st' t' _ IH|st cs st' t' _ IH]; intros Hcs txt.
  - by rewrite app_nil_r.
  - inversion Hcs as [|? ? Hc Hr]; subst. rewrite arun_cons. cbn [acall]. unfold aval. cbn [fst snd].
    rewrite cut_one, <- cut_enter, (item_vtext v t) by done.
    replace (asep (cut ((b, n) :: st))) with (separator b (n mod W)) by done.
    rewrite IH by done. by rewrite <- !app_assoc.
  - apply Forall_cons in Hcs as [[H1 H2] Hr]. specialize (IH ltac:(by repeat constructor) txt). exact IH.
  - inversion Hcs; subst. rewrite arun_cons. cbn [acall fst snd]. rewrite <- cut_leave. rewrite IH by done. by rewrite <- app_assoc.
  - inversion Hcs; subst. rewrite arun_cons. cbn [acall fst snd]. rewrite <- cut_leave. rewrite IH by done. by rewrite <- app_assoc.
  - inversion Hcs; subst. rewrite arun_cons. cbn [acall fst snd]. specialize (IH ltac:(done) txt). simpl in IH. rewrite T0 in IH. exact IH.
Qed.
Lemma enter_ne v st : st <> [] -> enter_level M v st <> [].
Proof. intros H. destruct v; try done; simpl; by destruct (decide _). Qed.
Lemma leave_ne st : st <> [] -> leave_level st <> [].
Proof. by destruct st as [|? [|? ?]]. Qed.
Lemma emitted_exists : forall cs st, Forall call_ok cs -> st <> [] -> exists st' t, emitted W M st cs st' t /\ st' <> [].
Proof.
  induction cs as [|c cs IH]; intros st Hcs Hne; [exists st, []; split; [constructor|done]|]. inversion Hcs as [|? ? Hc Hr]; subst.
  destruct c as [v|k v| | |].
  - destruct st as [|[b n] st]; [done|]. destruct (item_exists v Hc) as (t & Ht).
    destruct (IH (enter_level M v ((b, n + 1) :: st)) Hr ltac:(by apply enter_ne)) as (st' & t' & H1 & H2).
    eexists _, _. split; [econstructor; eauto|done].
  - destruct Hc as [Hk Hv]. destruct st as [|[b n] st]; [done|].
    destruct (item_exists (CString k) Hk) as (tk & Htk), (item_exists v Hv) as (t & Ht).
    destruct (IH (enter_level M v ((b, n + 1 + 1) :: st)) Hr ltac:(by apply enter_ne)) as (st' & t' & H1 & H2).
    eexists _, _. split; [constructor; econstructor; [done|]; econstructor; eauto|done].
  - destruct (IH (leave_level st) Hr ltac:(by apply leave_ne)) as (st' & t' & H1 & H2). eexists _, _. split; [constructor; eauto|done].
  - destruct (IH (leave_level st) Hr ltac:(by apply leave_ne)) as (st' & t' & H1 & H2). eexists _, _. split; [constructor; eauto|done].
  - destruct (IH [(false, 0)] Hr ltac:(done)) as (st' & t' & H1 & H2). eexists _, _. split; [constructor; eauto|done].
Qed.
Lemma arun_txt : forall cs s txt, arun p M (s, txt) cs = (fst (arun p M (s, []) cs), txt ++ snd (arun p M (s, []) cs)).
Proof.
  assert (A : forall c s txt, acall p M (s, txt) c = (fst (acall p M (s, []) c), txt ++ snd (acall p M (s, []) c))).
  { intros [v|k v| | |] s txt; cbn [acall aval fst snd app]; unfold aval; cbn [fst snd app]; by rewrite ?app_nil_r, <- ?app_assoc. }
  unfold arun. induction cs as [|c cs IH]; intros s txt; cbn [fold_left].
  - cbn [fst snd]. by rewrite app_nil_r.
  - rewrite A, IH. rewrite (surjective_pairing (acall p M (s, []) c)). rewrite (IH _ (snd (acall p M (s, []) c))). cbn [fst snd]. by rewrite app_assoc.
Qed.
End proofs.

(** ** C75 *)
(** Every sequence of legal calls: never undefined, and the text that reaches the writer, the
    level and the item count reported are those of the specification. *)
Theorem C75_exact : forall p S cs, setting_ok p S -> Forall call_ok cs ->
  exists j b n st t, session p S cs = Ok j /\ emitted (size_mod p) (maxl S) [(false, 0)] cs ((b, n) :: st) t /\
    written S t j /\ mu_jems_curr_level j = Z.of_nat (length st) /\ mu_jems_item_count j = Ok (n mod size_mod p).
Proof.
  intros p S cs HS Hcs. destruct (session_rep p S HS cs Hcs) as (j & E & Hj).
  destruct (emitted_exists p (maxl S) cs [(false, 0)] Hcs ltac:(done)) as (st' & t & He & Hne).
  pose proof (emitted_arun p (maxl S) _ _ _ _ He Hcs []) as Ha.
  assert (T0 : to_size p 0 = 0) by (apply to_size_id; pose proof (size_mod_pos p); lia).
  simpl cut in Ha at 1. rewrite T0 in Ha. rewrite Ha in Hj. cbn [fst snd app] in Hj.
  destruct st' as [|[b n] st]; [done|]. exists j, b, n, st, t. split; [done|]. split; [done|]. split; [by eapply written_rep|].
  cbn [cut map fst snd] in Hj. split; [|by eapply get_count_ok].
  unfold mu_jems_curr_level. destruct Hj. simpl length in *. rewrite map_length in *. lia.
Qed.
Print Assumptions C75_exact.
(** and the specification determines the text *)
Theorem C75_unique : forall p M cs b n b' n' st st' t t', Forall call_ok cs ->
  emitted (size_mod p) M [(false, 0)] cs ((b, n) :: st) t -> emitted (size_mod p) M [(false, 0)] cs ((b', n') :: st') t' ->
  t = t' /\ length st = length st' /\ n mod size_mod p = n' mod size_mod p.
Proof.
  intros p M cs b n b' n' st st' t t' Hcs H1 H2. pose proof (emitted_arun p M _ _ _ _ H1 Hcs []) as A1.
  pose proof (emitted_arun p M _ _ _ _ H2 Hcs []) as A2. rewrite A1 in A2.
  split; [exact (f_equal snd A2)|]. pose proof (f_equal fst A2) as E. cbn [fst] in E. unfold cut in E. split.
  - apply (f_equal length) in E. rewrite !map_length in E. simpl in E. lia.
  - apply (f_equal (fun l : list container => match l with x :: _ => snd x | [] => 0 end)) in E. exact E.
Qed.
Print Assumptions C75_unique.
(** In particular a literal goes out byte for byte, as one item. *)
Theorem C75_literal : forall p S cs mem len, setting_ok p S -> Forall call_ok cs -> buffer mem len ->
  exists j1 j t0 sep, session p S cs = Ok j1 /\ written S t0 j1 /\ session p S (cs ++ [CVal (CLiteral mem len)]) = Ok j /\
    a_separator sep /\ written S (t0 ++ sep ++ take (Z.to_nat len) mem) j /\
    mu_jems_curr_level j = mu_jems_curr_level j1 /\
    forall n, mu_jems_item_count j1 = Ok n -> mu_jems_item_count j = Ok ((n + 1) mod size_mod p).
Proof.
  intros p S cs mem len HS Hcs Hb. destruct (session_rep p S HS cs Hcs) as (j1 & E1 & Hj1).
  destruct (session_rep p S HS (cs ++ [CVal (CLiteral mem len)])) as (j & E & Hj); [apply Forall_app; split; [done|by apply Forall_singleton]|].
  set (s0 := arun p (maxl S) ([(false, 0)], []) cs) in *.
  exists j1, j, (snd s0), (asep (fst s0)). split; [done|]. split; [by eapply written_rep|]. split; [done|].
  rewrite arun_app in Hj. fold s0 in Hj. unfold arun in Hj. cbn [fold_left acall aval fst snd vtext aopen] in Hj.
  split; [apply asep_ok|]. split; [by eapply written_rep|].
  destruct (fst s0) as [|[b c] st]; [by destruct Hj1|]. cbn [amore] in Hj. split.
  - unfold mu_jems_curr_level. destruct Hj, Hj1. simpl length in *. lia.
  - intros n Hn. unfold mu_jems_item_count in *. rewrite (get_count_ok _ _ _ _ _ _ _ _ _ _ Hj1) in Hn. injection Hn as <-.
    by rewrite (get_count_ok _ _ _ _ _ _ _ _ _ _ Hj).
Qed.
Print Assumptions C75_literal.

(** ** C76 *)
(** mu_jems_reset, whatever came before (also in the middle of nested containers), makes the
    calls after it send exactly what they would send right after mu_jems_init. *)
Theorem C76_reset : forall p S cs cs', setting_ok p S -> Forall call_ok cs -> Forall call_ok cs' ->
  exists j1 j2 j t1 t2, session p S cs = Ok j1 /\ written S t1 j1 /\
    session p S cs' = Ok j2 /\ written S t2 j2 /\
    session p S (cs ++ CReset :: cs') = Ok j /\ written S (t1 ++ t2) j /\
    mu_jems_curr_level j = mu_jems_curr_level j2 /\ mu_jems_item_count j = mu_jems_item_count j2.
Proof.
  intros p S cs cs' HS H1 H2. destruct (session_rep p S HS cs H1) as (j1 & E1 & R1). destruct (session_rep p S HS cs' H2) as (j2 & E2 & R2).
  destruct (session_rep p S HS (cs ++ CReset :: cs')) as (j & E & R); [apply Forall_app; split; [done|by constructor]|].
  rewrite arun_app in R. set (s1 := arun p (maxl S) ([(false, 0)], []) cs) in *. rewrite arun_cons in R. cbn [acall] in R.
  rewrite arun_txt in R. cbn [fst snd] in R. set (s2 := arun p (maxl S) ([(false, 0)], []) cs') in *.
  exists j1, j2, j, (snd s1), (snd s2). split; [done|]. split; [by eapply written_rep|]. split; [done|]. split; [by eapply written_rep|].
  split; [done|]. split; [by eapply written_rep|].
  destruct (fst s2) as [|[b c] st]; [by destruct R|]. split.
  - unfold mu_jems_curr_level. destruct R, R2. lia.
  - unfold mu_jems_item_count. by rewrite (get_count_ok _ _ _ _ _ _ _ _ _ _ R), (get_count_ok _ _ _ _ _ _ _ _ _ _ R2).
Qed.
Print Assumptions C76_reset.

(** unbalanced, too deep (the fifth bracket is one too many for four levels), with a reset *)
Definition ex75 : list call :=
  [CVal CArrayOpen; CVal (CLiteral (str "1e9,,") 3); CVal CArrayOpen; CKey (cstr "k") CObjectOpen; CVal CArrayOpen; CVal CNull; CArrayClose; CVal CTrue; CReset; CObjectClose; CVal CNull].
Example C75_example : Forall call_ok ex75 /\ setting_ok P32 ex_set /\
  exists j, session P32 ex_set ex75 = Ok j /\ written ex_set (str "[1e9,[""k"",{[:null],true}null") j /\
    emitted (size_mod P32) (maxl ex_set) [(false, 0)] ex75 [(false, 1)] (str "[1e9,[""k"",{[:null],true}null").
Proof.
  split.
  { assert (K : cstring (cstr "k") [107]) by (split; [repeat constructor; lia|by exists []]).
    unfold ex75. repeat (apply Forall_cons_2; [first [exact I|split; [by exists [107]|exact I]|idtac]|]); [|by apply Forall_nil].
    split; [|vm_compute; split; [split; congruence|congruence]]. unfold byte. repeat (apply Forall_cons_2; [vm_compute; split; congruence|]). by apply Forall_nil. }
  split; [apply ex_set_ok|]. eexists. split; [vm_compute; reflexivity|]. split; [vm_compute; reflexivity|].
  pose (T := [] ++ [ch "["] ++ [] ++ str "1e9" ++ [ch ","] ++ [ch "["] ++ [] ++ str_text [107] ++ [ch ","] ++ [ch "{"] ++ [] ++ [ch "["] ++ [ch ":"] ++ str "null" ++ ch "]" :: [ch ","] ++ str "true" ++ ch "}" :: [] ++ str "null" ++ []).
  change (emitted (size_mod P32) (maxl ex_set) [(false, 0)] ex75 [(false, 1)] T).
  apply (e_item (size_mod P32) (maxl ex_set) false 0); [constructor|]. apply (e_item (size_mod P32) (maxl ex_set) false 0); [apply (it_literal (str "1e9,,") 3)|]. apply (e_item (size_mod P32) (maxl ex_set) false 1); [constructor|].
  apply e_key. apply (e_item (size_mod P32) (maxl ex_set) false 0); [apply it_string; split; [repeat constructor; lia|by exists []]|]. apply (e_item (size_mod P32) (maxl ex_set) false 1); [constructor|].
  apply (e_item (size_mod P32) (maxl ex_set) true 0); [constructor|]. apply (e_item (size_mod P32) (maxl ex_set) true 1); [constructor|]. apply e_close_array. apply (e_item (size_mod P32) (maxl ex_set) false 2); [constructor|].
  apply e_reset, e_close_object. apply (e_item (size_mod P32) (maxl ex_set) false 0); constructor.
Qed.
