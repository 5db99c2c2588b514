(** * Properties of mu_jems: C50-C56, C60 *)
From Verif Require Import CSem JsonSpec JsonParse JemsModel JemsSpec JemsProofs JemsDouble JemsProofs2.
Open Scope Z_scope.

(** ** Setting: mu_jems_init on [max_level] level structs (of any contents), then calls *)
Record setting := MkSet { lv : list jlevel; maxl : Z; wr : Z; ar : Z; j0 : jems }.
Definition setting_ok (p : plat) (S : setting) : Prop :=
  Z.of_nat (length (lv S)) = maxl S /\ 1 <= maxl S < size_mod p.
Definition session (p : plat) (S : setting) (cs : list call) : res jems :=
  let* j := mu_jems_init (lv S) (maxl S) (wr S) (ar S) (j0 S) in exec_all p j cs.
(** what reached the user's writer since before the initialisation: its calls *)
Definition written (S : setting) (t : list Z) (j : jems) : Prop :=
  sent j = sent (j0 S) ++ map (fun c => (wr S, c, ar S)) t.

Section setting.
Context (p : plat) (S : setting) (HS : setting_ok p S).
Notation M := (maxl S).
Notation Rep := (Rep p M (wr S) (ar S) (sent (j0 S))).
Lemma session_rep cs : Forall call_ok cs -> exists j, session p S cs = Ok j /\
  Rep (fst (arun p M ([(false, 0)], []) cs)) (snd (arun p M ([(false, 0)], []) cs)) j.
Proof.
  destruct HS as [H1 H2]. intros Hcs. unfold session, mu_jems_init.
  destruct (reset_ok p M (wr S) (ar S) (sent (j0 S)) (MkJ (lv S) M (curr_level (j0 S)) (wr S) (ar S) (sent (j0 S)))) with (txt := @nil Z) as (j & -> & Hj); try done.
  { simpl. by rewrite app_nil_r. }
  cbn [bind]. apply (exec_all_ok p M (wr S) (ar S) (sent (j0 S)) cs ([(false, 0)], [])); done.
Qed.
Lemma session_app cs cs' j : session p S cs = Ok j -> session p S (cs ++ cs') = exec_all p j cs'.
Proof.
  unfold session. destruct (mu_jems_init _ _ _ _ _) as [j1| |]; try done. cbn [bind]. revert j1. induction cs as [|c cs IH]; intros j1 E; cbn [app exec_all] in *.
  - by injection E as <-.
  - destruct (exec p j1 c) as [j2| |]; try done. cbn [bind] in *. by apply IH.
Qed.
Lemma written_rep stk t j : Rep stk t j -> written S t j.
Proof. intros H. apply H. Qed.
End setting.

(** *** C50 *)
Theorem C50_document : forall p S v cs, setting_ok p S -> describes v cs -> narrow p v ->
  Z.of_nat (depth v) < maxl S ->
  exists j, session p S cs = Ok j /\ written S (text v) j /\
    mu_jems_curr_level j = 0 /\ mu_jems_item_count j = Ok 1.
Proof.
  intros p S v cs HS Hd Hn Hdep. destruct (proj1 (describes_ok) v cs Hd) as [Hcs _].
  destruct (session_rep p S HS cs Hcs) as (j & E & Hj). exists j. split; [done|].
  rewrite (proj1 (emits_mut p (maxl S)) v cs Hd false 0 [] [] Hn) in Hj; [|pose proof (size_mod_pos p); lia|simpl; lia].
  rewrite to_size_id in Hj by (pose proof (size_mod_big p); lia). cbn [fst snd app] in Hj.
  split; [by eapply written_rep|]. split; [|by eapply get_count_ok]. unfold mu_jems_curr_level. destruct Hj. simpl in rep_cur. lia.
Qed.
Print Assumptions C50_document.

(** In the middle of any session that stays within max_level: [track cs0] gives the kind
    [b] of the innermost open container and the number [k] of its items so far. *)
Theorem C50_in_context : forall p S cs0 v cs b k st, setting_ok p S -> Forall call_ok cs0 -> fits (maxl S) cs0 ->
  track cs0 = (b, k) :: st -> k < size_mod p ->
  describes v cs -> narrow p v -> Z.of_nat (depth v) + Z.of_nat (length ((b, k) :: st)) <= maxl S ->
  exists j0 j t, session p S cs0 = Ok j0 /\ written S t j0 /\
    session p S (cs0 ++ cs) = Ok j /\ written S (t ++ separator b k ++ text v) j /\
    mu_jems_curr_level j = mu_jems_curr_level j0 /\ mu_jems_item_count j = Ok (to_size p (k + 1)).
Proof.
  intros p S cs0 v cs b k st HS H0 Hfit Htr Hk Hd Hn Hdep. destruct (proj1 (describes_ok) v cs Hd) as [Hcs _].
  destruct (session_rep p S HS cs0 H0) as (j1 & E1 & Hj1).
  destruct (session_rep p S HS (cs0 ++ cs)) as (j & E & Hj); [by apply Forall_app|].
  exists j1, j, (snd (arun p (maxl S) ([(false, 0)], []) cs0)). split; [done|]. split; [by eapply written_rep|]. split; [done|].
  rewrite arun_app in Hj. set (s := arun p (maxl S) ([(false, 0)], []) cs0) in *.
  assert (Hfst : fst s = map (fun x => (fst x, to_size p (snd x))) (track cs0)) by by apply sim_track_all.
  rewrite (surjective_pairing s), Hfst, Htr in Hj. rewrite Hfst, Htr in Hj1. cbn [map fst snd] in *.
  assert (Hk0 : 0 <= k).
  { clear -Htr. assert (Hp : Forall (fun x => 0 <= snd x) (track cs0)).
    { clear. induction cs0 as [|c cs IH] using rev_ind; [repeat constructor; simpl; lia|]. unfold track in *. rewrite fold_left_app. cbn [fold_left].
      assert (Hm : forall s, Forall (fun x : container => 0 <= snd x) s -> Forall (fun x => 0 <= snd x) (one_more s)).
      { intros [|[] s] H; [done|]. inversion H; subst. constructor; [simpl in *; lia|done]. }
      assert (Ho : forall v s, Forall (fun x : container => 0 <= snd x) s -> Forall (fun x => 0 <= snd x) (opened v s)).
      { intros v s H. destruct v; try done; constructor; simpl; done || lia. }
      destruct c as [v|? v| | |]; cbn [track1].
      - by apply Ho, Hm.
      - by apply Ho, Hm, Hm.
      - destruct (fold_left _ _ _) as [|? [|? ?]]; try done. by inversion IH.
      - destruct (fold_left _ _ _) as [|? [|? ?]]; try done. by inversion IH.
      - repeat constructor; simpl; lia. }
    rewrite Htr in Hp. by inversion Hp. }
  rewrite (to_size_id p k) in * by lia.
  rewrite (proj1 (emits_mut p (maxl S)) v cs Hd) in Hj; [|done|lia|simpl length in *; rewrite map_length; done].
  cbn [fst snd] in Hj. split; [by eapply written_rep|]. split; [|by eapply get_count_ok].
  unfold mu_jems_curr_level. destruct Hj, Hj1. simpl length in *. lia.
Qed.
Print Assumptions C50_in_context.

(** The bound on the number of items is needed: size_t counts them.  An array of one item
    more than size_t can count loses a comma. *)
Theorem C50_wide_refuted : forall p S, setting_ok p S -> 2 <= maxl S ->
  let n := Z.to_nat (size_mod p) in
  let v := JArr (replicate (n + 1) JNull) in
  exists cs j, describes v cs /\ session p S cs = Ok j /\
    written S (ch "[" :: commas (replicate n (str "null")) ++ str "null" ++ [ch "]"]) j /\ ~ written S (text v) j.
Proof.
  intros p S HS HM n v. set (open := CVal CArrayOpen). set (nulls := replicate n (CVal CNull)).
  assert (HL : forall k, describes_list (replicate k JNull) (replicate k (CVal CNull))).
  { induction k as [|k IH]; [constructor|]. apply (dl_cons JNull [CVal CNull]); [constructor|done]. }
  exists (open :: (nulls ++ [CVal CNull]) ++ [CArrayClose]).
  assert (Hd : describes v (open :: (nulls ++ [CVal CNull]) ++ [CArrayClose])).
  { unfold v. apply d_array. unfold nulls. change [CVal CNull] with (replicate 1 (CVal CNull)). rewrite <- replicate_add. apply HL. }
  destruct (proj1 describes_ok v _ Hd) as [Hcs _].
  destruct (session_rep p S HS _ Hcs) as (j & E & Hj). exists j. split; [done|]. split; [done|].
  assert (Hmod : 0 < size_mod p) by apply size_mod_pos.
  assert (Hrun : arun p (maxl S) ([(false, 0)], []) (open :: (nulls ++ [CVal CNull]) ++ [CArrayClose]) =
    ([(false, 1)], ch "[" :: commas (replicate n (str "null")) ++ str "null" ++ [ch "]"])).
  { change (open :: (nulls ++ [CVal CNull]) ++ [CArrayClose]) with ([open] ++ (nulls ++ [CVal CNull]) ++ [CArrayClose]). rewrite !arun_app.
    assert (E1 : arun p (maxl S) ([(false, 0)], []) [open] = ([(false, to_size p 0); (false, 1)], [ch "["])).
    { unfold arun, open. cbn [fold_left acall]. unfold aval, aopen, apush. cbn [fst snd amore asep length].
      replace (Z.of_nat 1 <? maxl S) with true by (symmetry; apply Z.ltb_lt; simpl length in *; lia). rewrite !to_size_id by (pose proof (size_mod_big p); lia). done. }
    rewrite E1. unfold nulls.
    rewrite (proj1 (proj2 (emits_mut p (maxl S))) _ _ (HL n) 0 [(false, 1)] [ch "["]).
    - rewrite replicate_length. unfold n. rewrite Z2Nat.id by lia. rewrite Z.add_0_l.
      assert (Emod : to_size p (size_mod p) = 0) by (unfold to_size; apply Z.mod_same; lia). rewrite Emod.
      unfold arun. cbn [fold_left acall]. unfold aval. cbn [fst snd amore asep aopen apop]. f_equal.
      assert (Es : separator false 0 = []) by done. rewrite Es. cbn [app].
      assert (Er : forall k, map text (replicate k JNull) = replicate k (str "null")).
      { clear. induction k as [|k IH]; [done|]. cbn [replicate map]. by rewrite IH. }
      rewrite Er. 

      assert (Em : forall l : list json, match l with [] => [] | _ :: _ => [] end = @nil Z) by (intros []; reflexivity). rewrite Em. cbn [app]. rewrite <- !app_assoc. reflexivity.
    - apply Forall_replicate. constructor.
    - lia.
    - rewrite replicate_length. unfold n. lia.
    - apply Forall_replicate. simpl. lia. }
  rewrite Hrun in Hj. cbn [fst snd] in Hj. apply written_rep in Hj. split; [done|].
  intros Hw. unfold written in *. rewrite Hw in Hj. apply app_inv_head in Hj.
  apply (f_equal length) in Hj. rewrite !map_length in Hj. unfold v in Hj. cbn [text] in Hj.
  assert (Er : forall k, map text (replicate k JNull) = replicate k (str "null")).
  { clear. induction k as [|k IH]; [done|]. cbn [replicate map]. by rewrite IH. }
  rewrite Er in Hj. rewrite replicate_add in Hj. cbn [length] in Hj. rewrite !app_length in Hj.
  assert (Hcl : forall k, (1 <= k)%nat -> length (commas (replicate k (str "null") ++ [str "null"])) = (length (commas (replicate k (str "null"))) + 5)%nat).
  { clear. induction k as [|k IH]; intros Hk; [lia|]. destruct k as [|k]; [done|].
    change (replicate (Datatypes.S (Datatypes.S k)) (str "null")) with (str "null" :: replicate (Datatypes.S k) (str "null")).
    rewrite <- app_comm_cons, !commas_cons. rewrite !app_length.
    assert (Hne : forall l : list (list Z), l <> [] -> match l with [] => [] | _ :: _ => ch "," :: commas l end = ch "," :: commas l) by by intros [].
    rewrite !Hne by done. cbn [length]. rewrite IH by lia. lia. }
  change (replicate 1 (str "null")) with [str "null"] in Hj. rewrite Hcl in Hj; [|unfold n; lia]. simpl length in Hj. lia.
Qed.
Print Assumptions C50_wide_refuted.

(** *** C60: the text parses back to the value, and to nothing else *)
Theorem C60_parses_back : forall p S v cs, setting_ok p S -> describes v cs -> narrow p v ->
  Z.of_nat (depth v) < maxl S ->
  exists j t, session p S cs = Ok j /\ written S t j /\ json_text v t /\
    (forall v', json_text v' t -> v' = v) /\ parse t = Some v.
Proof.
  intros p S v cs HS Hd Hn Hdep. destruct (C50_document p S v cs HS Hd Hn Hdep) as (j & E & Hw & _).
  destruct (proj1 (describes_ok) v cs Hd) as [_ Hwf]. pose proof (text_json v Hwf) as Ht.
  exists j, (text v). do 3 (split; [done|]). split; [|by apply parse_complete]. intros v' Hv'. by eapply json_text_unique.
Qed.
Print Assumptions C60_parses_back.

(** *** C51 *)
Definition printable (t : list Z) : Prop := Forall (fun c => 32 <= c < 127) t.
Definition a_separator (t : list Z) : Prop := t = [] \/ t = [ch ","] \/ t = [ch ":"].
Lemma asep_ok stk : a_separator (asep stk).
Proof. destruct stk as [|[b c] s]; [by left|]. simpl. unfold separator. destruct (0 <? c); [|by left]. destruct (b && Z.odd c); [right; by right|right; by left]. Qed.
Lemma hexdigit_printable x : 0 <= x < 16 -> 32 <= hexdigit x < 127.
Proof. unfold hexdigit. intros. destruct (Z.ltb_spec x 10); lia. Qed.
Lemma str_text_printable s : printable (str_text s).
Proof.
  unfold printable, str_text. constructor; [lia|]. apply Forall_app. split; [|apply Forall_singleton; lia].
  induction s as [|u s IH]; [constructor|]. cbn [map concat]. apply Forall_app. split; [|done]. unfold quote_unit.
  destruct (decide _) as [[->| ->]|]; [repeat (apply Forall_cons_2 || apply Forall_nil_2); lia..|]. destruct (decide _); [by apply Forall_singleton|].
  repeat (apply Forall_cons_2 || apply Forall_nil_2); try (apply hexdigit_printable, Z.mod_pos_bound; lia); chs; lia.
Qed.
(** a string item, given as a C string or as bytes *)
Definition string_item (c : call) (s : list Z) : Prop :=
  (exists mem, cstring mem s /\ c = CVal (CString mem)) \/
  (exists mem len, buffer mem len /\ s = take (Z.to_nat len) mem /\ c = CVal (CBytes mem len)).
Theorem C51_quoting : forall p S cs c s, setting_ok p S -> Forall call_ok cs -> string_item c s ->
  exists j1 j t0 sep t, session p S cs = Ok j1 /\ written S t0 j1 /\ session p S (cs ++ [c]) = Ok j /\
    written S (t0 ++ sep ++ t) j /\ a_separator sep /\ printable t /\
    (* t is a JSON string literal whose value is s *)
    json_text (JStr s) t /\ (forall v, json_text v t -> v = JStr s).
Proof.
  intros p S cs c s HS Hcs Hc.
  assert (Hok : call_ok c /\ wf_str s /\ forall st t, snd (acall p (maxl S) (st, t) c) = t ++ asep st ++ str_text s).
  { destruct Hc as [(mem & Hm & ->)|(mem & len & Hb & -> & ->)].
    - split; [simpl; eauto|]. split; [|intros; simpl; by rewrite (until0_ok _ _ Hm)]. destruct Hm as [Hs _].
      eapply Forall_impl; [exact Hs|]. simpl. lia.
    - split; [done|]. split; [|done]. destruct Hb as [Hm _]. apply Forall_take. eapply Forall_impl; [exact Hm|]. unfold byte. simpl. lia. }
  destruct Hok as (Hok & Hwf & Htxt). destruct (session_rep p S HS cs Hcs) as (j1 & E1 & Hj1).
  destruct (session_rep p S HS (cs ++ [c])) as (j & E & Hj); [apply Forall_app; split; [done|by apply Forall_singleton]|].
  set (s0 := arun p (maxl S) ([(false, 0)], []) cs) in *.
  exists j1, j, (snd s0), (asep (fst s0)), (str_text s). split; [done|]. split; [by eapply written_rep|]. split; [done|].
  rewrite arun_app in Hj. fold s0 in Hj. unfold arun in Hj. cbn [fold_left] in Hj. rewrite (surjective_pairing s0) in Hj. rewrite Htxt in Hj.
  split; [by eapply written_rep|]. split; [apply asep_ok|]. split; [apply str_text_printable|].
  assert (Hj' : json_text (JStr s) (str_text s)) by (apply (text_json (JStr s)); by constructor).
  split; [done|]. intros v Hv. by eapply json_text_unique.
Qed.
Print Assumptions C51_quoting.
(** distinct contents give distinct literals *)
Theorem C51_injective : forall s1 s2, Forall byte s1 -> Forall byte s2 -> str_text s1 = str_text s2 -> s1 = s2.
Proof.
  intros s1 s2 H1 H2 E.
  assert (W : forall s, Forall byte s -> json_text (JStr s) (str_text s)).
  { intros s Hs. apply (text_json (JStr s)). constructor. eapply Forall_impl; [exact Hs|]. unfold byte. simpl. lia. }
  pose proof (W s1 H1) as W1. rewrite E in W1. pose proof (json_text_unique _ _ _ W1 (W s2 H2)) as [= ->]. done.
Qed.
Print Assumptions C51_injective.

(** *** C52 *)
Theorem C52_bounds : forall p S cs, setting_ok p S -> Forall call_ok cs ->
  exists j, session p S cs = Ok j /\ 0 <= mu_jems_curr_level j < maxl S.
Proof.
  intros p S cs HS Hcs. destruct (session_rep p S HS cs Hcs) as (j & E & Hj). exists j. split; [done|].
  pose proof (Rep_lt _ _ _ _ _ _ _ _ Hj). destruct Hj. unfold mu_jems_curr_level.
  assert (0 < Z.of_nat (length (fst (arun p (maxl S) ([(false, 0)], []) cs)))) by (destruct (fst _); [done|simpl; lia]). lia.
Qed.
Print Assumptions C52_bounds.
(** with no level struct at all the first write is already out of bounds *)
Example C52_no_levels : forall w a j, mu_jems_init [] 0 w a j = UB.
Proof. done. Qed.

(** *** C56 *)
Theorem C56_level_and_count : forall p S cs, setting_ok p S -> Forall call_ok cs -> fits (maxl S) cs ->
  exists j b k st, session p S cs = Ok j /\ track cs = (b, k) :: st /\
    mu_jems_curr_level j = Z.of_nat (length st) /\ mu_jems_item_count j = Ok (k mod size_mod p).
Proof.
  intros p S cs HS Hcs Hfit. destruct (session_rep p S HS cs Hcs) as (j & E & Hj).
  rewrite (sim_track_all p (maxl S) cs Hfit) in Hj. destruct (track cs) as [|[b k] st]; [by destruct Hj|].
  exists j, b, k, st. split; [done|]. split; [done|]. cbn [map fst snd] in Hj. split; [|by eapply get_count_ok].
  unfold mu_jems_curr_level. destruct Hj. simpl length in *. rewrite map_length in *. lia.
Qed.
Print Assumptions C56_level_and_count.

(** *** C54 *)
(** [t] is the decimal representation of [z]: optional minus sign, digits without leading
    zeros; there is only one *)
Definition decimal_of (z : Z) (t : list Z) : Prop :=
  exists ds, Forall digit ds /\ ds <> [] /\ (ds = [0] \/ head ds <> Some 0) /\
    ((0 <= z /\ dval ds = z /\ t = dtext ds) \/ (z < 0 /\ dval ds = - z /\ t = ch "-" :: dtext ds)).
Theorem C54_integer : forall p S cs z, setting_ok p S -> Forall call_ok cs -> int64 z ->
  exists j1 j t0 sep t, session p S cs = Ok j1 /\ written S t0 j1 /\ session p S (cs ++ [CVal (CInteger z)]) = Ok j /\
    written S (t0 ++ sep ++ t) j /\ a_separator sep /\ decimal_of z t /\
    (length t + 1 <= 22)%nat (* it fits the buffer, terminator included *).
Proof.
  intros p S cs z HS Hcs Hz. destruct (session_rep p S HS cs Hcs) as (j1 & E1 & Hj1).
  destruct (session_rep p S HS (cs ++ [CVal (CInteger z)])) as (j & E & Hj); [apply Forall_app; split; [done|by apply Forall_singleton]|].
  set (s0 := arun p (maxl S) ([(false, 0)], []) cs) in *.
  exists j1, j, (snd s0), (asep (fst s0)), (fmt_d z). split; [done|]. split; [by eapply written_rep|]. split; [done|].
  rewrite arun_app in Hj. fold s0 in Hj. unfold arun in Hj. cbn [fold_left acall aval fst snd vtext] in Hj.
  split; [by eapply written_rep|]. split; [apply asep_ok|]. split; [|pose proof (fmt_d_len z Hz); lia].
  unfold decimal_of, fmt_d. destruct (digits_ok (Z.abs z) ltac:(lia)) as (D1 & D2 & D3 & D4).
  exists (digits (Z.abs z)). do 3 (split; [done|]). destruct (Z.ltb_spec z 0).
  - right. split; [done|]. split; [lia|done].
  - left. split; [done|]. split; [lia|done].
Qed.
Print Assumptions C54_integer.
Lemma digits_canonical a b : Forall digit a -> Forall digit b -> (a = [0] \/ head a <> Some 0) -> (b = [0] \/ head b <> Some 0) ->
  a <> [] -> b <> [] -> dval a = dval b -> a = b.
Proof.
  intros Ha Hb Ca Cb Na Nb E.
  assert (L : forall x, Forall digit x -> x <> [] -> (x = [0] \/ head x <> Some 0) -> x = [0] \/ 10 ^ Z.of_nat (length x - 1) <= dval x).
  { intros [|d x] Hx N C; [done|]. destruct C as [|C]; [by left|right]. inversion Hx as [|? ? Hd Hx']; subst. unfold digit in Hd. simpl in C.
    rewrite dval_cons. pose proof (dval_range x Hx'). assert (d <> 0) by congruence. replace (length (d :: x) - 1)%nat with (length x) by (simpl; lia).
    assert (0 < 10 ^ Z.of_nat (length x)) by (apply Z.pow_pos_nonneg; lia).
    assert (1 * 10 ^ Z.of_nat (length x) <= d * 10 ^ Z.of_nat (length x)) by (apply Z.mul_le_mono_nonneg_r; lia). lia. }
  assert (P : forall x : list Z, x <> [] -> (1 <= length x)%nat) by (intros [|] ?; [done|simpl; lia]).
  pose proof (P a Na). pose proof (P b Nb).
  assert (Z0 : forall x, Forall digit x -> dval x = 0 -> x <> [] -> (x = [0] \/ head x <> Some 0) -> x = [0]).
  { intros x Hx E0 N C. destruct (L x Hx N C) as [|Hl]; [done|]. assert (0 < 10 ^ Z.of_nat (length x - 1)) by (apply Z.pow_pos_nonneg; lia). lia. }
  destruct (L a Ha Na Ca) as [->|La]; [symmetry; apply Z0; try done|].
  destruct (L b Hb Nb Cb) as [->|Lb]; [apply Z0; try done|].
  pose proof (dval_range a Ha) as Ra. pose proof (dval_range b Hb) as Rb.
  apply digits_unique; try done. destruct (Nat.lt_trichotomy (length a) (length b)) as [Hlt|[?|Hlt]]; [|done|]; exfalso.
  - assert (10 ^ Z.of_nat (length a) <= 10 ^ Z.of_nat (length b - 1)) by (apply Z.pow_le_mono_r; lia). lia.
  - assert (10 ^ Z.of_nat (length b) <= 10 ^ Z.of_nat (length a - 1)) by (apply Z.pow_le_mono_r; lia). lia.
Qed.
Theorem C54_decimal_unique : forall z z' t t', decimal_of z t -> decimal_of z' t' -> (t = t' <-> z = z').
Proof.
  intros z z' t t' (a & Ha & Na & Ca & Ea) (b & Hb & Nb & Cb & Eb).
  assert (D : forall x y, dtext x = dtext y -> x = y).
  { intros x y. unfold dtext. revert y. induction x as [|d x IH]; intros [|e y] E; try done. simpl in E. injection E as E1 E2. f_equal; [lia|by apply IH]. }
  assert (M : forall x y, Forall digit x -> dtext x <> ch "-" :: y).
  { intros [|d x] y Hx; [done|]. inversion Hx as [|? ? Hd _]; subst. unfold digit in Hd. intros [= E _]. assert (d + 48 = 45) by exact E. lia. }
  split.
  - intros <-. destruct Ea as [(? & ? & ->)|(? & ? & ->)]; destruct Eb as [(? & ? & E)|(? & ? & E)].
    + apply D in E as ->. lia.
    + by apply M in E.
    + symmetry in E. by apply M in E.
    + injection E as E. apply D in E as ->. lia.
  - intros <-. assert (a = b) as -> by (apply digits_canonical; try done; lia).
    destruct Ea as [(? & ? & ->)|(? & ? & ->)]; destruct Eb as [(? & ? & ->)|(? & ? & ->)]; done || lia.
Qed.
Print Assumptions C54_decimal_unique.

(** *** C53 refuted: for every max_level there is a value, nested one level too deep, whose
    text is not JSON at all (and nothing reports the overflow) *)
Fixpoint nest (n : nat) : json := match n with O => JNum (int_num 1) | S n => JArr [nest n] end.
Definition nest_calls (n : nat) : list call := replicate n (CVal CArrayOpen) ++ CVal (CInteger 1) :: replicate n CArrayClose.
Lemma nest_describes n : describes (nest n) (nest_calls n).
Proof.
  induction n as [|n IH].
  - constructor. unfold int64. lia.
  - unfold nest_calls in *. replace (replicate (S n) CArrayClose) with (replicate n CArrayClose ++ [CArrayClose]) by by rewrite <- replicate_S_end.
    cbn [replicate nest app].
    replace (replicate n (CVal CArrayOpen) ++ CVal (CInteger 1) :: replicate n CArrayClose ++ [CArrayClose]) with
      (((replicate n (CVal CArrayOpen) ++ CVal (CInteger 1) :: replicate n CArrayClose) ++ []) ++ [CArrayClose]).
    + apply d_array. apply dl_cons; [done|constructor].
    + rewrite app_nil_r, <- app_assoc. done.
Qed.
Lemma nest_depth n : depth (nest n) = n.
Proof. induction n as [|n IH]; [done|]. simpl. rewrite IH. lia. Qed.
Lemma nest_narrow p n : narrow p (nest n).
Proof. induction n as [|n IH]; constructor; [simpl; pose proof (size_mod_big p); lia|]. by apply Forall_singleton. Qed.
Lemma unparsable : forall f k r, p_value f (replicate k (ch "[") ++ ch "," :: r) = None.
Proof.
  induction f as [f IH] using (well_founded_induction lt_wf). intros k r. destruct f as [|f]; [done|]. destruct k as [|k]; [reflexivity|].
  cbn [replicate app p_value]. rewrite Z.eqb_refl.
  assert (Hs : skip_ws (replicate k (ch "[") ++ ch "," :: r) = replicate k (ch "[") ++ ch "," :: r) by (destruct k; reflexivity).
  rewrite Hs. destruct (replicate k (ch "[") ++ ch "," :: r) as [|x t] eqn:E; [done|].
  assert (x =? ch "]" = false) as -> by (destruct k; injection E as <- _; reflexivity). rewrite <- E.
  destruct f as [|f]; [done|]. cbn [p_elements]. rewrite <- E in Hs; rewrite ?Hs; rewrite IH by lia. done.
Qed.
Theorem C53_too_deep_refuted : forall p S, setting_ok p S ->
  exists v cs j t, describes v cs /\ narrow p v /\ Z.of_nat (depth v) = maxl S /\
    session p S cs = Ok j /\ written S t j /\ (forall v', ~ json_text v' t).
Proof.
  intros p S HS. destruct HS as [H1 H2]. set (M := maxl S) in *. set (n := Z.to_nat M).
  exists (nest n), (nest_calls n). pose proof (nest_describes n) as Hd. destruct (proj1 (describes_ok) _ _ Hd) as [Hcs _].
  destruct (session_rep p S (conj H1 H2) (nest_calls n) Hcs) as (j & E & Hj). fold M in Hj.
  assert (Hopen : forall k s txt, Z.of_nat (length s) + 1 + Z.of_nat k <= M ->
    exists s', arun p M ((false, 0) :: s, txt) (replicate k (CVal CArrayOpen)) = ((false, 0) :: s', txt ++ replicate k (ch "[")) /\ length s' = (length s + k)%nat).
  { induction k as [|k IH]; intros s txt Hk.
    - exists s. unfold arun. simpl. rewrite app_nil_r. split; [done|lia].
    - cbn [replicate]. unfold arun. cbn [fold_left acall]. fold (arun p M). unfold aval. cbn [fst snd amore asep aopen vtext].
      unfold apush. cbn [length]. replace (Z.of_nat (Datatypes.S (length s)) <? M) with true by (symmetry; apply Z.ltb_lt; simpl length in *; lia).
      destruct (IH ((false, to_size p (0 + 1)) :: s) (txt ++ separator false 0 ++ [ch "["])) as (s' & E' & Hl); [simpl; lia|].
      exists s'. split; [unfold arun in E'; rewrite E'; rewrite <- app_assoc; done|simpl in Hl; lia]. }
  assert (Hclose : forall k st txt, snd (arun p M (st, txt) (replicate k CArrayClose)) = txt ++ replicate k (ch "]")).
  { induction k as [|k IH]; intros st txt; [simpl; by rewrite app_nil_r|]. cbn [replicate]. unfold arun. cbn [fold_left acall fst snd].
    unfold arun in IH. rewrite IH. rewrite <- app_assoc. done. }
  set (t := replicate n (ch "[") ++ ch "," :: ch "1" :: replicate n (ch "]")).
  assert (Ht : snd (arun p M ([(false, 0)], []) (nest_calls n)) = t).
  { unfold nest_calls. replace n with ((n - 1) + 1)%nat at 1 by (unfold n; lia). rewrite replicate_add, <- app_assoc, !arun_app.
    destruct (Hopen (n - 1)%nat [] []) as (s' & -> & Hl); [simpl; unfold n; lia|]. cbn [replicate app].
    rewrite <- arun_app. change ([CVal CArrayOpen] ++ CVal (CInteger 1) :: replicate n CArrayClose) with ([CVal CArrayOpen; CVal (CInteger 1)] ++ replicate n CArrayClose).
    rewrite arun_app.
    assert (E2 : arun p M ((false, 0) :: s', replicate (n - 1) (ch "[")) [CVal CArrayOpen; CVal (CInteger 1)] =
      ((false, to_size p 2) :: s', (replicate (n - 1) (ch "[") ++ [ch "["]) ++ [ch ","; ch "1"])).
    { unfold arun. cbn [fold_left acall]. unfold aval. cbn [fst snd amore asep aopen vtext]. unfold apush. cbn [length].
      replace (Z.of_nat (Datatypes.S (length s')) <? M) with false by (symmetry; apply Z.ltb_ge; simpl in Hl; unfold n in Hl; lia).
      rewrite (to_size_id p (0 + 1)) by (pose proof (size_mod_big p); lia). cbn [fst snd amore asep]. f_equal. }
    rewrite E2. rewrite Hclose. unfold t. assert (En : replicate n (ch "[") = replicate (n - 1) (ch "[") ++ [ch "["]) by (change [ch "["] with (replicate 1 (ch "[")); rewrite <- replicate_add; f_equal; unfold n; lia). rewrite En.
    rewrite <- !app_assoc. done. }
  exists j, t. split; [done|]. split; [apply nest_narrow|]. split; [rewrite nest_depth; unfold n; lia|]. split; [done|].
  split; [rewrite <- Ht; by eapply written_rep|]. intros v' Hv'. apply parse_complete in Hv'. unfold parse in Hv'.
  assert (Hsk : skip_ws t = t) by (unfold t; destruct n as [|k]; reflexivity). rewrite Hsk in Hv'. unfold t in Hv' at 2. by rewrite unparsable in Hv'.
Qed.
Print Assumptions C53_too_deep_refuted.
