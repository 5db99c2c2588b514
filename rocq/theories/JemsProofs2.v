(** * mu_jems: the abstract machine *)
From Verif Require Import CSem JsonSpec JsonParse JemsModel JemsSpec JemsProofs JemsDouble.
Open Scope Z_scope.

Fixpoint until0 (mem : list Z) : list Z :=
  match mem with c :: r => if c =? 0 then [] else c :: until0 r | [] => [] end.
Lemma until0_ok mem s : cstring mem s -> until0 mem = s.
Proof.
  intros [Hs (rest & ->)]. induction Hs as [|c s Hc _ IH]; [done|]. cbn [app until0].
  replace (c =? 0) with false by (symmetry; lia). by rewrite IH.
Qed.
(** the text sent for the item itself *)
Definition vtext (v : vcall) : list Z :=
  match v with
  | CObjectOpen => [ch "{"]
  | CArrayOpen => [ch "["]
  | CNumber d => number_text d
  | CInteger z => fmt_d z
  | CString mem => str_text (until0 mem)
  | CBytes mem len => str_text (take (Z.to_nat len) mem)
  | CBool b => if b then str "true" else str "false"
  | CTrue => str "true"
  | CFalse => str "false"
  | CNull => str "null"
  | CLiteral mem len => take (Z.to_nat len) mem
  end.

Section machine.
Context (p : plat) (M : Z).
Definition amore (stk : list container) : list container :=
  match stk with (b, c) :: s => (b, to_size p (c + 1)) :: s | [] => [] end.
Definition asep (stk : list container) : list Z :=
  match stk with (b, c) :: _ => separator b c | [] => [] end.
Definition aopen (v : vcall) (stk : list container) : list container :=
  match v with CObjectOpen => apush M true stk | CArrayOpen => apush M false stk | _ => stk end.
Definition aval (v : vcall) (s : list container * list Z) : list container * list Z :=
  (aopen v (amore (fst s)), snd s ++ asep (fst s) ++ vtext v).
Definition acall (s : list container * list Z) (c : call) : list container * list Z :=
  match c with
  | CVal v => aval v s
  | CKey k v => aval v (aval (CString k) s)
  | CObjectClose => (apop (fst s), snd s ++ [ch "}"])
  | CArrayClose => (apop (fst s), snd s ++ [ch "]"])
  | CReset => ([(false, 0)], snd s)
  end.
Definition arun (s : list container * list Z) (cs : list call) := fold_left acall cs s.
Lemma arun_app s a b : arun s (a ++ b) = arun (arun s a) b.
Proof. apply fold_left_app. Qed.

Context (w a : Z) (past : list (Z * Z * Z)).
Notation Rep := (Rep p M w a past).

Lemma leaf_ok v stk txt j : vcall_ok v -> Rep stk txt j ->
  exists j', exec p j (CVal v) = Ok j' /\ Rep (aopen v (amore stk)) (txt ++ asep stk ++ vtext v) j'.
Proof.
  intros Hv H. destruct stk as [|[b c] s]; [by destruct H|].
  destruct (commify_ok p M w a past b c s txt j H) as (j1 & E1 & H1). cbn [amore asep].
  set (stk' := (b, to_size p (c + 1)) :: s) in *. rewrite app_assoc. set (txt' := txt ++ separator b c) in *.
  assert (Hlit : forall (t : list Z), Forall (fun c => c <> 0) t -> exists j', (let* j := commify p j in emit_string j (t ++ [0])) = Ok j' /\ Rep stk' (txt' ++ t) j').
  { intros t Ht. rewrite E1. cbn [bind]. by apply emit_string_ok. }
  destruct v as [| |d|z|mem|mem len|bb| | | |mem len]; cbn [exec vtext aopen].
  - unfold mu_jems_object_open. rewrite E1. cbn [bind]. apply push_ok. by apply emit_char_ok.
  - unfold mu_jems_array_open. rewrite E1. cbn [bind]. apply push_ok. by apply emit_char_ok.
  - destruct Hv as [Hd Hc]. unfold mu_jems_number. destruct (convertible_defined d Hd Hc) as (i & Ei).
    destruct (shows_total d Hd Hc) as (n & Hn). destruct (number_text_shows d n Hd Hc Hn) as [Et Hwf].
    pose proof (num_text_nz n Hwf) as Hnz. rewrite <- Et in Hnz. unfold number_text in *. rewrite Ei in *. cbn [bind].
    specialize (Hlit _ Hnz). destruct (eq_double _ _); exact Hlit.
  - simpl in Hv. unfold mu_jems_integer, snprintf. rewrite take_ge by (pose proof (fmt_d_len z Hv); lia). apply Hlit, fmt_d_nz.
  - destruct Hv as (t & Ht). rewrite (until0_ok mem t Ht). unfold mu_jems_string, str_text. rewrite E1. cbn [bind].
    destruct (quoted_string_ok p M w a past t stk' _ _ mem Ht (emit_char_ok p M w a past stk' txt' j1 34 H1)) as (j2 & -> & H2). cbn [bind].
    eexists. split; [done|]. replace (txt' ++ 34 :: concat (map quote_unit t) ++ [34]) with (((txt' ++ [34]) ++ concat (map quote_unit t)) ++ [34]) by by rewrite <- !app_assoc.
    by apply emit_char_ok.
  - unfold mu_jems_bytes, str_text. rewrite E1. cbn [bind].
    destruct (quoted_bytes_ok p M w a past mem len stk' _ _ Hv (emit_char_ok p M w a past stk' txt' j1 34 H1)) as (j2 & -> & H2). cbn [bind].
    eexists. split; [done|]. set (t := take _ mem) in *. replace (txt' ++ 34 :: concat (map quote_unit t) ++ [34]) with (((txt' ++ [34]) ++ concat (map quote_unit t)) ++ [34]) by by rewrite <- !app_assoc.
    by apply emit_char_ok.
  - unfold mu_jems_bool. destruct bb; apply Hlit; repeat constructor; discriminate.
  - unfold mu_jems_true. apply Hlit; repeat constructor; discriminate.
  - unfold mu_jems_false. apply Hlit; repeat constructor; discriminate.
  - unfold mu_jems_null. apply Hlit; repeat constructor; discriminate.
  - unfold mu_jems_literal. rewrite E1. cbn [bind]. pose proof Hv as (_ & Hl & _).
    destruct (literal_loop_ok p M w a past mem len Hv (S (Z.to_nat len)) 0 stk' txt' j1) as (j' & E & H'); [lia|lia|done|].
    exists j'. rewrite Z.sub_0_r in H'. done.
Qed.
Lemma key_exec j k v : exec p j (CKey k v) = (let* j := exec p j (CVal (CString k)) in exec p j (CVal v)).
Proof. by destruct v. Qed.
Lemma exec_ok c s j : call_ok c -> Rep (fst s) (snd s) j ->
  exists j', exec p j c = Ok j' /\ Rep (fst (acall s c)) (snd (acall s c)) j'.
Proof.
  intros Hc H. destruct c as [v|k v| | |].
  - by apply leaf_ok.
  - destruct Hc as [Hk Hv]. rewrite key_exec.
    destruct (leaf_ok (CString k) _ _ j Hk H) as (j1 & -> & H1). cbn [bind]. cbn [acall].
    apply (leaf_ok v (fst (aval (CString k) s)) (snd (aval (CString k) s)) j1 Hv H1).
  - cbn [exec acall fst snd]. eexists. split; [done|]. apply pop_ok. by apply emit_char_ok.
  - cbn [exec acall fst snd]. eexists. split; [done|]. apply pop_ok. by apply emit_char_ok.
  - cbn [exec acall fst snd]. pose proof (Rep_lt _ _ _ _ _ _ _ _ H). destruct H.
    apply reset_ok; try done. split; [|done]. destruct (fst s); [done|]. simpl length in *. lia.
Qed.
Lemma exec_all_ok : forall cs s j, Forall call_ok cs -> Rep (fst s) (snd s) j ->
  exists j', exec_all p j cs = Ok j' /\ Rep (fst (arun s cs)) (snd (arun s cs)) j'.
Proof.
  induction cs as [|c cs IH]; intros s j Hc H; cbn [exec_all]; [eauto|]. inversion Hc; subst.
  destruct (exec_ok c s j ltac:(done) H) as (j1 & -> & H1). cbn [bind]. by apply IH.
Qed.

(** ** tracking *)
Lemma sim_track st stk c : Z.of_nat (length st) <= M -> Z.of_nat (length (track1 st c)) <= M ->
  stk = map (fun x => (fst x, to_size p (snd x))) st -> (forall txt, fst (acall (stk, txt) c) = map (fun x => (fst x, to_size p (snd x))) (track1 st c)).
Proof.
  intros H1 H2 -> txt.
  assert (Hmore : forall s, amore (map (fun x => (fst x, to_size p (snd x))) s) = map (fun x => (fst x, to_size p (snd x))) (one_more s)).
  { intros [|[b n] s]; [done|]. simpl. do 2 f_equal. unfold to_size. by rewrite Zplus_mod_idemp_l. }
  assert (Hlen : forall s, length (one_more s) = length s) by by intros [|[] ].
  assert (Hopen : forall v s, Z.of_nat (length (opened v s)) <= M ->
    aopen v (map (fun x => (fst x, to_size p (snd x))) s) = map (fun x => (fst x, to_size p (snd x))) (opened v s)).
  { intros v s Hs. destruct v; try done; simpl in *; unfold apush; rewrite map_length;
      (replace (Z.of_nat (length s) <? M) with true by (symmetry; lia)); simpl; rewrite to_size_id by (pose proof (size_mod_pos p); lia); done. }
  destruct c as [v|k v| | |]; cbn [acall track1 fst snd aval aopen] in *.
  - rewrite Hmore. by apply Hopen.
  - rewrite !Hmore. by apply Hopen.
  - by destruct st as [|x [|y st]].
  - by destruct st as [|x [|y st]].
  - simpl. rewrite to_size_id by (pose proof (size_mod_pos p); lia). done.
Qed.
Lemma sim_track_all cs : fits M cs ->
  forall txt, fst (arun ([(false, 0)], txt) cs) = map (fun x => (fst x, to_size p (snd x))) (track cs).
Proof.
  induction cs as [|c cs IH] using rev_ind; intros Hf txt.
  - simpl. rewrite to_size_id by (pose proof (size_mod_pos p); lia). done.
  - assert (Hf' : fits M cs).
    { intros k. destruct (Nat.le_gt_cases k (length cs)).
      - specialize (Hf k). by rewrite take_app_le in Hf by done.
      - specialize (Hf (length cs)). rewrite take_app in Hf. by rewrite take_ge by lia. }
    rewrite arun_app. unfold track. rewrite fold_left_app. cbn [fold_left]. fold (track cs).
    pose proof (Hf (length cs)) as Ha. rewrite take_app in Ha. pose proof (Hf (length (cs ++ [c]))) as Hb.
    rewrite take_ge in Hb by lia. unfold track in Hb at 1. rewrite fold_left_app in Hb. cbn [fold_left] in Hb. fold (track cs) in Hb.
    unfold arun at 1. cbn [fold_left]. rewrite (surjective_pairing (arun _ cs)).
    by apply sim_track; [| |apply IH].
Qed.

(** ** describing calls send the text *)
Lemma describes_ok :
  (forall v cs, describes v cs -> Forall call_ok cs /\ wf_json v) /\
  (forall l cs, describes_list l cs -> Forall call_ok cs /\ Forall wf_json l) /\
  (forall l cs, describes_members l cs -> Forall call_ok cs /\ Forall (fun kv => wf_str (fst kv) /\ wf_json (snd kv)) l).
Proof.
  assert (Hcs : forall mem s, cstring mem s -> wf_str s).
  { intros mem s [Hs _]. eapply Forall_impl; [exact Hs|]. simpl. lia. }
  assert (Hint : forall z, wf_num (int_num z)) by (intros z; split; [simpl; lia|split; [constructor|done]]).
  apply describes_mut.
  - split; repeat constructor.
  - split; repeat constructor.
  - split; repeat constructor.
  - split; repeat constructor.
  - intros z Hz. split; [by apply Forall_singleton|]. constructor. apply Hint.
  - intros d n Hd Hc Hn. split; [by apply Forall_singleton|]. constructor. by eapply number_text_shows.
  - intros mem s Hs. split; [constructor; [simpl; eauto|constructor]|]. constructor. by eapply Hcs.
  - intros mem len Hb. split; [by apply Forall_singleton|]. constructor. destruct Hb as [Hm _]. apply Forall_take.
    eapply Forall_impl; [exact Hm|]. unfold byte. simpl. lia.
  - intros l cs _ [H1 H2]. split; [|by constructor]. constructor; [done|]. apply Forall_app. split; [done|]. by apply Forall_singleton.
  - intros l cs _ [H1 H2]. split; [|by constructor]. constructor; [done|]. apply Forall_app. split; [done|]. by apply Forall_singleton.
  - split; constructor.
  - intros v cv l cs _ [H1 H2] _ [H3 H4]. split; [by apply Forall_app|by constructor].
  - split; constructor.
  - intros k ck v cv l cs _ [H1 H2] _ [H3 H4] _ [H5 H6]. split; [rewrite !Forall_app; done|]. constructor; [|done]. by inversion H2; subst.
  - intros mem k v c cv l cs Hk _ [H1 H2] _ [H3 H4]. inversion H1; subst. split.
    + constructor; [split; [eauto|done]|]. by apply Forall_app.
    + constructor; [|done]. simpl. split; [by eapply Hcs|done].
Qed.

Definition depth_le (n : nat) (l : list json) : Prop := Forall (fun v => (depth v <= n)%nat) l.
Lemma depth_max l n : (fold_right Nat.max 0%nat l <= n)%nat <-> Forall (fun d => (d <= n)%nat) l.
Proof.
  induction l as [|d l IH]; simpl; [split; [constructor|lia]|]. rewrite Forall_cons, <- IH. lia.
Qed.

(** emission of one value in a state with innermost container (b, c) *)
Definition emits (v : json) (cs : list call) : Prop :=
  forall b c s txt, narrow p v -> 0 <= c < size_mod p -> Z.of_nat (depth v) + Z.of_nat (length ((b, c) :: s)) <= M ->
    arun ((b, c) :: s, txt) cs = ((b, to_size p (c + 1)) :: s, txt ++ separator b c ++ text v).
Lemma sep_comma c : 0 <= c -> separator false c = if 0 <? c then [ch ","] else [].
Proof. done. Qed.
Lemma size_mod_even : Z.even (size_mod p) = true.
Proof. by destruct p. Qed.

(** the elements of an array: [done] of them have been emitted *)
Definition emits_list (l : list json) (cs : list call) : Prop :=
  forall c s txt, Forall (narrow p) l -> 0 <= c -> c + Z.of_nat (length l) <= size_mod p ->
    Forall (fun v => Z.of_nat (depth v) + Z.of_nat (length ((false, c) :: s)) <= M) l ->
    arun ((false, to_size p c) :: s, txt) cs =
      ((false, to_size p (c + Z.of_nat (length l))) :: s,
       txt ++ (match l with [] => [] | _ => separator false c end) ++ commas (map text l)).
Definition member_text (kv : list Z * json) : list Z := str_text (fst kv) ++ ch ":" :: text (snd kv).
Definition emits_members (l : list (list Z * json)) (cs : list call) : Prop :=
  forall c s txt, Forall (fun kv => narrow p (snd kv)) l -> 0 <= c -> Z.even c = true -> c + 2 * Z.of_nat (length l) <= size_mod p ->
    Forall (fun kv => Z.of_nat (depth (snd kv)) + Z.of_nat (length ((true, c) :: s)) <= M) l ->
    arun ((true, to_size p c) :: s, txt) cs =
      ((true, to_size p (c + 2 * Z.of_nat (length l))) :: s,
       txt ++ (match l with [] => [] | _ => separator true c end) ++ commas (map member_text l)).
Lemma commas_cons t l : commas (t :: l) = t ++ match l with [] => [] | _ => ch "," :: commas l end.
Proof. destruct l; simpl; [by rewrite app_nil_r|done]. Qed.
Lemma leaf_emits v vc : (forall l, v <> JArr l) -> (forall l, v <> JObj l) ->
  aopen vc = (fun s => s) -> vtext vc = text v -> emits v [CVal vc].
Proof.
  intros _ _ Ho Ht b c s txt _ Hc Hd. unfold arun. cbn [fold_left acall]. unfold aval. cbn [fst snd amore asep]. by rewrite Ho, Ht.
Qed.
(** a key-value function is the key as a string, then the value *)
Lemma arun_key s mem c cv : arun s (CKey mem c :: cv) = arun (arun s [CVal (CString mem)]) (CVal c :: cv).
Proof. done. Qed.
Lemma member_step k v c s txt ck cv : emits (JStr k) ck -> emits v cv -> narrow p v -> 0 <= c -> Z.even c = true ->
  c + 2 <= size_mod p -> Z.of_nat (depth v) + Z.of_nat (length ((true, c) :: s)) <= M ->
  arun (arun ((true, to_size p c) :: s, txt) ck) cv =
    ((true, to_size p (c + 2)) :: s, txt ++ separator true c ++ member_text (k, v)).
Proof.
  intros Hk Hv Hn Hc He Hl Hd. rewrite (to_size_id p c) by lia.
  rewrite Hk; [|constructor|lia|simpl in *; lia]. rewrite (to_size_id p (c + 1)) by lia.
  rewrite Hv; [|done|lia|simpl in *; lia].
  f_equal; [do 3 f_equal; lia|]. unfold member_text. cbn [fst snd text]. rewrite <- !app_assoc. do 3 f_equal.
  unfold separator. replace (0 <? c + 1) with true by (symmetry; lia). rewrite Z.odd_add. rewrite <- (Z.negb_even c), He. done.
Qed.
Lemma emits_mut :
  (forall v cs, describes v cs -> emits v cs) /\
  (forall l cs, describes_list l cs -> emits_list l cs) /\
  (forall l cs, describes_members l cs -> emits_members l cs).
Proof.
  apply describes_mut.
  - by apply leaf_emits.
  - intros b. apply leaf_emits; done.
  - by apply leaf_emits.
  - by apply leaf_emits.
  - intros z Hz. apply leaf_emits; try done. apply fmt_d_text.
  - intros d n Hd Hc Hn. apply leaf_emits; try done. by eapply number_text_shows.
  - intros mem s Hs. apply leaf_emits; try done. cbn [vtext text]. by rewrite (until0_ok _ _ Hs).
  - intros mem len Hb. by apply leaf_emits.
  - intros l cs _ IH b c s txt Hn Hc Hd. inversion Hn; subst.
    change (CVal CArrayOpen :: cs ++ [CArrayClose]) with ([CVal CArrayOpen] ++ cs ++ [CArrayClose]). rewrite !arun_app.
    unfold arun at 3. cbn [fold_left acall]. unfold aval. cbn [fst snd amore asep aopen vtext].
    cbn [depth] in Hd. assert (Hlt : (Z.of_nat (S (length s)) <? M) = true) by (apply Z.ltb_lt; simpl length in *; lia).
    unfold apush. cbn [length]. rewrite Hlt.
    pose proof (IH 0 ((b, to_size p (c + 1)) :: s) (txt ++ separator b c ++ [ch "["])) as E.
    rewrite (to_size_id p 0) in E by (pose proof (size_mod_pos p); lia). rewrite E; clear E; try done; try lia.
    + unfold arun. cbn [fold_left acall fst snd apop]. f_equal. cbn [text]. rewrite <- !app_assoc. do 2 f_equal. cbn [app]. f_equal.
      by destruct l.
    + set (n := fold_right Nat.max 0%nat (map depth l)) in *. assert (Hx : (n <= n)%nat) by done. unfold n at 1 in Hx. apply depth_max in Hx.
      rewrite Forall_fmap in Hx. eapply Forall_impl; [exact Hx|]. simpl. simpl in Hd. lia.
  - intros l cs _ IH b c s txt Hn Hc Hd. inversion Hn; subst.
    change (CVal CObjectOpen :: cs ++ [CObjectClose]) with ([CVal CObjectOpen] ++ cs ++ [CObjectClose]). rewrite !arun_app.
    unfold arun at 3. cbn [fold_left acall]. unfold aval. cbn [fst snd amore asep aopen vtext].
    cbn [depth] in Hd. assert (Hlt : (Z.of_nat (S (length s)) <? M) = true) by (apply Z.ltb_lt; simpl length in *; lia).
    unfold apush. cbn [length]. rewrite Hlt.
    pose proof (IH 0 ((b, to_size p (c + 1)) :: s) (txt ++ separator b c ++ [ch "{"])) as E.
    rewrite (to_size_id p 0) in E by (pose proof (size_mod_pos p); lia). rewrite E; clear E; try done; try lia.
    + unfold arun. cbn [fold_left acall fst snd apop]. f_equal. cbn [text]. rewrite <- !app_assoc. do 2 f_equal. cbn [app]. f_equal.
      by destruct l.
    + set (n := fold_right Nat.max 0%nat (map (fun kv => depth (snd kv)) l)) in *. assert (Hx : (n <= n)%nat) by done. unfold n at 1 in Hx. apply depth_max in Hx.
      rewrite Forall_fmap in Hx. eapply Forall_impl; [exact Hx|]. simpl. simpl in Hd. lia.
  - intros c s txt _ Hc Hl _. unfold arun. simpl. rewrite Z.add_0_r, app_nil_r. done.
  - intros v cv l cs _ IHv _ IHl c s txt Hn Hc Hl Hd. inversion Hn as [|? ? Hn1 Hn2]; inversion Hd as [|? ? Hd1 Hd2]; subst. simpl length in Hl.
    rewrite arun_app. rewrite (to_size_id p c) by lia. rewrite IHv; [|done|lia|done].
    rewrite IHl; [|done|lia|lia|eapply Forall_impl; [exact Hd2|]; simpl; lia].
    f_equal; [simpl length; do 3 f_equal; lia|]. rewrite <- !app_assoc. do 2 f_equal. cbn [map]. rewrite commas_cons. f_equal.
    destruct l as [|v' l]; [done|]. cbn [map]. unfold separator at 1. replace (0 <? c + 1) with true by (symmetry; lia). done.
  - intros c s txt _ Hc _ Hl _. unfold arun. simpl. rewrite Z.add_0_r, app_nil_r. done.
  - intros k ck v cv l cs _ IHk _ IHv _ IHl c s txt Hn Hc He Hl Hd. inversion Hn as [|? ? Hn1 Hn2]; inversion Hd as [|? ? Hd1 Hd2]; subst. simpl length in Hl.
    rewrite arun_app, arun_app. rewrite (member_step k v c s txt ck cv); try done; [|lia].
    rewrite IHl; [|done|lia|by rewrite Z.even_add, He|lia|eapply Forall_impl; [exact Hd2|]; simpl; lia].
    f_equal; [simpl length; do 3 f_equal; lia|]. rewrite <- !app_assoc. do 2 f_equal. cbn [map]. rewrite commas_cons. f_equal.
    destruct l as [|v' l]; [done|]. cbn [map]. unfold separator at 1. replace (0 <? c + 2) with true by (symmetry; lia).
    rewrite Z.odd_add, <- (Z.negb_even c), He. done.
  - intros mem k v c0 cv l cs Hk _ IHv _ IHl c s txt Hn Hc He Hl Hd. inversion Hn as [|? ? Hn1 Hn2]; inversion Hd as [|? ? Hd1 Hd2]; subst. simpl length in Hl.
    change (CKey mem c0 :: cv ++ cs) with ((CKey mem c0 :: cv) ++ cs). rewrite arun_app, arun_key.
    rewrite (member_step k v c s txt [CVal (CString mem)] (CVal c0 :: cv)); try done; [| |lia].
    2:{ apply leaf_emits; try done. cbn [vtext text]. by rewrite (until0_ok _ _ Hk). }
    rewrite IHl; [|done|lia|by rewrite Z.even_add, He|lia|eapply Forall_impl; [exact Hd2|]; simpl; lia].
    f_equal; [simpl length; do 3 f_equal; lia|]. rewrite <- !app_assoc. do 2 f_equal. cbn [map]. rewrite commas_cons. f_equal.
    destruct l as [|v' l]; [done|]. cbn [map]. unfold separator at 1. replace (0 <? c + 2) with true by (symmetry; lia).
    rewrite Z.odd_add, <- (Z.negb_even c), He. done.
Qed.
End machine.
