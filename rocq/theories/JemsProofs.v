(** * mu_jems: refinement to an abstract machine (open containers, text emitted) *)
From Verif Require Import CSem JsonSpec JsonParse JemsModel JemsSpec.
Open Scope Z_scope.

Lemma ld_mid {A} (a : list A) x b i : i = Z.of_nat (length a) -> ld (a ++ x :: b) i = Ok x.
Proof. intros ->. apply ld_ok. by apply list_lookup_middle. Qed.
Lemma st_mid {A} (a : list A) x y b i : i = Z.of_nat (length a) -> st (a ++ x :: b) i y = Ok (a ++ y :: b).
Proof.
  intros ->. rewrite st_ok; [|rewrite app_length; simpl; lia]. rewrite Nat2Z.id, insert_app_r_alt by lia.
  by rewrite Nat.sub_diag.
Qed.

Lemma ld_0 {A} (x : A) b : ld (x :: b) 0 = Ok x.
Proof. done. Qed.
Lemma st_0 {A} (x y : A) b : st (x :: b) 0 y = Ok (y :: b).
Proof. apply (st_mid [] x y b 0). done. Qed.

Section proofs.
Context (p : plat) (M w a : Z) (past : list (Z * Z * Z)).

Definition mk (c : container) : jlevel := MkLevel (Some (snd c)) (Some (fst c)).
Definition tag (t : list Z) : list (Z * Z * Z) := map (fun c => (w, c, a)) t.
Record Rep (stk : list container) (txt : list Z) (j : jems) : Prop := {
  rep_levels : exists junk, levels j = map mk (rev stk) ++ junk;
  rep_len : Z.of_nat (length (levels j)) = M;
  rep_cur : curr_level j + 1 = Z.of_nat (length stk);
  rep_ne : stk <> [];
  rep_counts : Forall (fun c => 0 <= snd c < size_mod p) stk;
  rep_max : max_level j = M;
  rep_bound : M < size_mod p;
  rep_w : writer j = w; rep_a : arg j = a;
  rep_sent : sent j = past ++ tag txt }.

Lemma Rep_lt stk txt j : Rep stk txt j -> Z.of_nat (length stk) <= M.
Proof. intros H. destruct (rep_levels _ _ _ H) as (junk & E). rewrite <- (rep_len _ _ _ H), E, app_length, map_length, rev_length. lia. Qed.
Lemma Rep_top b c s txt j : Rep ((b, c) :: s) txt j ->
  exists junk, levels j = map mk (rev s) ++ mk (b, c) :: junk /\ curr_level j = Z.of_nat (length (map mk (rev s))).
Proof.
  intros H. destruct (rep_levels _ _ _ H) as (junk & E). exists junk. simpl in E. rewrite map_app, <- app_assoc in E. split; [done|].
  rewrite map_length, rev_length. pose proof (rep_cur _ _ _ H) as Hc. simpl in Hc. lia.
Qed.
Lemma get_count_ok b c s txt j : Rep ((b, c) :: s) txt j -> get_item_count j = Ok c.
Proof. intros H. destruct (Rep_top _ _ _ _ _ H) as (junk & E & Ec). unfold get_item_count. rewrite E, ld_mid by done. done. Qed.
Lemma get_obj_ok b c s txt j : Rep ((b, c) :: s) txt j -> get_is_object j = Ok b.
Proof. intros H. destruct (Rep_top _ _ _ _ _ H) as (junk & E & Ec). unfold get_is_object. rewrite E, ld_mid by done. done. Qed.
Lemma emit_char_ok stk txt j c : Rep stk txt j -> Rep stk (txt ++ [c]) (emit_char j c).
Proof.
  intros []. split; simpl; try done. rewrite rep_sent0, rep_w0, rep_a0. unfold tag. rewrite map_app, app_assoc. done.
Qed.
Lemma set_count_ok b c s txt j n : Rep ((b, c) :: s) txt j -> 0 <= n < size_mod p ->
  exists j', set_item_count j n = Ok j' /\ Rep ((b, n) :: s) txt j'.
Proof.
  intros H Hn. destruct (Rep_top _ _ _ _ _ H) as (junk & E & Ec). unfold set_item_count. rewrite E, ld_mid by done. cbn [bind].
  rewrite st_mid by done. cbn [bind]. eexists. split; [done|]. destruct H. split; simpl; try done.
  - exists junk. rewrite map_app, <- app_assoc. done.
  - rewrite E in rep_len0. rewrite app_length in *. simpl in *. lia.
  - inversion rep_counts0; subst. by constructor.
Qed.

Lemma commify_ok b c s txt j : Rep ((b, c) :: s) txt j ->
  exists j', commify p j = Ok j' /\ Rep ((b, to_size p (c + 1)) :: s) (txt ++ separator b c) j'.
Proof.
  intros H. unfold commify. rewrite (get_count_ok _ _ _ _ _ H). cbn [bind]. rewrite (get_obj_ok _ _ _ _ _ H). cbn [bind].
  set (j1 := if b then _ else _).
  assert (H1 : Rep ((b, c) :: s) (txt ++ separator b c) j1).
  { subst j1. unfold separator. destruct (0 <? c).
    - destruct b; simpl; [destruct (Z.odd c)|]; by apply emit_char_ok.
    - rewrite app_nil_r. by destruct b. }
  rewrite (get_count_ok _ _ _ _ _ H1). cbn [bind]. apply set_count_ok with (c := c); [done|]. apply to_size_range.
Qed.

(** ** emitting *)
Lemma emit_string_ok : forall s stk txt j r, Forall (fun c => c <> 0) s -> Rep stk txt j ->
  exists j', emit_string j (s ++ 0 :: r) = Ok j' /\ Rep stk (txt ++ s) j'.
Proof.
  induction s as [|c s IH]; intros stk txt j r Hs H; cbn [app emit_string].
  - change (0 =? 0) with true. cbn iota. exists j. by rewrite app_nil_r.
  - inversion Hs; subst. replace (c =? 0) with false by (symmetry; lia).
    destruct (IH stk (txt ++ [c]) (emit_char j c) r) as (j' & E & H'); [done|by apply emit_char_ok|].
    exists j'. rewrite <- app_assoc in H'. done.
Qed.
Lemma fmt_04x_ok b : byte b -> fmt_04x b =
  [hexdigit (b / 4096 mod 16); hexdigit (b / 256 mod 16); hexdigit (b / 16 mod 16); hexdigit (b mod 16)].
Proof.
  intros Hb. unfold byte in Hb. unfold fmt_04x, hex_fuel.
  assert (b / 256 = 0) as -> by (apply Z.div_small; lia). assert (b / 4096 = 0) as -> by (apply Z.div_small; lia).
  change (0 mod 16) with 0. change (hexdigit 0) with (ch "0").
  destruct (Z.ltb_spec b 16).
  - rewrite (Z.mod_small b 16) by lia. rewrite (Z.div_small b 16) by lia. done.
  - assert (b / 16 < 16) by (apply Z.div_lt_upper_bound; lia). assert (0 <= b / 16) by (apply Z.div_pos; lia).
    rewrite (Z.mod_small (b / 16) 16) by lia. destruct (Z.ltb_spec (b / 16) 16); [done|lia].
Qed.
Lemma hexdigit_pos x : 0 <= x -> hexdigit x <> 0.
Proof. intros. unfold hexdigit. zb; lia. Qed.
Lemma quoted_byte_ok b stk txt j : byte b -> Rep stk txt j ->
  exists j', emit_quoted_byte j b = Ok j' /\ Rep stk (txt ++ quote_unit b) j'.
Proof.
  intros Hb H. unfold emit_quoted_byte, quote_unit. unfold byte in Hb.
  destruct ((b <? 32) || (127 <=? b)) eqn:E.
  - rewrite decide_False by lia. rewrite decide_False by lia. rewrite fmt_04x_ok by done.
    set (s := 92 :: _). change (sprintf 7 s) with (Ok (s ++ [0])). cbn [bind]. apply emit_string_ok; [|done].
    subst s. pose proof (Z.mod_pos_bound b 16 ltac:(lia)). pose proof (Z.mod_pos_bound (b / 16) 16 ltac:(lia)).
    pose proof (Z.mod_pos_bound (b / 256) 16 ltac:(lia)). pose proof (Z.mod_pos_bound (b / 4096) 16 ltac:(lia)).
    repeat constructor; try apply hexdigit_pos; done || lia.
  - destruct ((b =? 92) || (b =? 34)) eqn:E2.
    + rewrite decide_True by lia. eexists. split; [done|]. replace (txt ++ [92; b]) with ((txt ++ [92]) ++ [b]) by by rewrite <- app_assoc.
      by do 2 apply emit_char_ok.
    + rewrite decide_False by lia. rewrite decide_True by lia. eexists. split; [done|]. by apply emit_char_ok.
Qed.
Lemma quoted_string_ok : forall s stk txt j mem, cstring mem s -> Rep stk txt j ->
  exists j', emit_quoted_string j mem = Ok j' /\ Rep stk (txt ++ concat (map quote_unit s)) j'.
Proof.
  induction s as [|c s IH]; intros stk txt j mem [Hs (rest & ->)] H; cbn [app emit_quoted_string map concat].
  - change (0 =? 0) with true. cbn iota. exists j. by rewrite app_nil_r.
  - inversion Hs; subst. replace (c =? 0) with false by (symmetry; lia).
    destruct (quoted_byte_ok c stk txt j ltac:(unfold byte; lia) H) as (j1 & -> & H1). cbn [bind].
    destruct (IH stk _ j1 (s ++ 0 :: rest) ltac:(split; eauto) H1) as (j' & E & H'). exists j'. rewrite <- app_assoc in H'. done.
Qed.
Lemma quoted_bytes_loop_ok mem len : buffer mem len -> forall f i stk txt j,
  0 <= i <= len -> Z.of_nat f = len - i + 1 -> Rep stk txt j ->
  exists j', emit_quoted_bytes_loop p f j i mem len = Ok j' /\
    Rep stk (txt ++ concat (map quote_unit (take (Z.to_nat (len - i)) (drop (Z.to_nat i) mem)))) j'.
Proof.
  intros (Hm & Hl & Hi). induction f as [|f IH]; intros i stk txt j Hr Hf H; [lia|]. cbn [emit_quoted_bytes_loop].
  pose proof (size_mod_big p). unfold int_max in Hi. rewrite to_size_id by lia. destruct (Z.ltb_spec i len).
  - destruct (ld_ex mem i) as (b & Eb & ->); [lia|]. cbn [bind].
    assert (byte b) by (eapply Forall_lookup_1; [exact Hm|exact Eb]).
    destruct (quoted_byte_ok b stk txt j ltac:(done) H) as (j1 & -> & Hj1). cbn [bind].
    unfold iadd. rewrite ichk_ok by (unfold int_min, int_max; lia). cbn [bind].
    destruct (IH (i + 1) stk _ j1 ltac:(lia) ltac:(lia) Hj1) as (j' & E & H'). exists j'. split; [done|].
    rewrite <- app_assoc in H'. replace (Z.to_nat (len - i)) with (S (Z.to_nat (len - (i + 1)))) by lia.
    rewrite (drop_S _ _ _ Eb). cbn [take map concat]. replace (S (Z.to_nat i)) with (Z.to_nat (i + 1)) by lia. done.
  - replace (len - i) with 0 by lia. simpl. rewrite app_nil_r. eauto.
Qed.
Lemma quoted_bytes_ok mem len stk txt j : buffer mem len -> Rep stk txt j ->
  exists j', emit_quoted_bytes p j mem len = Ok j' /\ Rep stk (txt ++ concat (map quote_unit (take (Z.to_nat len) mem))) j'.
Proof.
  intros Hb H. destruct Hb as (H1 & H2 & H3). destruct (quoted_bytes_loop_ok mem len (conj H1 (conj H2 H3)) (S (Z.to_nat len)) 0 stk txt j) as (j' & E & H'); [lia|lia|done|].
  exists j'. replace (len - 0) with len in H' by lia. done.
Qed.
Lemma literal_loop_ok mem len : buffer mem len -> forall f i stk txt j,
  0 <= i <= len -> Z.of_nat f = len - i + 1 -> Rep stk txt j ->
  exists j', literal_loop p f j i mem len = Ok j' /\
    Rep stk (txt ++ take (Z.to_nat (len - i)) (drop (Z.to_nat i) mem)) j'.
Proof.
  intros (Hm & Hl & Hi). induction f as [|f IH]; intros i stk txt j Hr Hf H; [lia|]. cbn [literal_loop].
  pose proof (size_mod_big p). unfold int_max in Hi. rewrite to_size_id by lia. destruct (Z.ltb_spec i len).
  - destruct (ld_ex mem i) as (b & Eb & ->); [lia|]. cbn [bind].
    unfold iadd. rewrite ichk_ok by (unfold int_min, int_max; lia). cbn [bind].
    destruct (IH (i + 1) stk _ _ ltac:(lia) ltac:(lia) (emit_char_ok stk txt j b H)) as (j' & E & H'). exists j'. split; [done|].
    rewrite <- app_assoc in H'. replace (Z.to_nat (len - i)) with (S (Z.to_nat (len - (i + 1)))) by lia.
    rewrite (drop_S _ _ _ Eb). cbn [take]. replace (S (Z.to_nat i)) with (Z.to_nat (i + 1)) by lia. done.
  - replace (len - i) with 0 by lia. simpl. rewrite app_nil_r. eauto.
Qed.

(** ** levels *)
Definition apush (b : bool) (stk : list container) : list container :=
  if Z.of_nat (length stk) <? M then (b, 0) :: stk else stk.
Definition apop (stk : list container) : list container :=
  match stk with _ :: (_ :: _) as s => tail stk | _ => stk end.
Lemma push_ok stk txt j b : Rep stk txt j -> exists j', push_level p j b = Ok j' /\ Rep (apush b stk) txt j'.
Proof.
  intros H. pose proof (Rep_lt _ _ _ H) as Hlt. pose proof H as [[junk El] Hl Hc Hne Hcs Hm Hb Hw Ha Hs].
  assert (0 < Z.of_nat (length stk)) by (destruct stk; [done|simpl; lia]).
  unfold push_level, apush. rewrite Hm, to_size_id by lia. destruct (Z.ltb_spec (curr_level j) (M - 1)).
  - replace (Z.of_nat (length stk) <? M) with true by (symmetry; lia).
    rewrite to_size_id by lia. destruct junk as [|x junk].
    { rewrite El, app_nil_r, map_length, rev_length in Hl. lia. }
    assert (Hi : curr_level j + 1 = Z.of_nat (length (map mk (rev stk)))) by (rewrite map_length, rev_length; lia).
    unfold set_item_count. cbn [set_curr_level levels curr_level]. rewrite El, ld_mid by done. cbn [bind]. rewrite st_mid by done. cbn [bind].
    unfold set_is_object. cbn [levels curr_level]. rewrite ld_mid by done. cbn [bind]. rewrite st_mid by done. cbn [bind].
    eexists. split; [done|]. split; simpl; try done.
    + exists junk. rewrite map_app, <- app_assoc. done.
    + rewrite El in Hl. rewrite app_length in *. simpl in *. lia.
    + lia.
    + constructor; [|done]. simpl. pose proof (size_mod_pos p). lia.
  - replace (Z.of_nat (length stk) <? M) with false by (symmetry; lia). eauto.
Qed.
Lemma pop_ok stk txt j : Rep stk txt j -> Rep (apop stk) txt (pop_level p j).
Proof.
  intros H. pose proof (Rep_lt _ _ _ H) as Hlt. pose proof H as [[junk El] Hl Hc Hne Hcs Hm Hb Hw Ha Hs]. unfold pop_level, apop.
  destruct stk as [|c [|c' s]]; [done| |].
  - simpl in Hc. replace (0 <? curr_level j) with false by (symmetry; lia). done.
  - simpl length in Hc, Hlt. replace (0 <? curr_level j) with true by (symmetry; lia).
    split; simpl; try done.
    + exists (mk c :: junk). rewrite El. simpl. rewrite !map_app. simpl. by rewrite <- !app_assoc.
    + rewrite to_size_id by lia. lia.
    + by inversion Hcs.
Qed.
Lemma reset_ok j : Z.of_nat (length (levels j)) = M -> max_level j = M -> 1 <= M < size_mod p ->
  writer j = w -> arg j = a -> forall txt, sent j = past ++ tag txt ->
  exists j', mu_jems_reset j = Ok j' /\ Rep [(false, 0)] txt j'.
Proof.
  intros Hl Hm HM Hw Ha txt Hs. unfold mu_jems_reset, set_item_count. cbn [set_curr_level levels curr_level].
  destruct (levels j) as [|x ls] eqn:El; [simpl in Hl; lia|].
  rewrite ld_0. cbn [bind]. rewrite st_0. cbn [bind].
  unfold set_is_object. cbn [levels curr_level]. rewrite ld_0. cbn [bind]. rewrite st_0. cbn [bind].
  eexists. split; [done|]. split; simpl; try done.
  - by exists ls.
  - repeat constructor; simpl; pose proof (size_mod_pos p); lia.
  - lia.
Qed.
End proofs.
