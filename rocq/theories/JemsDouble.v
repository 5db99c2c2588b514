(** * Number formatting facts for mu_jems: decimal digits, doubles *)
From Verif Require Import CSem JsonSpec JsonParse JemsModel JemsSpec.
Open Scope Z_scope.

(** ** digits *)
Lemma dval_range ds : Forall digit ds -> 0 <= dval ds < 10 ^ Z.of_nat (length ds).
Proof.
  induction ds as [|d ds IH] using rev_ind; [done|]. intros [H1 H2]%Forall_app. inversion H2 as [|? ? Hd _]; subst.
  unfold digit in Hd. rewrite dval_app, app_length. specialize (IH H1). simpl length.
  replace (Z.of_nat (length ds + 1)) with (Z.of_nat (length ds) + 1) by lia. rewrite Z.pow_add_r by lia.
  change (Z.of_nat 1) with 1. change (10 ^ 1) with 10. change (dval [d]) with d. lia.
Qed.
Lemma dval_cons d ds : dval (d :: ds) = d * 10 ^ Z.of_nat (length ds) + dval ds.
Proof. apply (dval_app [d] ds). Qed.
Lemma digits_length n k : 0 <= n < 10 ^ Z.of_nat k -> (1 <= k)%nat -> (length (digits n) <= k)%nat.
Proof.
  intros Hn Hk. destruct (digits_ok n ltac:(lia)) as (H1 & H2 & H3 & H4). destruct H3 as [H3|H3]; [rewrite H3; simpl; lia|].
  destruct (digits n) as [|d ds]; [done|]. rewrite dval_cons in H4. inversion H1 as [|? ? Hd Hds]; subst. unfold digit in Hd.
  simpl in H3. assert (d <> 0) by congruence. pose proof (dval_range ds Hds).
  destruct (Nat.le_gt_cases (length (d :: ds)) k); [done|]. exfalso. simpl length in *.
  assert (10 ^ Z.of_nat k <= 10 ^ Z.of_nat (length ds)) by (apply Z.pow_le_mono_r; lia).
  assert (1 * 10 ^ Z.of_nat (length ds) <= d * 10 ^ Z.of_nat (length ds)) by (apply Z.mul_le_mono_nonneg_r; lia). lia.
Qed.
Lemma digits_unique : forall a b, Forall digit a -> Forall digit b -> length a = length b -> dval a = dval b -> a = b.
Proof.
  induction a as [|x a IH] using rev_ind; intros b Ha Hb Hl Hv.
  - by destruct b.
  - destruct b as [|y b _] using rev_ind; [rewrite app_length in Hl; simpl in Hl; lia|].
    apply Forall_app in Ha as [Ha Hx]. apply Forall_app in Hb as [Hb Hy]. inversion Hx as [|? ? Dx _]; inversion Hy as [|? ? Dy _]; subst.
    unfold digit in Dx, Dy. rewrite !dval_app in Hv. change (dval [x]) with x in Hv. change (dval [y]) with y in Hv.
    change (10 ^ Z.of_nat (length [x])) with 10 in Hv. change (10 ^ Z.of_nat (length [y])) with 10 in Hv.
    rewrite !app_length in Hl. simpl in Hl. f_equal; [apply IH; try done; lia|f_equal; lia].
Qed.
Lemma pad_digits_ok : forall k n, 0 <= n ->
  Forall digit (pad_digits k n) /\ length (pad_digits k n) = k /\ dval (pad_digits k n) = n mod 10 ^ Z.of_nat k.
Proof.
  induction k as [|k IH]; intros n Hn; cbn [pad_digits].
  - split; [done|]. split; [done|]. change (10 ^ Z.of_nat 0) with 1. by rewrite Z.mod_1_r.
  - destruct (IH (n / 10)) as (H1 & H2 & H3); [apply Z.div_pos; lia|]. pose proof (Z.mod_pos_bound n 10 ltac:(lia)).
    split; [apply Forall_app; split; [done|]; repeat constructor; unfold digit; lia|]. split; [rewrite app_length, H2; simpl; lia|].
    rewrite dval_app, H3. change (dval [n mod 10]) with (n mod 10). change (10 ^ Z.of_nat (length [n mod 10])) with 10.
    replace (Z.of_nat (S k)) with (Z.of_nat k + 1) by lia. rewrite Z.pow_add_r by lia. change (10 ^ 1) with 10.
    rewrite Z.mul_comm, (Z.mul_comm (10 ^ Z.of_nat k) 10). rewrite Z.rem_mul_r by (try apply Z.pow_nonzero; lia). lia.
Qed.
Lemma dval_take k ds : (k <= length ds)%nat -> Forall digit ds ->
  dval (take k ds) = dval ds / 10 ^ Z.of_nat (length ds - k).
Proof.
  intros Hk Hd. rewrite <- (take_drop k ds) at 2. rewrite dval_app. rewrite drop_length.
  pose proof (dval_range (drop k ds) ltac:(by apply Forall_drop)) as Hr. rewrite drop_length in Hr.
  assert (0 < 10 ^ Z.of_nat (length ds - k)) by (apply Z.pow_pos_nonneg; lia).
  rewrite Z.div_add_l by lia. rewrite Z.div_small by lia. lia.
Qed.
Lemma dtext_nz ds : Forall digit ds -> Forall (fun c => c <> 0) (dtext ds).
Proof. induction 1 as [|d ds Hd _ IH]; [constructor|]. unfold digit in Hd. constructor; [lia|done]. Qed.
Lemma dtext_length ds : length (dtext ds) = length ds.
Proof. apply map_length. Qed.
Lemma dtext_take k ds : take k (dtext ds) = dtext (take k ds).
Proof. unfold dtext. apply firstn_map. Qed.

Lemma fmt_d_len z : int64 z -> (length (fmt_d z) <= 20)%nat.
Proof.
  intros Hz. unfold int64 in Hz. unfold fmt_d. rewrite app_length, dtext_length.
  assert (length (digits (Z.abs z)) <= 19)%nat by (apply digits_length; [|lia]; simpl; lia). destruct (z <? 0); simpl; lia.
Qed.
Lemma fmt_d_nz z : Forall (fun c => c <> 0) (fmt_d z).
Proof.
  unfold fmt_d. apply Forall_app. split; [destruct (z <? 0); repeat constructor; discriminate|].
  apply dtext_nz. by apply digits_ok, Z.abs_nonneg.
Qed.
Lemma fmt_d_text z : fmt_d z = num_text (int_num z).
Proof. unfold fmt_d, num_text, int_num. cbn [nneg nint nfrac]. by rewrite app_nil_r. Qed.

(** ** rounding *)
Lemma rhe_exact q d : 0 < d -> round_half_even (q * d) d = q.
Proof. intros Hd. unfold round_half_even. rewrite Z.div_mul, Z.mod_mul by lia. change (2 * 0) with 0. by replace (0 <? d) with true by (symmetry; lia). Qed.
Lemma rhe_spec n d : 0 < d -> let q := round_half_even n d in
  2 * Z.abs (n - q * d) <= d /\ (2 * Z.abs (n - q * d) = d -> Z.even q = true).
Proof.
  intros Hd. cbn zeta. unfold round_half_even. pose proof (Z.div_mod n d ltac:(lia)) as E. pose proof (Z.mod_pos_bound n d Hd).
  set (q := n / d) in *. set (r := n mod d) in *. destruct (Z.ltb_spec (2 * r) d); [split; [lia|intros; exfalso; lia]|].
  destruct (Z.ltb_spec d (2 * r)); [split; [lia|intros; exfalso; lia]|].
  destruct (Z.even q) eqn:Ev; [split; [lia|done]|]. split; [lia|]. intros _. rewrite Z.even_add, Ev. done.
Qed.
Lemma nearest_unique_Z n d q1 q2 : 0 < d ->
  2 * Z.abs (n - q1 * d) <= d -> (2 * Z.abs (n - q1 * d) = d -> Z.even q1 = true) ->
  2 * Z.abs (n - q2 * d) <= d -> (2 * Z.abs (n - q2 * d) = d -> Z.even q2 = true) -> q1 = q2.
Proof.
  intros Hd A1 B1 A2 B2. destruct (Z.lt_trichotomy q1 q2) as [H|[H|H]]; [|done|].
  - exfalso. assert (q2 = q1 + 1) as -> by nia. rewrite Z.even_add in B2. destruct (Z.even q1) eqn:E; [|]; rewrite ?E in *; simpl in *; lia.
  - exfalso. assert (q1 = q2 + 1) as -> by nia. rewrite Z.even_add in B1. destruct (Z.even q2) eqn:E; [|]; rewrite ?E in *; simpl in *; lia.
Qed.
Lemma rhe_nonneg n d : 0 <= n -> 0 < d -> 0 <= round_half_even n d.
Proof. intros. unfold round_half_even. pose proof (Z.div_pos n d ltac:(lia) ltac:(lia)). repeat case_match; lia. Qed.

(** ** doubles *)
Lemma digits2_pos_bound m : Z.pos m < 2 ^ Z.pos (digits2_pos m).
Proof.
  induction m as [m IH|m IH|]; simpl digits2_pos; [| |done]; rewrite Pos2Z.inj_succ, Z.pow_succ_r by lia; lia.
Qed.
Lemma double_bound s m e : double (S754_finite s m e) -> Z.pos m < 2 ^ 53.
Proof.
  unfold double. cbn [valid_binary]. unfold bounded, canonical_mantissa. intros [H _]%andb_true_iff. apply Zeq_bool_eq in H.
  unfold fexp, emin in H. pose proof (digits2_pos_bound m) as Hb.
  assert (Z.pos (digits2_pos m) <= 53) by lia.
  eapply Z.lt_le_trans; [exact Hb|]. apply Z.pow_le_mono_r; lia.
Qed.
Definition sg (s : bool) : Z := if s then -1 else 1.
Definition den (e : Z) : Z := 2 ^ (- e).
Lemma den_pos e : 0 < 2 ^ (- e) \/ 0 < e.
Proof. destruct (Z.lt_ge_cases 0 e); [by right|left]. apply Z.pow_pos_nonneg; lia. Qed.
Lemma dq_neg_exp s m e : e < 0 -> dq (S754_finite s m e) = (sg s * Z.pos m # Z.to_pos (2 ^ (- e)))%Q.
Proof. intros H. unfold dq. replace (0 <=? e) with false by (symmetry; lia). by destruct s. Qed.
Lemma dq_pos_exp s m e : 0 <= e -> dq (S754_finite s m e) = inject_Z (sg s * Z.pos m * 2 ^ e).
Proof. intros H. unfold dq. replace (0 <=? e) with true by (symmetry; lia). by destruct s. Qed.

(** [z] is the value of the double *)
Lemma integral_iff s m e z : (dq (S754_finite s m e) == inject_Z z)%Q <->
  (0 <= e /\ z = sg s * Z.pos m * 2 ^ e) \/ (e < 0 /\ sg s * Z.pos m = z * 2 ^ (- e)).
Proof.
  destruct (Z.le_gt_cases 0 e) as [He|He].
  - rewrite dq_pos_exp by done. rewrite inject_Z_injective. split; [left|intros [|]]; lia.
  - rewrite dq_neg_exp by done. unfold Qeq. cbn [Qnum Qden inject_Z]. assert (0 < 2 ^ (- e)) by (apply Z.pow_pos_nonneg; lia).
    rewrite Z2Pos.id by done. rewrite Z.mul_1_r. split; [right; lia|intros [|]]; lia.
Qed.

Lemma log2_mul_pow m e : 0 < m -> 0 <= e -> Z.log2 (m * 2 ^ e) = Z.log2 m + e.
Proof. intros. rewrite Z.log2_mul_pow2; lia. Qed.
Lemma double_of_int64_small i : Z.abs i < 2 ^ 53 -> double_of_int64 i = i.
Proof.
  intros Hi. unfold double_of_int64. replace (Z.log2 (Z.abs i) - 52 <=? 0) with true; [done|]. symmetry. apply Z.leb_le.
  destruct (decide (i = 0)) as [->|]; [done|]. assert (Z.log2 (Z.abs i) < 53) by (apply Z.log2_lt_pow2; lia). lia.
Qed.
Lemma double_of_int64_exact s m e : Z.pos m < 2 ^ 53 -> 0 <= e ->
  double_of_int64 (sg s * Z.pos m * 2 ^ e) = sg s * Z.pos m * 2 ^ e.
Proof.
  intros Hm He. unfold double_of_int64. assert (0 < 2 ^ e) by (apply Z.pow_pos_nonneg; lia).
  assert (Z.abs (sg s * Z.pos m * 2 ^ e) = Z.pos m * 2 ^ e) as -> by (destruct s; unfold sg; lia).
  rewrite log2_mul_pow by lia. assert (Z.log2 (Z.pos m) < 53) by (apply Z.log2_lt_pow2; lia).
  set (k := Z.log2 (Z.pos m) + e - 52). destruct (Z.leb_spec k 0); [done|].
  replace (Z.pos m * 2 ^ e) with (Z.pos m * 2 ^ (e - k) * 2 ^ k).
  2:{ rewrite <- Z.mul_assoc, <- Z.pow_add_r by lia. do 2 f_equal. lia. }
  rewrite rhe_exact by (apply Z.pow_pos_nonneg; lia).
  replace (Z.pos m * 2 ^ (e - k) * 2 ^ k) with (Z.pos m * 2 ^ e).
  2:{ rewrite <- Z.mul_assoc, <- Z.pow_add_r by lia. do 2 f_equal. lia. }
  assert (Z.sgn (sg s * Z.pos m * 2 ^ e) = sg s) as ->; [|lia]. destruct s; unfold sg; lia.
Qed.

(** an integral double: the conversion to int64_t and back is the identity *)
Lemma integral_case d z : double d -> finite d -> (dq d == inject_Z z)%Q -> int64 z ->
  int64_of_double d = Ok z /\ eq_double (double_of_int64 z) d = true.
Proof.
  intros Hd Hf Hz H64. destruct d as [s| | |s m e]; try done.
  - unfold dq, Qeq, inject_Z in Hz. cbn [Qnum Qden] in Hz. assert (z = 0) by lia. subst z. done.
  - apply integral_iff in Hz. pose proof (double_bound s m e Hd) as Hm. cbn [int64_of_double]. unfold trunc. fold (sg s).
    unfold int64 in H64.
    destruct Hz as [[He ->]|[He Hz]].
    + replace (0 <=? e) with true by (symmetry; lia). rewrite Z.mul_assoc. split.
      * unfold chk, in_range, int64_min, int64_max. replace (_ && _) with true by (symmetry; lia). done.
      * unfold eq_double. replace (0 <=? e) with true by (symmetry; lia). rewrite double_of_int64_exact by done. fold (sg s).
        apply Z.eqb_eq. lia.
    + replace (0 <=? e) with false by (symmetry; lia). assert (HD : 0 < 2 ^ (- e)) by (apply Z.pow_pos_nonneg; lia).
      assert (Ez : sg s * (Z.pos m / 2 ^ (- e)) = z).
      { assert (Z.pos m = (sg s * z) * 2 ^ (- e)) as -> by (destruct s; unfold sg in *; lia). rewrite Z.div_mul by lia. destruct s; unfold sg; lia. }
      rewrite Ez. split.
      * unfold chk, in_range, int64_min, int64_max. replace (_ && _) with true by (symmetry; lia). done.
      * unfold eq_double. replace (0 <=? e) with false by (symmetry; lia). fold (sg s). rewrite double_of_int64_small; [apply Z.eqb_eq; lia|].
        assert (Z.abs z * 1 <= Z.abs z * 2 ^ (- e)) by (apply Z.mul_le_mono_nonneg_l; lia).
        assert (Z.abs z * 2 ^ (- e) = Z.pos m) by (destruct s; unfold sg in *; lia). lia.
Qed.
(** a double that is not an integer *)
Lemma fractional_case d : double d -> finite d -> (forall z, ~ (dq d == inject_Z z)%Q) ->
  exists s m e i, d = S754_finite s m e /\ e < 0 /\ Z.pos m < 2 ^ 53 /\
    int64_of_double d = Ok i /\ eq_double (double_of_int64 i) d = false.
Proof.
  intros Hd Hf Hz. destruct d as [s| | |s m e]; try done.
  - exfalso. by apply (Hz 0).
  - pose proof (double_bound s m e Hd) as Hm. destruct (Z.le_gt_cases 0 e) as [He|He].
    + exfalso. apply (Hz (sg s * Z.pos m * 2 ^ e)). apply integral_iff. by left.
    + assert (HD : 0 < 2 ^ (- e)) by (apply Z.pow_pos_nonneg; lia).
      assert (Hdiv : 0 <= Z.pos m / 2 ^ (- e) <= Z.pos m) by (split; [apply Z.div_pos; lia|apply Z.div_le_upper_bound; nia]).
      exists s, m, e, (sg s * (Z.pos m / 2 ^ (- e))). do 3 (split; [done|]). cbn [int64_of_double]. unfold trunc. fold (sg s).
      replace (0 <=? e) with false by (symmetry; lia).
      assert (Hab : Z.abs (sg s * (Z.pos m / 2 ^ (- e))) < 2 ^ 53) by (destruct s; unfold sg; lia). split.
      * unfold chk, in_range, int64_min, int64_max. replace (_ && _) with true; [done|]. symmetry. change (2 ^ 53) with 9007199254740992 in *. lia.
      * rewrite double_of_int64_small by done. unfold eq_double. replace (0 <=? e) with false by (symmetry; lia). fold (sg s).
        apply Z.eqb_neq. intros E. apply (Hz (sg s * (Z.pos m / 2 ^ (- e)))). apply integral_iff. right. lia.
Qed.
Lemma integral_dec d : finite d -> (exists z, (dq d == inject_Z z)%Q) \/ (forall z, ~ (dq d == inject_Z z)%Q).
Proof.
  intros Hf. destruct d as [s| | |s m e]; try done; [left; by exists 0|].
  destruct (Z.le_gt_cases 0 e) as [He|He].
  - left. exists (sg s * Z.pos m * 2 ^ e). apply integral_iff. by left.
  - assert (HD : 0 < 2 ^ (- e)) by (apply Z.pow_pos_nonneg; lia).
    destruct (decide (Z.pos m mod 2 ^ (- e) = 0)) as [E|E].
    + left. exists (sg s * (Z.pos m / 2 ^ (- e))). apply integral_iff. right. split; [done|].
      pose proof (Z.div_mod (Z.pos m) (2 ^ (- e)) ltac:(lia)). destruct s; unfold sg; lia.
    + right. intros z Hz. apply integral_iff in Hz as [[? _]|[_ Hz]]; [lia|]. apply E.
      assert (Z.pos m = (sg s * z) * 2 ^ (- e)) as -> by (destruct s; unfold sg in *; lia). apply Z.mod_mul. lia.
Qed.
Lemma convertible_int d z : convertible d -> (dq d == inject_Z z)%Q -> int64 z.
Proof.
  intros (_ & H1 & H2) E. rewrite E in H1, H2. rewrite <- Zlt_Qlt in H1, H2. unfold int64. lia.
Qed.

(** the rounding to six decimals *)
Lemma nearest_iff n (D : positive) q : nearest (n # D) q <->
  2 * Z.abs (n - q * Z.pos D) <= Z.pos D /\ (2 * Z.abs (n - q * Z.pos D) = Z.pos D -> Z.even q = true).
Proof.
  unfold nearest. assert (E : forall x y : Q, (Qabs (x - y))%Q = (Qabs (x - y))%Q) by done.
  assert (H1 : (Qabs ((n # D) - inject_Z q) <= 1 # 2)%Q <-> 2 * Z.abs (n - q * Z.pos D) <= Z.pos D).
  { unfold Qle, Qabs, Qminus, Qplus, Qopp, inject_Z. cbn [Qnum Qden]. rewrite Pos.mul_1_r.
    replace (n * 1 + - q * Z.pos D) with (n - q * Z.pos D) by lia. lia. }
  assert (H2 : (Qabs ((n # D) - inject_Z q) == 1 # 2)%Q <-> 2 * Z.abs (n - q * Z.pos D) = Z.pos D).
  { unfold Qeq, Qabs, Qminus, Qplus, Qopp, inject_Z. cbn [Qnum Qden]. rewrite Pos.mul_1_r.
    replace (n * 1 + - q * Z.pos D) with (n - q * Z.pos D) by lia. lia. }
  rewrite H1, H2. done.
Qed.
Lemma scaled s m e : e < 0 ->
  (Qabs (dq (S754_finite s m e)) * inject_Z (10 ^ 6))%Q = (Z.pos m * 10 ^ 6 # Z.to_pos (2 ^ (- e)))%Q.
Proof.
  intros He. rewrite dq_neg_exp by done. unfold Qabs, Qmult, inject_Z. cbn [Qnum Qden]. rewrite Pos.mul_1_r. f_equal. destruct s; unfold sg; lia.
Qed.
Lemma micro_nearest s m e : e < 0 -> nearest (Qabs (dq (S754_finite s m e)) * inject_Z (10 ^ 6)) (micro m e).
Proof.
  intros He. assert (0 < 2 ^ (- e)) by (apply Z.pow_pos_nonneg; lia). rewrite scaled by done. apply nearest_iff.
  rewrite Z2Pos.id by done. unfold micro. replace (0 <=? e) with false by (symmetry; lia). by apply rhe_spec.
Qed.
Lemma nearest_micro s m e q : e < 0 -> nearest (Qabs (dq (S754_finite s m e)) * inject_Z (10 ^ 6)) q -> q = micro m e.
Proof.
  intros He Hq. assert (0 < 2 ^ (- e)) by (apply Z.pow_pos_nonneg; lia). pose proof (micro_nearest s m e He) as Hm.
  rewrite scaled in Hq, Hm by done. apply nearest_iff in Hq as [A1 B1]. apply nearest_iff in Hm as [A2 B2]. rewrite Z2Pos.id in * by done.
  by eapply nearest_unique_Z; [|exact A1|exact B1|exact A2|exact B2].
Qed.
Lemma micro_bounds m e : e < 0 -> Z.pos m < 2 ^ 53 -> 0 <= micro m e < 10 ^ 16 * 10 ^ 6.
Proof.
  intros He Hm. unfold micro. replace (0 <=? e) with false by (symmetry; lia).
  assert (HD : 2 <= 2 ^ (- e)). { change 2 with (2 ^ 1) at 1. apply Z.pow_le_mono_r; lia. }
  split; [apply rhe_nonneg; lia|]. destruct (rhe_spec (Z.pos m * 10 ^ 6) (2 ^ (- e)) ltac:(lia)) as [A _].
  set (q := round_half_even _ _) in *. set (D := 2 ^ (- e)) in *. change (2 ^ 53) with 9007199254740992 in Hm. change (10 ^ 6) with 1000000 in *.
  change (10 ^ 16) with 10000000000000000. nia.
Qed.

(** what mu_jems_number sends *)
Definition number_text (d : spec_float) : list Z :=
  match int64_of_double d with
  | Ok i => take 21 (if eq_double (double_of_int64 i) d then fmt_d i else fmt_lf d)
  | _ => []
  end.
Lemma number_text_shows d n : double d -> convertible d -> shows d n -> number_text d = num_text n /\ wf_num n.
Proof.
  intros Hd (Hf & Hc) [(z & Hz & Hq & ->)|(Hni & q & sixd & Hq & Hl & H6 & Hv & ->)]; unfold number_text.
  - destruct (integral_case d z Hd Hf Hq Hz) as [-> ->]. rewrite take_ge by (pose proof (fmt_d_len z Hz); lia).
    split; [apply fmt_d_text|]. split; [simpl; lia|]. split; [constructor|done].
  - destruct (fractional_case d Hd Hf Hni) as (s & m & e & i & -> & He & Hm & -> & ->).
    apply (nearest_micro s m e q He) in Hq. subst q. pose proof (micro_bounds m e He Hm) as Hb. cbn [fmt_lf negative].
    set (Q := micro m e) in *.
    assert (Hip : 0 <= Q / 10 ^ 6 < 10 ^ Z.of_nat 16).
    { split; [apply Z.div_pos; lia|]. apply Z.div_lt_upper_bound; [done|]. change (Z.of_nat 16) with 16. lia. }
    pose proof (digits_length (Q / 10 ^ 6) 16 Hip ltac:(lia)) as Hdl.
    destruct (pad_digits_ok 6 (Q mod 10 ^ 6)) as (P1 & P2 & P3); [apply Z.mod_pos_bound; lia|].
    assert (sixd = pad_digits 6 (Q mod 10 ^ 6)) as Esix.
    { apply digits_unique; try done. rewrite Hv, P3. change (Z.of_nat 6) with 6. by rewrite Z.mod_mod by lia. }
    rewrite <- Esix. rewrite dtext_length. set (ip := digits (Q / 10 ^ 6)) in *.
    set (room := (20 - length ip - (if s then 1 else 0))%nat).
    assert (Hroom : (3 <= room)%nat) by (subst room; destruct s; lia).
    split.
    + unfold num_text. cbn [nneg nint nfrac]. fold ip.
      assert (Ht : take 21 ((if s then [ch "-"] else []) ++ dtext ip ++ ch "." :: dtext sixd) =
                   (if s then [ch "-"] else []) ++ dtext ip ++ ch "." :: dtext (take room sixd)).
      { rewrite !app_assoc. rewrite take_app_ge.
        - f_equal. set (kk := (21 - _)%nat). assert (kk = S room) as ->; [|simpl; by rewrite dtext_take].
          subst kk room. rewrite app_length, dtext_length. destruct s; simpl; lia.
        - rewrite app_length, dtext_length. destruct s; simpl; lia. }
      rewrite Ht. destruct (take room sixd) as [|x l] eqn:E; [|done].
      assert (length (take room sixd) = 0%nat) by by rewrite E. rewrite take_length in *. lia.
    + split; [simpl; lia|]. split; [|done]. cbn [nfrac]. by apply Forall_take.
Qed.
Lemma shows_total d : double d -> convertible d -> exists n, shows d n.
Proof.
  intros Hd (Hf & Hc). destruct (integral_dec d Hf) as [(z & Hz)|Hz].
  - exists (int_num z). left. exists z. split; [|done]. by apply (convertible_int d).
  - destruct (fractional_case d Hd Hf Hz) as (s & m & e & i & -> & He & Hm & _ & _). eexists. right. split; [done|].
    exists (micro m e), (pad_digits 6 (micro m e mod 10 ^ 6)). split; [by apply micro_nearest|].
    destruct (pad_digits_ok 6 (micro m e mod 10 ^ 6)) as (P1 & P2 & P3); [apply Z.mod_pos_bound; lia|].
    split; [done|]. split; [done|]. split; [rewrite P3; change (Z.of_nat 6) with 6; by rewrite Z.mod_mod by lia|]. done.
Qed.
Lemma convertible_defined d : double d -> convertible d -> exists i, int64_of_double d = Ok i.
Proof.
  intros Hd Hc. destruct (integral_dec d (proj1 Hc)) as [(z & Hz)|Hz].
  - exists z. apply integral_case; try done; [apply Hc|by apply (convertible_int d)].
  - destruct (fractional_case d Hd (proj1 Hc) Hz) as (? & ? & ? & i & _ & _ & _ & E & _). eauto.
Qed.
Lemma num_text_nz n : wf_num n -> Forall (fun c => c <> 0) (num_text n).
Proof.
  intros (H0 & H1 & _). unfold num_text. apply Forall_app. split; [destruct (nneg n); repeat constructor; discriminate|].
  apply Forall_app. split; [apply dtext_nz; by apply digits_ok|]. destruct (nfrac n) as [|x l] eqn:E; [done|].
  constructor; [discriminate|]. rewrite <- E. apply dtext_nz. by rewrite E.
Qed.
