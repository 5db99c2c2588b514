(** * C55: mu_jems_number *)
From Verif Require Import CSem JsonSpec JsonParse JemsModel JemsSpec JemsProofs JemsDouble JemsProofs2 JemsProps.
Open Scope Z_scope.

(** *** An integral double is treated exactly like the integer *)
Theorem C55_integral : forall p d z, double d -> finite d -> (dq d == inject_Z z)%Q -> int64 z ->
  (forall j, exec p j (CVal (CNumber d)) = exec p j (CVal (CInteger z))) /\
  (forall j k, exec p j (CKey k (CNumber d)) = exec p j (CKey k (CInteger z))).
Proof.
  intros p d z Hd Hf Hq Hz. destruct (integral_case d z Hd Hf Hq Hz) as [E1 E2].
  assert (H : forall j, mu_jems_number p j d = mu_jems_integer p j z).
  { intros j. unfold mu_jems_number, mu_jems_integer. rewrite E1. cbn [bind]. by rewrite E2. }
  split; intros j; [apply H|]. intros k. cbn [exec]. unfold mu_jems_key_number, mu_jems_key_integer.
  destruct (mu_jems_string p j k); [apply H|done..].
Qed.
Print Assumptions C55_integral.

(** *** The fraction shown *)
(** arithmetic core: v = q / T, T * A = 10^6 *)
Lemma frac_core (m D q v A T : Z) : 0 < D -> 0 < A -> 0 < T -> T * A = 10 ^ 6 -> v = q / T ->
  2 * Z.abs (m * 10 ^ 6 - q * D) <= D ->
  2000000 * Z.abs (v * D - m * A) < D * (2000000 + A) /\ (T = 1 -> 2000000 * Z.abs (v * D - m * A) <= A * D).
Proof.
  intros HD HA HT E -> H. pose proof (Z.div_mod q T ltac:(lia)) as Eq. pose proof (Z.mod_pos_bound q T HT) as Hr.
  set (v := q / T) in *. set (r := q mod T) in *.
  assert (Ex : T * (v * D - m * A) = (q * D - m * 10 ^ 6) - r * D).
  { rewrite <- E. replace q with (T * v + r) by lia. ring. }
  assert (Habs : 2 * (T * Z.abs (v * D - m * A)) <= D + 2 * (r * D)).
  { rewrite <- (Z.abs_eq T) at 1 by lia. rewrite <- Z.abs_mul, Ex.
    assert (0 <= r * D) by (apply Z.mul_nonneg_nonneg; lia). lia. }
  split.
  - assert (Hlt : r * D <= (T - 1) * D) by (apply Z.mul_le_mono_nonneg_r; lia).
    assert (H2 : 2 * (T * Z.abs (v * D - m * A)) < D + 2 * (T * D)) by lia.
    apply (Z.mul_lt_mono_pos_l A) in H2; [|done].
    replace (A * (2 * (T * Z.abs (v * D - m * A)))) with (2 * ((T * A) * Z.abs (v * D - m * A))) in H2 by ring.
    replace (A * (D + 2 * (T * D))) with (A * D + 2 * ((T * A) * D)) in H2 by ring. rewrite E in H2. lia.
  - intros ->. assert (r = 0) by lia. assert (HA6 : A = 1000000) by lia. subst A.
    replace (r * D) with 0 in Habs by lia. lia.
Qed.
Lemma Qabs_sub_lt a (A : positive) b (D : positive) (x : Q) :
  Z.abs (a * Z.pos D - b * Z.pos A) * Z.pos (Qden x) < Qnum x * (Z.pos A * Z.pos D) -> (Qabs ((a # A) - (b # D)) < x)%Q.
Proof. intros H. unfold Qlt, Qabs, Qminus, Qplus, Qopp. cbn [Qnum Qden]. rewrite Pos2Z.inj_mul. replace (a * Z.pos D + - b * Z.pos A) with (a * Z.pos D - b * Z.pos A) by ring. exact H. Qed.
Lemma Qabs_sub_le a (A : positive) b (D : positive) (x : Q) :
  Z.abs (a * Z.pos D - b * Z.pos A) * Z.pos (Qden x) <= Qnum x * (Z.pos A * Z.pos D) -> (Qabs ((a # A) - (b # D)) <= x)%Q.
Proof. intros H. unfold Qle, Qabs, Qminus, Qplus, Qopp. cbn [Qnum Qden]. rewrite Pos2Z.inj_mul. replace (a * Z.pos D + - b * Z.pos A) with (a * Z.pos D - b * Z.pos A) by ring. exact H. Qed.

(** distance between what is shown and the argument, from the decimals kept *)
Definition close (d : spec_float) (n : jnum) : Prop :=
  let k := length (nfrac n) in
  (3 <= k <= 6)%nat /\
  (Qabs (num_q n - dq d) < (1 # Z.to_pos (10 ^ Z.of_nat k)) + (1 # 2000000))%Q /\
  (k = 6%nat -> (Qabs (num_q n - dq d) <= 1 # 2000000)%Q) /\
  ((Qabs (dq d) <= inject_Z (10 ^ 13 - 1))%Q -> k = 6%nat).

Lemma shows_close d n : double d -> (forall z, ~ (dq d == inject_Z z)%Q) -> shows d n -> close d n.
Proof.
  intros Hd Hni [(z & _ & Hz & _)|(_ & q & sixd & Hq & Hl & H6 & Hv & ->)]; [by destruct (Hni z)|].
  assert (Hf : finite d) by (destruct d; try done; by destruct (Hni 0)).
  destruct (fractional_case d Hd Hf Hni) as (s & m & e & i & -> & He & Hm & _ & _).
  assert (HD : 0 < 2 ^ (- e)) by (apply Z.pow_pos_nonneg; lia).
  pose proof (nearest_micro s m e q He Hq) as Hqm. pose proof (micro_bounds m e He Hm) as Hb. rewrite <- Hqm in Hb.
  rewrite scaled in Hq by done. apply nearest_iff in Hq as [Hn _]. rewrite Z2Pos.id in Hn by done.
  assert (Hi16 : 0 <= q / 10 ^ 6 < 10 ^ 16) by (split; [apply Z.div_pos; lia|apply Z.div_lt_upper_bound; lia]).
  assert (Hlen : (1 <= length (digits (q / 10 ^ 6)) <= 16)%nat).
  { split; [|apply digits_length; [exact Hi16|lia]]. destruct (digits_ok (q / 10 ^ 6) ltac:(lia)) as (_ & Hne & _). destruct (digits _); [done|simpl; lia]. }
  rewrite dtext_length. cbn [negative]. set (room := (20 - length (digits (q / 10 ^ 6)) - (if s then 1 else 0))%nat).
  assert (Hroom : (3 <= room)%nat) by (unfold room; destruct s; lia).
  unfold close. cbn [nfrac]. set (k := length (take room sixd)).
  assert (Hk : k = Nat.min room 6) by (unfold k; by rewrite take_length, Hl). split; [lia|].
  set (A := 10 ^ Z.of_nat k). set (T := 10 ^ Z.of_nat (6 - k)).
  assert (HA : 0 < A) by (apply Z.pow_pos_nonneg; lia). assert (HT : 0 < T) by (apply Z.pow_pos_nonneg; lia).
  assert (HTA : T * A = 10 ^ 6). { unfold T, A. rewrite <- Z.pow_add_r by lia. f_equal. lia. }
  assert (Htake : take room sixd = take k sixd).
  { rewrite Hk. destruct (Nat.le_gt_cases room 6); [by rewrite Nat.min_l by lia|]. rewrite !take_ge by lia. done. }
  assert (Hdv : dval (take k sixd) = (q mod 10 ^ 6) / T).
  { rewrite dval_take by (lia || done). rewrite Hv, Hl. done. }
  assert (Ev : q / 10 ^ 6 * A + (q mod 10 ^ 6) / T = q / T).
  { rewrite (Z.div_mod q (10 ^ 6)) at 3 by lia. rewrite <- HTA at 3.
    replace (T * A * (q / 10 ^ 6) + q mod 10 ^ 6) with ((q / 10 ^ 6 * A) * T + q mod 10 ^ 6) by ring. rewrite Z.div_add_l by lia. done. }
  destruct (frac_core (Z.pos m) (2 ^ (- e)) q (q / T) A T HD HA HT HTA eq_refl) as [L1 L2].
  { replace (Z.pos m * 10 ^ 6 - q * 2 ^ (- e)) with (Z.pos m * 10 ^ 6 - q * 2 ^ (- e)) by ring. exact Hn. }
  assert (Enum : num_q (MkNum s (q / 10 ^ 6) (take room sixd) 0) = (sg s * (q / T) # Z.to_pos A)%Q).
  { unfold num_q. cbn [nneg nint nfrac]. fold k. fold A. rewrite Htake, Hdv, Ev. by destruct s. }
  rewrite Enum, dq_neg_exp by done.
  assert (Eabs : forall x y, Z.abs (sg s * x * y - sg s * Z.pos m * A) = Z.abs (x * y - Z.pos m * A)).
  { intros x y. destruct s; unfold sg; lia. }
  split; [|split].
  - apply Qabs_sub_lt. rewrite !Z2Pos.id by done. rewrite Eabs. cbn [Qplus Qnum Qden]. rewrite !Pos2Z.inj_mul, !Z2Pos.id by done.
    replace (1 * 2000000 + 1 * A) with (2000000 + A) by ring.
    replace (Z.abs (q / T * 2 ^ (- e) - Z.pos m * A) * (A * 2000000)) with (A * (2000000 * Z.abs (q / T * 2 ^ (- e) - Z.pos m * A))) by ring.
    replace ((2000000 + A) * (A * 2 ^ (- e))) with (A * (2 ^ (- e) * (2000000 + A))) by ring. apply Z.mul_lt_mono_pos_l; done.
  - intros K. apply Qabs_sub_le. rewrite !Z2Pos.id by done. rewrite Eabs. cbn [Qnum Qden].
    assert (T = 1) by (unfold T; rewrite K; done). specialize (L2 H). lia.
  - intros Hs. unfold Qle, Qabs, inject_Z in Hs. cbn [Qnum Qden] in Hs. rewrite Z2Pos.id in Hs by done.
    assert (Hm13 : Z.pos m <= (10 ^ 13 - 1) * 2 ^ (- e)) by (destruct s; unfold sg in Hs; lia).
    assert (Hq13 : q < 10 ^ 13 * 10 ^ 6).
    { assert (q * 2 ^ (- e) < 10 ^ 13 * 10 ^ 6 * 2 ^ (- e)) by lia. by apply Z.mul_lt_mono_pos_r in H. }
    assert (q / 10 ^ 6 < 10 ^ 13) by (apply Z.div_lt_upper_bound; lia).
    assert (length (digits (q / 10 ^ 6)) <= 13)%nat by (apply digits_length; [change (10 ^ Z.of_nat 13) with (10 ^ 13); lia|lia]).
    rewrite Hk. unfold room. destruct s; lia.
Qed.

(** In every state, a non-integral double is shown as a decimal fraction; with six decimals
    and error at most 0.0000005 if it is below 10^13, else with those decimals that fit. *)
Theorem C55_fraction_partial : forall p S cs d, setting_ok p S -> Forall call_ok cs ->
  double d -> convertible d -> (forall z, ~ (dq d == inject_Z z)%Q) ->
  exists j1 j t0 sep n, session p S cs = Ok j1 /\ written S t0 j1 /\ session p S (cs ++ [CVal (CNumber d)]) = Ok j /\
    written S (t0 ++ sep ++ num_text n) j /\ a_separator sep /\ json_text (JNum n) (num_text n) /\ close d n.
Proof.
  intros p S cs d HS Hcs Hd Hc Hni. destruct (shows_total d Hd Hc) as (n & Hn). destruct (number_text_shows d n Hd Hc Hn) as [Et Hwf].
  destruct (session_rep p S HS cs Hcs) as (j1 & E1 & Hj1).
  destruct (session_rep p S HS (cs ++ [CVal (CNumber d)])) as (j & E & Hj); [apply Forall_app; split; [done|by apply Forall_singleton]|].
  set (s0 := arun p (maxl S) ([(false, 0)], []) cs) in *.
  exists j1, j, (snd s0), (asep (fst s0)), n. split; [done|]. split; [by eapply written_rep|]. split; [done|].
  rewrite arun_app in Hj. fold s0 in Hj. unfold arun in Hj. cbn [fold_left acall aval fst snd vtext] in Hj. rewrite Et in Hj.
  split; [by eapply written_rep|]. split; [apply asep_ok|]. split; [apply (text_json (JNum n)); by constructor|]. by apply shows_close.
Qed.
Print Assumptions C55_fraction_partial.
(** e.g. 0.1 = 7205759403792794 * 2^-56 meets the hypotheses and is shown as 0.100000 *)
Definition d_tenth : spec_float := S754_finite false 7205759403792794 (-56).
Example C55_tenth : double d_tenth /\ convertible d_tenth /\ (forall z, ~ (dq d_tenth == inject_Z z)%Q) /\ number_text d_tenth = str "0.100000".
Proof.
  split; [reflexivity|]. split; [split; [done|split; reflexivity]|]. split; [|reflexivity].
  intros z H. apply integral_iff in H as [H|H]; [lia|]. destruct H as [_ H]. unfold sg in H. change (2 ^ (- -56)) with 72057594037927936 in H. lia.
Qed.
(** and -3.0 the hypotheses of C55_integral *)
Example C55_integral_example : let d := S754_finite true 6755399441055744 (-51) in
  double d /\ finite d /\ (dq d == inject_Z (-3))%Q /\ int64 (-3).
Proof. split; [reflexivity|]. split; [done|]. split; [reflexivity|unfold int64; lia]. Qed.

(** *** Missing: the bound of 0.0000005 does not hold for every double *)
Theorem C55_truncation_refuted : exists d, double d /\ convertible d /\
  forall p S, setting_ok p S -> exists n j, session p S [CVal (CNumber d)] = Ok j /\ written S (num_text n) j /\
    wf_num n /\ (forall n', json_text (JNum n') (num_text n) -> n' = n) /\ ~ (Qabs (num_q n - dq d) <= 4 # 1000000)%Q.
Proof.
  set (d := S754_finite false 6400000000000001 (-6)).
  assert (Hd : double d) by reflexivity. assert (Hc : convertible d) by (split; [done|split; reflexivity]).
  exists d. split; [done|]. split; [done|]. intros p S HS.
  set (n := MkNum false 100000000000000 [0; 1; 5; 6; 2] 0).
  assert (Hn : number_text d = num_text n) by reflexivity.
  assert (Hwf : wf_num n). { split; [simpl; lia|]. split; [|done]. unfold n. cbn [nfrac]. repeat (apply Forall_cons_2 || apply Forall_nil_2); unfold digit; lia. }
  destruct (session_rep p S HS [CVal (CNumber d)]) as (j & E & Hj); [apply Forall_singleton; split; [exact Hd|exact Hc]|].
  exists n, j. split; [done|]. unfold arun in Hj. cbn [fold_left acall aval fst snd vtext] in Hj. rewrite Hn in Hj.
  split; [apply (written_rep _ _ _ _ _ Hj)|]. split; [done|]. split.
  - intros n' H'. assert (W : json_text (JNum n) (num_text n)) by (apply (text_json (JNum n)); by constructor).
    by pose proof (json_text_unique _ _ _ H' W) as [= ->].
  - assert (Hlt : (4 # 1000000 < Qabs (num_q n - dq d))%Q) by reflexivity. intros H. exact (Qle_not_lt _ _ H Hlt).
Qed.
Print Assumptions C55_truncation_refuted.

(** *** and the conversion to int64_t is undefined for every finite double outside its range *)
Theorem C55_ub_refuted : forall p j d, double d -> finite d -> ~ convertible d -> exec p j (CVal (CNumber d)) = UB.
Proof.
  intros p j d Hd Hf Hc. cbn [exec]. unfold mu_jems_number.
  assert (int64_of_double d = UB) as ->; [|done].
  destruct (integral_dec d Hf) as [(z & Hz)|Hz].
  - assert (Hnz : ~ int64 z).
    { intros H. apply Hc. split; [done|]. rewrite Hz. rewrite <- !Zlt_Qlt. unfold int64 in H. lia. }
    destruct d as [s| | |s m e]; try done.
    { exfalso. apply Hnz. unfold dq, Qeq, inject_Z in Hz. cbn [Qnum Qden] in Hz. unfold int64. lia. }
    cbn [int64_of_double]. unfold chk, trunc, int64_min, int64_max, int64 in *. apply integral_iff in Hz as [[He ->]|[He Hz]].
    + replace (0 <=? e) with true by (symmetry; lia). fold (sg s). rewrite Z.mul_assoc.
      case_match; [|done]. exfalso. apply Hnz. apply andb_true_iff in H as [?%Z.leb_le ?%Z.leb_le]. lia.
    + replace (0 <=? e) with false by (symmetry; lia). fold (sg s).
      assert (0 < 2 ^ (- e)) by (apply Z.pow_pos_nonneg; lia).
      assert (Em : Z.pos m = sg s * z * 2 ^ (- e)) by (destruct s; unfold sg in *; lia).
      rewrite Em, Z.div_mul by lia. replace (sg s * (sg s * z)) with z by (destruct s; unfold sg; lia).
      case_match; [|done]. exfalso. apply Hnz. apply andb_true_iff in H0 as [?%Z.leb_le ?%Z.leb_le]. lia.
  - exfalso. destruct (fractional_case d Hd Hf Hz) as (s & m & e & i & -> & He & Hm & _ & _). apply Hc. split; [done|].
    assert (0 < 2 ^ (- e)) by (apply Z.pow_pos_nonneg; lia). rewrite dq_neg_exp by done.
    assert (Z.pos m <= Z.pos m * 2 ^ (- e)) by (apply Z.le_mul_diag_r; lia).
    split; unfold Qlt, inject_Z; cbn [Qnum Qden]; rewrite Z2Pos.id by done; destruct s; unfold sg; lia.
Qed.
Print Assumptions C55_ub_refuted.
Example C55_ub_example : let d := S754_finite false 4503599627370496 11 in double d /\ finite d /\ (dq d == inject_Z (2 ^ 63))%Q /\ ~ convertible d.
Proof. split; [reflexivity|]. split; [done|]. split; [reflexivity|]. intros (_ & _ & H). vm_compute in H. done. Qed.

(** ** Concrete cases meeting the hypotheses of C50, C60, C51, C52, C54, C56 *)
Definition ex_set : setting := MkSet (replicate 4 (MkLevel None None)) 4 7 8 (MkJ [] 0 0 0 0 []).
Definition ex_value : json :=
  JObj [(str "a", JArr [JNum (int_num (-12)); JNull; JObj []]); (str "b", JStr [34; 233; 0]); ([1], JBool true)].
(* the keys given in both ways *)
Definition ex_calls : list call :=
  [CVal CObjectOpen; CKey (cstr "a") CArrayOpen; CVal (CInteger (-12)); CVal CNull; CVal CObjectOpen; CObjectClose; CArrayClose;
   CVal (CString (cstr "b")); CVal (CBytes [34; 233; 0; 99] 3); CKey [1; 0; 5] CTrue; CObjectClose].
Lemma cstring_str s : Forall (fun b => 1 <= b < 256) (str s) -> cstring (cstr s) (str s).
Proof. intros H. split; [done|]. by exists []. Qed.
Ltac forall_bytes := repeat (apply Forall_cons_2 || apply Forall_nil_2); unfold byte; chs; try lia.
Example ex_set_ok p : setting_ok p ex_set.
Proof. split; [done|]. pose proof (size_mod_big p). simpl. lia. Qed.
Example ex_describes : describes ex_value ex_calls.
Proof.
  unfold ex_value, ex_calls.
  change (describes ?v (CVal CObjectOpen :: ?l)) with (describes v (CVal CObjectOpen ::
    ([CKey (cstr "a") CArrayOpen; CVal (CInteger (-12)); CVal CNull; CVal CObjectOpen; CObjectClose; CArrayClose;
   CVal (CString (cstr "b")); CVal (CBytes [34; 233; 0; 99] 3); CKey [1; 0; 5] CTrue] ++ [CObjectClose]))).
  apply d_object.
  apply (dm_key _ _ _ CArrayOpen [CVal (CInteger (-12)); CVal CNull; CVal CObjectOpen; CObjectClose; CArrayClose] _
    [CVal (CString (cstr "b")); CVal (CBytes [34; 233; 0; 99] 3); CKey [1; 0; 5] CTrue]).
  - apply cstring_str. cbv [str String.list_ascii_of_string map]. forall_bytes.
  - apply (d_array _ [CVal (CInteger (-12)); CVal CNull; CVal CObjectOpen; CObjectClose]).
    apply (dl_cons _ [CVal (CInteger (-12))]); [constructor; unfold int64; lia|].
    apply (dl_cons _ [CVal CNull]); [constructor|]. apply (dl_cons _ [CVal CObjectOpen; CObjectClose] _ []); [|constructor].
    apply (d_object _ []). constructor.
  - apply (dm_two _ [CVal (CString (cstr "b"))] _ [CVal (CBytes [34; 233; 0; 99] 3)] _ [CKey [1; 0; 5] CTrue]).
    + constructor. apply cstring_str. cbv [str String.list_ascii_of_string map]. forall_bytes.
    + apply (d_bytes [34; 233; 0; 99] 3). unfold buffer. split; [forall_bytes|]. simpl. unfold int_max. lia.
    + apply (dm_key _ _ _ CTrue [] _ []); [|constructor|constructor]. split; [forall_bytes|by exists [5]].
Qed.
Example ex_narrow p : narrow p ex_value.
Proof.
  pose proof (size_mod_big p). unfold ex_value. repeat (constructor; try (simpl length; lia)).
Qed.
Example ex_depth : Z.of_nat (depth ex_value) < maxl ex_set.
Proof. reflexivity. Qed.
(** what C50_document says here, computed *)
Example ex_run : forall p, exists j, session p ex_set ex_calls = Ok j /\
  sent j = map (fun c => (7, c, 8)) (str "{""a"":[-12,null,{}],""b"":""\""\u00e9\u0000"",""\u0001"":true}").
Proof. intros []; eexists; (split; [vm_compute; reflexivity|vm_compute; reflexivity]). Qed.
(** an open object with its key emitted: the context of C50_in_context *)
Definition ex_ctx : list call := [CVal CObjectOpen; CVal (CString (cstr "b"))].
Example ex_ctx_ok : Forall call_ok ex_ctx /\ fits 3 ex_ctx /\ track ex_ctx = [(true, 1); (false, 1)].
Proof.
  split; [|split; [|done]].
  - apply Forall_cons_2; [done|]. apply Forall_singleton. exists (str "b"). apply cstring_str. cbv [str String.list_ascii_of_string map]. forall_bytes.
  - intros [|[|[|k]]]; simpl; lia.
Qed.
Example ex_string_item : string_item (CVal (CBytes [34; 233; 0; 99] 3)) [34; 233; 0].
Proof. right. exists [34; 233; 0; 99], 3. split; [|done]. split; [forall_bytes|]. simpl. unfold int_max. lia. Qed.
(** an unbalanced sequence (more closings than openings, too deep): covered by C52 *)
Example ex_unbalanced : Forall call_ok [CArrayClose; CVal CArrayOpen; CVal CObjectOpen; CVal CArrayOpen; CVal CArrayOpen; CReset; CObjectClose].
Proof. repeat constructor. Qed.
