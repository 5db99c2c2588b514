(** * Properties C16-C20 (mu_bisync) *)
From Verif Require Import CSem BisyncModel BisyncSpec BisyncProofs.

Lemma overwrite_drop bs mem k : (length bs <= k)%nat -> drop k (overwrite bs mem) = drop k mem.
Proof.
  intros H. unfold overwrite. rewrite drop_app_ge by done. rewrite drop_drop. f_equal. lia.
Qed.
Lemma overwrite_take bs mem : take (length bs) (overwrite bs mem) = bs.
Proof. unfold overwrite. apply take_app. Qed.

(** ** C16 (encoded_capacity up to INT_MAX; see the refuted case below) *)
Theorem C16_encode_partial : forall p encoded cap src n,
  0 <= cap <= int_max -> cap <= Z.of_nat (length encoded) ->
  0 <= n <= Z.of_nat (length src) -> n <= size_max p ->
  let f := frame (take (Z.to_nat n) src) in
  (Z.of_nat (length f) <= cap ->
     mu_bisync_encode p encoded cap src n = Ok (Z.of_nat (length f), f ++ drop (length f) encoded)) /\
  (cap < Z.of_nat (length f) ->
     exists encoded', mu_bisync_encode p encoded cap src n = Ok (MU_BISYNC_ERR_OFLOW, encoded') /\
       length encoded' = length encoded /\ drop (Z.to_nat cap) encoded' = drop (Z.to_nat cap) encoded).
Proof.
  intros p encoded cap src n Hc Hm Hn Hsz f.
  rewrite encode_ok by (done || (unfold size_max in *; lia)). fold f. cbv zeta. split; intros H.
  - destruct (Z.leb_spec (Z.of_nat (length f)) cap); [done|lia].
  - destruct (Z.leb_spec (Z.of_nat (length f)) cap); [lia|]. eexists. split; [done|]. split.
    + apply overwrite_length. rewrite take_length. lia.
    + apply overwrite_drop. rewrite take_length. lia.
Qed.
Print Assumptions C16_encode_partial.
Example C16_example : mu_bisync_encode P32 [0;0;0;0;0;0;9] 6 [65;4;66;1] 3 = Ok (6, [1;65;16;4;66;4;9]) /\
  mu_bisync_encode P32 [0;0;0;0;0;9;9] 5 [65;4;66;1] 3 = Ok (MU_BISYNC_ERR_OFLOW, [1;65;16;4;66;9;9]).
Proof. vm_compute. done. Qed.

(** A capacity of 2^32 is stored in an [int]: everything overflows. *)
Theorem C16_encode_huge_capacity_refuted : forall encoded src n,
  mu_bisync_encode P64 encoded (2 ^ 32) src n = Ok (MU_BISYNC_ERR_OFLOW, encoded).
Proof. intros. unfold mu_bisync_encode. change (to_int (2 ^ 32)) with 0. done. Qed.
Print Assumptions C16_encode_huge_capacity_refuted.

(** ** C17: the encoder's outputs determine the messages *)
Definition encodes (p : plat) (m out : list Z) : Prop :=
  exists encoded cap encoded', 0 <= cap <= int_max /\ cap <= Z.of_nat (length encoded) /\
    Z.of_nat (length m) <= size_max p /\
    mu_bisync_encode p encoded cap m (Z.of_nat (length m)) = Ok (Z.of_nat (length out), encoded') /\
    take (length out) encoded' = out.

Lemma encodes_frame p m out : encodes p m out -> out = frame m.
Proof.
  intros (encoded & cap & encoded' & Hc & Hm & Hs & HE & Ht).
  rewrite encode_ok in HE by (done || (unfold size_max in *; lia)). cbv zeta in HE.
  rewrite Nat2Z.id, firstn_all in HE.
  destruct (Z.leb_spec (Z.of_nat (length (frame m))) cap).
  - assert (H1 : Z.of_nat (length (frame m)) = Z.of_nat (length out)) by congruence.
    assert (H2 : overwrite (frame m) encoded = encoded') by congruence.
    assert (Hl : length (frame m) = length out) by (by apply Nat2Z.inj).
    rewrite <- H2, <- Hl, overwrite_take in Ht. done.
  - injection HE as H1 H2. unfold MU_BISYNC_ERR_OFLOW in H1. lia.
Qed.

Theorem C17_injective : forall p m1 m2 out, encodes p m1 out -> encodes p m2 out -> m1 = m2.
Proof.
  intros p m1 m2 out H1 H2. apply encodes_frame in H1, H2. subst.
  apply (frame_prefix_inj m1 m2 [] []). by rewrite !app_nil_r.
Qed.
Print Assumptions C17_injective.
Theorem C17_prefix_free : forall p m1 m2 out1 out2 rest,
  encodes p m1 out1 -> encodes p m2 out2 -> out2 = out1 ++ rest -> m1 = m2 /\ rest = [].
Proof.
  intros p m1 m2 out1 out2 rest H1 H2 Heq. apply encodes_frame in H1, H2. subst out1 out2.
  destruct (frame_prefix_inj m2 m1 [] rest) as [-> <-]; [by rewrite app_nil_r|done].
Qed.
Print Assumptions C17_prefix_free.
Theorem C17_streams_unique : forall p ms1 outs1 ms2 outs2,
  Forall2 (encodes p) ms1 outs1 -> Forall2 (encodes p) ms2 outs2 ->
  concat outs1 = concat outs2 -> ms1 = ms2.
Proof.
  intros p ms1 outs1 ms2 outs2 H1 H2 Heq.
  assert (G : forall ms outs, Forall2 (encodes p) ms outs -> outs = map frame ms).
  { induction 1; simpl; [done|]. f_equal; [by eapply encodes_frame|done]. }
  apply G in H1, H2. subst. by apply frames_inj.
Qed.
Print Assumptions C17_streams_unique.
Example C17_example : encodes P64 [65;4] [1;65;16;4;4] /\ encodes P64 [65] [1;65;4].
Proof.
  split.
  - exists [0;0;0;0;0], 5, [1;65;16;4;4]. vm_compute. repeat split; discriminate.
  - exists [0;0;0;0;0], 5, [1;65;4;0;0]. vm_compute. repeat split; discriminate.
Qed.

(** ** C18 *)
Lemma scan_frame m rest : scan false None (frame m ++ rest) = (SOH :: m, Some EOT).
Proof.
  unfold frame. simpl. rewrite <- app_assoc. simpl.
  rewrite (scan_units_EOT _ _ (escape_units m)). done.
Qed.

Lemma decode_frame p dst cap m enc :
  0 <= cap <= int_max -> cap <= Z.of_nat (length dst) -> Z.of_nat (length enc) <= int_max ->
  (exists rest, enc = frame m ++ rest) -> Z.of_nat (length m) + 1 <= cap ->
  mu_bisync_decode p dst cap enc (Z.of_nat (length enc)) = Ok (Z.of_nat (length m) + 1, overwrite (SOH :: m) dst).
Proof.
  intros Hc Hd He (rest & ->) Hm. rewrite decode_ok by (done || lia).
  rewrite Nat2Z.id, firstn_all. rewrite scan_frame.
  simpl app. destruct (Z.eqb_spec SOH BISYNC_SOH); [|done].
  simpl length. destruct (Z.leb_spec (Z.of_nat (S (length m))) cap); [|lia].
  simpl. repeat f_equal. lia.
Qed.

(** What holds: the decoder gives back the message preceded by one SOH byte. *)
Theorem C18_roundtrip_partial : forall p m out dst cap,
  encodes p m out -> 0 <= cap <= int_max -> cap <= Z.of_nat (length dst) ->
  Z.of_nat (length m) + 1 <= cap ->
  exists dst', mu_bisync_decode p dst cap out (Z.of_nat (length out)) = Ok (Z.of_nat (length m) + 1, dst') /\
    take (S (length m)) dst' = SOH :: m /\ drop (S (length m)) dst' = drop (S (length m)) dst.
Proof.
  intros p m out dst cap Henc Hc Hd Hm.
  assert (Hlen : Z.of_nat (length out) <= int_max).
  { destruct Henc as (e & c & e' & Hc' & Hm' & Hs & HE & Ht).
    rewrite encode_ok in HE by (done || (unfold size_max in *; lia)). cbv zeta in HE.
    rewrite Nat2Z.id, firstn_all in HE.
    destruct (Z.leb_spec (Z.of_nat (length (frame m))) c);  unfold MU_BISYNC_ERR_OFLOW in HE.
    - assert (H1 : Z.of_nat (length (frame m)) = Z.of_nat (length out)) by congruence. lia.
    - assert (H1 : -1 = Z.of_nat (length out)) by congruence. lia. }
  apply encodes_frame in Henc. subst out.
  eexists. split.
  { apply decode_frame; try done. exists []. by rewrite app_nil_r. }
  split; [apply (overwrite_take (SOH :: m))|]. apply overwrite_drop. done.
Qed.
Print Assumptions C18_roundtrip_partial.

(** The documented round trip fails for EVERY message: the decoder never returns its length. *)
Theorem C18_roundtrip_refuted : forall p m out dst cap,
  encodes p m out -> 0 <= cap <= int_max -> cap <= Z.of_nat (length dst) -> Z.of_nat (length m) + 1 <= cap ->
  ~ exists dst', mu_bisync_decode p dst cap out (Z.of_nat (length out)) = Ok (Z.of_nat (length m), dst').
Proof.
  intros p m out dst cap Henc Hc Hd Hm (dst' & HE).
  destruct (C18_roundtrip_partial p m out dst cap Henc Hc Hd Hm) as (d2 & HE2 & _).
  rewrite HE in HE2. injection HE2 as H. lia.
Qed.
Print Assumptions C18_roundtrip_refuted.
Example C18_example : mu_bisync_decode P64 [0;0;0;0] 4 [1;65;16;4;4] 5 = Ok (3, [1;65;4;0]).
Proof. vm_compute. done. Qed.

(** ** C19 *)
(** Exact language accepted, when the output fits: starts with SOH, and either has
    an unescaped EOT, or ends in an ESCAPED EOT. *)
Definition accepted (e out : list Z) : Prop :=
  hd_error e = Some SOH /\
  ((exists raw rest, e = raw ++ EOT :: rest /\ units raw out) \/ (units e out /\ last e = Some EOT)).

Lemma units_len raw out : units raw out -> (length out <= length raw)%nat.
Proof. induction 1; simpl; lia. Qed.

Lemma units_not_EOT_term raw out : units raw out -> forall raw' rest out',
   raw = raw' ++ EOT :: rest -> units raw' out' -> False.
Proof.
  induction 1 as [|b raw out Hb1 Hb2 H IH|b raw out H IH]; intros raw' rest out' Heq Hu.
  - by destruct raw'.
  - inversion Hu; subst; simplify_list_eq; try done. eauto.
  - inversion Hu; subst; simplify_list_eq; try done. eauto.
Qed.
Lemma units_det raw out1 : units raw out1 -> forall out2, units raw out2 -> out1 = out2.
Proof.
  induction 1 as [|b raw out Hb1 Hb2 H IH|b raw out H IH]; intros out2 Hu; inversion Hu; subst; try done; f_equal; eauto.
Qed.

Theorem C19_decode_language_partial : forall p dst cap e,
  0 <= cap <= int_max -> cap <= Z.of_nat (length dst) -> Z.of_nat (length e) <= int_max ->
  (forall out, accepted e out -> Z.of_nat (length out) <= cap ->
     mu_bisync_decode p dst cap e (Z.of_nat (length e)) = Ok (Z.of_nat (length out), overwrite out dst)) /\
  (forall out, accepted e out -> cap < Z.of_nat (length out) ->
     exists dst', mu_bisync_decode p dst cap e (Z.of_nat (length e)) = Ok (MU_BISYNC_ERR_OFLOW, dst')) /\
  (~ (exists out, accepted e out) ->
     exists r dst', mu_bisync_decode p dst cap e (Z.of_nat (length e)) = Ok (r, dst') /\
       (r = MU_BISYNC_ERR_FORMAT \/ (r = MU_BISYNC_ERR_OFLOW /\ cap < Z.of_nat (length e)))).
Proof.
  intros p dst cap e Hc Hd He. unfold int_max in *.
  rewrite decode_ok by (unfold int_max; lia). rewrite Nat2Z.id, firstn_all.
  destruct e as [|c e]; simpl hd_error.
  { split; [intros out [H _]; done|]. split; [intros out [H _]; done|]. eauto 10. }
  destruct (Z.eqb_spec c BISYNC_SOH) as [->|Hne].
  2:{ split; [|split; [|eauto 10]]; intros out [H _]; simpl in H; injection H as ->; done. }
  assert (Hhd : hd_error (BISYNC_SOH :: e) = Some SOH) by done.
  assert (Hnn : BISYNC_SOH :: e <> []) by done.
  generalize dependent (BISYNC_SOH :: e). clear e. intros l He Hhd Hnn.
  destruct (scan_cases l None) as [(raw & out & rest & Hl & Hu & ->)|[(out & Hu & ->)|(raw & out & Hl & Hu & ->)]].
  - assert (Hdet : forall out', accepted l out' -> out' = out).
    { intros out' [_ [(raw' & rest' & Hl' & Hu')|(Hu' & _)]].
      * rewrite Hl in Hl'. destruct (units_EOT_inj _ _ Hu _ _ _ _ Hu' Hl') as (_ & -> & _). done.
      * exfalso. eapply (units_not_EOT_term l); eauto. }
    split; [|split].
    + intros out' Ha Hle. rewrite (Hdet _ Ha) in *.
      destruct (Z.leb_spec (Z.of_nat (length out)) cap); [done|lia].
    + intros out' Ha Hle. rewrite (Hdet _ Ha) in *.
      destruct (Z.leb_spec (Z.of_nat (length out)) cap); [lia|eauto].
    + intros Hno. exfalso. apply Hno. exists out. split; [done|]. left. eauto.
  - pose proof (units_len _ _ Hu).
    destruct (decide (l = [])); [done|].
    destruct (last l) as [b|] eqn:El.
    2:{ apply last_None in El. done. }
    assert (Hdet : forall out', accepted l out' -> out' = out /\ b = EOT).
    { intros out' [_ [(raw' & rest' & Hl' & Hu')|(Hu' & HE)]].
      * exfalso. eapply (units_not_EOT_term l); eauto.
      * rewrite (units_det _ _ Hu _ Hu'). split; congruence. }
    split; [|split].
    + intros out' Ha Hle. destruct (Hdet _ Ha) as [-> ->].
      destruct (Z.leb_spec (Z.of_nat (length out)) cap); [done|lia].
    + intros out' Ha Hle. destruct (Hdet _ Ha) as [-> ->].
      destruct (Z.leb_spec (Z.of_nat (length out)) cap); [lia|eauto].
    + intros Hno. destruct (Z.leb_spec (Z.of_nat (length out)) cap).
      2:{ eexists _, _. split; [done|]. right. split; [done|]. lia. }
      destruct (Z.eqb_spec b BISYNC_EOT) as [->|]; [|eauto 10].
      exfalso. apply Hno. exists out. split; [done|]. right. done.
  - pose proof (units_len _ _ Hu). apply (f_equal length) in Hl as Hll. rewrite app_length in Hll. simpl in Hll.
    assert (Hna : forall out', ~ accepted l out').
    { intros out' [_ [(raw' & rest' & Hl' & Hu')|(Hu' & HE)]].
      + rewrite Hl in Hl'. clear -Hu Hu' Hl'. revert raw' rest' out' Hu' Hl'.
        induction Hu as [|b raw out Hb1 Hb2 H IH|b raw out H IH]; intros raw' rest' out' Hu' Hl';
        inversion Hu'; subst; simplify_list_eq; try done; eauto.
      + rewrite Hl, last_snoc in HE. done. }
    split; [|split]; [intros out' Ha; destruct (Hna _ Ha)..|]. intros _.
    destruct (Z.leb_spec (Z.of_nat (length out)) cap); [eauto 10|].
    eexists _, _. split; [done|]. right. split; [done|]. lia.
Qed.
Print Assumptions C19_decode_language_partial.

(** Trailing bytes after the terminator are ignored. *)
Theorem C19_trailing_ignored : forall p m dst cap rest,
  0 <= cap <= int_max -> cap <= Z.of_nat (length dst) -> Z.of_nat (length m) + 1 <= cap ->
  Z.of_nat (length (frame m ++ rest)) <= int_max ->
  mu_bisync_decode p dst cap (frame m ++ rest) (Z.of_nat (length (frame m ++ rest))) =
  mu_bisync_decode p dst cap (frame m) (Z.of_nat (length (frame m))).
Proof.
  intros p m dst cap rest Hc Hd Hm Hl. rewrite app_length in Hl.
  rewrite (decode_frame p dst cap m (frame m ++ rest)); [|done|done|rewrite app_length; lia|eauto|done].
  rewrite (decode_frame p dst cap m (frame m)); [done|done|done|lia| |done]. exists []. by rewrite app_nil_r.
Qed.
Print Assumptions C19_trailing_ignored.

(** The documented contract is violated: there is no unescaped EOT in
    SOH 'A' DLE EOT, yet it is accepted (as the message SOH 'A' EOT). *)
Theorem C19_unterminated_accepted_refuted : exists e,
  (~ exists raw rest out, e = raw ++ EOT :: rest /\ units raw out) /\
  forall p, mu_bisync_decode p [0;0;0;0] 4 e (Z.of_nat (length e)) = Ok (3, [1;65;4;0]).
Proof.
  exists [1;65;16;4]. split.
  - intros (raw & rest & out & Heq & Hu).
    eapply (units_not_EOT_term [1;65;16;4] [1;65;4]); eauto. repeat constructor; done.
  - intros []; reflexivity.
Qed.
Print Assumptions C19_unterminated_accepted_refuted.
Example C19_example : accepted [1;65;16;4;66;4;7;7] [1;65;4;66] /\
  mu_bisync_decode P32 [0;0;0;0;0;0;0;0] 8 [1;65;16;4;66;4;7;7] 8 = Ok (4, [1;65;4;66;0;0;0;0]).
Proof.
  split; [|reflexivity]. split; [done|]. left. exists [1;65;16;4;66], [7;7]. split; [done|].
  repeat constructor; done.
Qed.

(** ** C20 *)
Theorem C20_decode_bounds : forall p dst cap encoded n,
  0 <= cap <= int_max -> cap <= Z.of_nat (length dst) ->
  0 <= n <= Z.of_nat (length encoded) -> n <= int_max ->
  exists r dst', mu_bisync_decode p dst cap encoded n = Ok (r, dst') /\
    (* only the first n bytes of the input matter *)
    mu_bisync_decode p dst cap (take (Z.to_nat n) encoded) n = Ok (r, dst') /\
    length dst' = length dst /\ drop (Z.to_nat cap) dst' = drop (Z.to_nat cap) dst /\
    (r = MU_BISYNC_ERR_OFLOW \/ r = MU_BISYNC_ERR_FORMAT \/
     (0 <= r <= cap /\ drop (Z.to_nat r) dst' = drop (Z.to_nat r) dst)).
Proof.
  intros p dst cap enc n Hc Hd Hn Hi.
  rewrite !decode_ok; try done; try lia.
  2:{ rewrite take_length. lia. }
  rewrite take_take, Nat.min_id.
  destruct (take (Z.to_nat n) enc) as [|c e] eqn:E.
  { eexists _, _. split; [done|]. split; [done|]. split; [done|]. split; [done|]. eauto. }
  destruct (Z.eqb_spec c BISYNC_SOH) as [->|].
  2:{ eexists _, _. split; [done|]. split; [done|]. split; [done|]. split; [done|]. eauto. }
  assert (Hl : snd (scan false None (BISYNC_SOH :: e)) <> None).
  { change (snd (let '(o, x) := scan false (Some BISYNC_SOH) e in (BISYNC_SOH :: o, x)) <> None).
    assert (G : forall e esc b, snd (scan esc (Some b) e) <> None).
    { clear. induction e as [|c e IH]; intros esc b; simpl; [done|].
      destruct esc. { specialize (IH false c). destruct (scan false (Some c) e); done. }
      destruct (c =? BISYNC_DLE); [apply IH|]. destruct (c =? BISYNC_EOT); [done|].
      specialize (IH false c). destruct (scan false (Some c) e); done. }
    specialize (G e false BISYNC_SOH). destruct (scan false (Some BISYNC_SOH) e); done. }
  destruct (scan false None (BISYNC_SOH :: e)) as [out last]. simpl in Hl.
  destruct (Z.leb_spec (Z.of_nat (length out)) cap).
  - destruct last as [b|]; [|done]. eexists _, _. split; [done|]. split; [done|].
    split; [apply overwrite_length; lia|]. split; [apply overwrite_drop; lia|].
    destruct (b =? BISYNC_EOT); [|eauto]. right; right. split; [lia|]. rewrite Nat2Z.id. apply overwrite_drop. done.
  - eexists _, _. split; [done|]. split; [done|].
    split; [apply overwrite_length; rewrite take_length; lia|].
    split; [apply overwrite_drop; rewrite take_length; lia|]. eauto.
Qed.
Print Assumptions C20_decode_bounds.
Example C20_example : mu_bisync_decode P32 [7;7;7] 2 [1;65;66;67;4] 5 = Ok (MU_BISYNC_ERR_OFLOW, [1;65;7]).
Proof. reflexivity. Qed.
