(** * Proofs about mu_bisync *)
From Verif Require Import CSem BisyncModel BisyncSpec.

(** ** sequential writes *)
(** state of the writer after the bytes [bs] were offered to a buffer object [mem] of capacity [cap] *)
Definition wr (mem : list Z) (cap : Z) (bs : list Z) : buffer :=
  MkBuf (overwrite bs mem) cap (Z.of_nat (length bs)).

Lemma overwrite_snoc bs b mem : (length bs < length mem)%nat ->
  <[length bs := b]> (overwrite bs mem) = overwrite (bs ++ [b]) mem.
Proof.
  intros H. unfold overwrite. rewrite insert_app_r_alt by done. rewrite Nat.sub_diag.
  rewrite app_length. simpl. rewrite <- app_assoc. f_equal.
  destruct (drop (length bs) mem) as [|x r] eqn:E.
  - apply (f_equal length) in E. rewrite drop_length in E. simpl in E. lia.
  - simpl. f_equal. rewrite <- drop_drop, E. done.
Qed.

Lemma overwrite_length bs mem : (length bs <= length mem)%nat -> length (overwrite bs mem) = length mem.
Proof. intros. unfold overwrite. rewrite app_length, drop_length. lia. Qed.

Lemma buffer_put_ok mem cap bs b :
  cap <= int_max -> cap <= Z.of_nat (length mem) -> Z.of_nat (length bs) < cap ->
  buffer_put (wr mem cap bs) b = Ok (true, wr mem cap (bs ++ [b])).
Proof.
  intros Hc Hm Hl. unfold buffer_put, wr; simpl.
  destruct (Z.leb_spec cap (Z.of_nat (length bs))); [lia|].
  rewrite st_ok by (rewrite overwrite_length; lia). simpl. unfold iadd.
  rewrite ichk_ok by (unfold int_min; lia). simpl.
  rewrite Nat2Z.id, overwrite_snoc by lia. rewrite app_length. simpl.
  repeat f_equal. lia.
Qed.

Lemma buffer_put_full mem cap bs b :
  cap <= Z.of_nat (length bs) -> buffer_put (wr mem cap bs) b = Ok (false, wr mem cap bs).
Proof.
  intros H. unfold buffer_put, wr; simpl. destruct (Z.leb_spec cap (Z.of_nat (length bs))); [done|lia].
Qed.

(** ** encode *)
Lemma special_eq b : (b =? BISYNC_EOT) || (b =? BISYNC_SOH) || (b =? BISYNC_DLE) = special b.
Proof.
  unfold special, BISYNC_EOT, BISYNC_SOH, BISYNC_DLE, SOH, EOT, DLE.
  destruct (Z.eqb_spec b 4), (Z.eqb_spec b 1), (Z.eqb_spec b 16); simpl; symmetry;
  (apply bool_decide_eq_true_2; lia) || (apply bool_decide_eq_false_2; lia).
Qed.

Section encode.
Context (p : plat) (mem : list Z) (cap : Z).
Hypothesis (Hcap : 0 <= cap <= int_max) (Hmem : cap <= Z.of_nat (length mem)).

(** outcome of offering [bs'] after [bs] *)
Definition outcome (bs : list Z) : bool * buffer :=
  if Z.of_nat (length bs) <=? cap then (true, wr mem cap bs)
  else (false, wr mem cap (take (Z.to_nat cap) bs)).

Lemma outcome_full bs rest : Z.of_nat (length bs) = cap -> rest <> [] ->
  outcome (bs ++ rest) = (false, wr mem cap bs).
Proof.
  intros Hl Hne. unfold outcome. rewrite app_length.
  destruct rest; [done|]. simpl. destruct (Z.leb_spec (Z.of_nat (length bs + S (length rest))) cap); [lia|].
  rewrite take_app_alt by lia. done.
Qed.

Lemma put_step bs b : Z.of_nat (length bs) <= cap ->
  (Z.of_nat (length bs) < cap /\ buffer_put (wr mem cap bs) b = Ok (true, wr mem cap (bs ++ [b]))) \/
  (Z.of_nat (length bs) = cap /\ buffer_put (wr mem cap bs) b = Ok (false, wr mem cap bs)).
Proof.
  intros H. destruct (Z.lt_ge_cases (Z.of_nat (length bs)) cap).
  - left. split; [done|]. apply buffer_put_ok; lia.
  - right. split; [lia|]. apply buffer_put_full. lia.
Qed.

Lemma encode_loop_ok (src : list Z) (n : nat) :
  (n <= length src)%nat -> Z.of_nat n < size_mod p ->
  forall k bs, (k <= n)%nat -> Z.of_nat (length bs) <= cap -> (n - k < length bs)%nat ->
  encode_loop p k src (Z.of_nat n) (Z.of_nat (n - k)) (wr mem cap bs) =
    Ok (outcome (bs ++ escape (take k (drop (n - k) src)))).
Proof.
  intros Hn Hsz. induction k as [|k IH]; intros bs Hk Hbs Hi.
  - simpl. rewrite to_size_id by lia. destruct (Z.ltb_spec (Z.of_nat (n - 0)) (Z.of_nat n)); [lia|].
    rewrite app_nil_r. unfold outcome. destruct (Z.leb_spec (Z.of_nat (length bs)) cap); [done|lia].
  - cbn [encode_loop]. pose proof (size_mod_big p). rewrite to_size_id by lia.
    destruct (Z.ltb_spec (Z.of_nat (n - S k)) (Z.of_nat n)); [|lia].
    destruct (lookup_lt_is_Some_2 src (n - S k)) as [b Hb]; [lia|].
    rewrite (ld_ok _ _ _ Hb). cbn [bind].
    rewrite (drop_S _ _ _ Hb). cbn [take escape].
    replace (S (n - S k)) with (n - k)%nat by lia.
    rewrite special_eq.
    unfold iadd. rewrite ichk_ok by (unfold int_min; lia). cbn [bind].
    replace (Z.of_nat (n - S k) + 1) with (Z.of_nat (n - k)) by lia.
    destruct (special b).
    + destruct (put_step bs BISYNC_DLE Hbs) as [(H1 & ->)|(H1 & ->)]; cbn [bind negb].
      2:{ rewrite outcome_full by done. done. }
      destruct (put_step (bs ++ [BISYNC_DLE]) b) as [(H2 & ->)|(H2 & ->)]; [rewrite app_length; simpl; lia| |]; cbn [bind negb].
      * rewrite IH; [|lia|rewrite !app_length in *; simpl in *; lia|rewrite !app_length in *; simpl in *; lia].
        rewrite <- !app_assoc. done.
      * change ([DLE; b] ++ escape (take k (drop (n - k) src))) with ([DLE] ++ (b :: escape (take k (drop (n - k) src)))).
        rewrite (app_assoc bs). rewrite outcome_full by done. done.
    + cbn [bind negb]. destruct (put_step bs b Hbs) as [(H2 & ->)|(H2 & ->)]; cbn [bind negb].
      * rewrite IH; [|lia|rewrite !app_length in *; simpl in *; lia|rewrite !app_length in *; simpl in *; lia].
        rewrite <- !app_assoc. done.
      * rewrite outcome_full by done. done.
Qed.
End encode.

Lemma escape_length l : (length l <= length (escape l))%nat.
Proof. induction l as [|b l IH]; simpl; [done|]. destruct (special b); simpl; lia. Qed.

Lemma encode_ok p mem cap src n :
  0 <= cap <= int_max -> cap <= Z.of_nat (length mem) ->
  0 <= n <= Z.of_nat (length src) -> n < size_mod p ->
  mu_bisync_encode p mem cap src n =
    let f := frame (take (Z.to_nat n) src) in
    if Z.of_nat (length f) <=? cap then Ok (Z.of_nat (length f), overwrite f mem)
    else Ok (MU_BISYNC_ERR_OFLOW, overwrite (take (Z.to_nat cap) f) mem).
Proof.
  intros Hc Hm Hn Hsz. unfold mu_bisync_encode.
  rewrite to_int_id by (unfold int_min; lia).
  change (MkBuf mem cap 0) with (wr mem cap []).
  assert (Hl0 : Z.of_nat (length ([] : list Z)) <= cap) by (simpl; lia).
  cbv zeta.
  destruct (put_step mem cap Hc Hm [] BISYNC_SOH Hl0) as [(H1 & ->)|(H1 & ->)]; cbn [bind negb].
  2:{ simpl in H1. subst cap. unfold frame. simpl. done. }
  pose proof (encode_loop_ok p mem cap Hc Hm src (Z.to_nat n)) as HL.
  specialize (HL ltac:(lia) ltac:(lia) (Z.to_nat n) [BISYNC_SOH] ltac:(lia)).
  rewrite Nat.sub_diag in HL. specialize (HL ltac:(simpl in *; lia) ltac:(simpl; lia)).
  rewrite Z2Nat.id in HL by lia. change (Z.of_nat 0) with 0 in HL.
  change ([] ++ [BISYNC_SOH]) with [BISYNC_SOH]. rewrite HL. clear HL. cbn [bind].
  rewrite drop_0. set (m := take (Z.to_nat n) src).
  assert (Hf : frame m = ([BISYNC_SOH] ++ escape m) ++ [BISYNC_EOT]).
  { unfold frame. rewrite <- app_assoc. done. }
  rewrite Hf. clear Hf. generalize ([BISYNC_SOH] ++ escape m). intros bs.
  unfold outcome. destruct (Z.leb_spec (Z.of_nat (length bs)) cap) as [Hle|Hgt]; cbn [negb].
  - destruct (put_step mem cap Hc Hm bs BISYNC_EOT Hle) as [(H2 & ->)|(H2 & ->)]; cbn [bind negb].
    + destruct (Z.leb_spec (Z.of_nat (length (bs ++ [BISYNC_EOT]))) cap); [done|].
      rewrite app_length in *. simpl in *. lia.
    + destruct (Z.leb_spec (Z.of_nat (length (bs ++ [BISYNC_EOT]))) cap) as [H3|H3].
      { rewrite app_length in H3. simpl in H3. lia. }
      rewrite take_app_alt by lia. done.
  - destruct (Z.leb_spec (Z.of_nat (length (bs ++ [BISYNC_EOT]))) cap) as [H3|H3].
    { rewrite app_length in H3. simpl in H3. lia. }
    rewrite take_app_le by lia. done.
Qed.

(** ** frames *)
Lemma escape_units l : units (escape l) l.
Proof.
  induction l as [|b l IH]; simpl; [constructor|].
  destruct (special b) eqn:E; simpl; [by constructor|].
  apply bool_decide_eq_false in E. constructor; [naive_solver|naive_solver|done].
Qed.

(** the reading of units is deterministic and stops at the first unescaped EOT *)
Lemma units_EOT_inj raw1 out1 : units raw1 out1 -> forall raw2 out2 r1 r2, units raw2 out2 ->
  raw1 ++ EOT :: r1 = raw2 ++ EOT :: r2 -> raw1 = raw2 /\ out1 = out2 /\ r1 = r2.
Proof.
  induction 1 as [|b raw out Hb1 Hb2 H IH|b raw out H IH]; intros raw2 out2 r1 r2 H2 Heq;
  inversion H2 as [|b2 raw2' out2' Hb3 Hb4 H2'|b2 raw2' out2' H2']; subst; simpl in Heq.
  - injection Heq as ->. done.
  - injection Heq as <- _. done.
  - done.
  - injection Heq as -> _. done.
  - injection Heq as <- Heq. destruct (IH _ _ _ _ H2' Heq) as (-> & -> & ->). done.
  - injection Heq as -> _. done.
  - done.
  - injection Heq as <- _. done.
  - injection Heq as <- Heq. destruct (IH _ _ _ _ H2' Heq) as (-> & -> & ->). done.
Qed.

Lemma frame_prefix_inj m1 m2 r1 r2 : frame m1 ++ r1 = frame m2 ++ r2 -> m1 = m2 /\ r1 = r2.
Proof.
  unfold frame. simpl. rewrite <- !app_assoc. simpl. intros H. injection H as H.
  destruct (units_EOT_inj _ _ (escape_units m1) _ _ _ _ (escape_units m2) H) as (_ & -> & ->). done.
Qed.

Lemma frames_inj ms1 : forall ms2, concat (map frame ms1) = concat (map frame ms2) -> ms1 = ms2.
Proof.
  induction ms1 as [|m1 ms1 IH]; intros [|m2 ms2] H; simpl in H; try done.
  apply frame_prefix_inj in H as [-> H]. f_equal. auto.
Qed.

(** ** decode *)
(** what the decoding loop reads: decoded bytes and last byte read *)
Fixpoint scan (esc : bool) (b : option Z) (l : list Z) : list Z * option Z :=
  match l with
  | [] => ([], b)
  | c :: l =>
    if esc then let '(o, x) := scan false (Some c) l in (c :: o, x)
    else if c =? BISYNC_DLE then scan true (Some c) l
    else if c =? BISYNC_EOT then ([], Some c)
    else let '(o, x) := scan false (Some c) l in (c :: o, x)
  end.

Section decode.
Context (p : plat) (mem : list Z) (cap : Z).
Hypothesis (Hcap : 0 <= cap <= int_max) (Hmem : cap <= Z.of_nat (length mem)).

Lemma decode_loop_ok (enc : list Z) (n : nat) :
  (n <= length enc)%nat -> Z.of_nat n <= int_max ->
  forall k bs esc b, (k <= n)%nat -> Z.of_nat (length bs) <= cap ->
  exists b', decode_loop p k enc (Z.of_nat n) (Z.of_nat (n - k)) b esc (wr mem cap bs) =
    Ok (fst (outcome mem cap (bs ++ fst (scan esc b (take k (drop (n - k) enc))))), b',
        snd (outcome mem cap (bs ++ fst (scan esc b (take k (drop (n - k) enc)))))) /\
    (fst (outcome mem cap (bs ++ fst (scan esc b (take k (drop (n - k) enc))))) = true ->
     b' = snd (scan esc b (take k (drop (n - k) enc)))).
Proof.
  intros Hn Hsz. induction k as [|k IH]; intros bs esc b Hk Hbs.
  - pose proof (size_mod_big p). unfold int_max in *.
    simpl. rewrite to_size_id by lia. destruct (Z.ltb_spec (Z.of_nat (n - 0)) (Z.of_nat n)); [lia|].
    rewrite app_nil_r. unfold outcome. destruct (Z.leb_spec (Z.of_nat (length bs)) cap); [|lia]. simpl. eauto.
  - cbn [decode_loop]. pose proof (size_mod_big p). unfold int_max in *. rewrite to_size_id by lia.
    destruct (Z.ltb_spec (Z.of_nat (n - S k)) (Z.of_nat n)); [|lia].
    destruct (lookup_lt_is_Some_2 enc (n - S k)) as [c Hc]; [lia|].
    rewrite (ld_ok _ _ _ Hc). cbn [bind].
    rewrite (drop_S _ _ _ Hc). cbn [take scan].
    replace (S (n - S k)) with (n - k)%nat by lia.
    unfold iadd. rewrite ichk_ok by (unfold int_min, int_max; lia). cbn [bind].
    replace (Z.of_nat (n - S k) + 1) with (Z.of_nat (n - k)) by lia.
    assert (Hput : forall e0, 
      exists b', (let* '(ok, w) := buffer_put (wr mem cap bs) c in
        if negb ok then Ok (false, Some c, w)
        else decode_loop p k enc (Z.of_nat n) (Z.of_nat (n - k)) (Some c) e0 w) =
       Ok (fst (outcome mem cap (bs ++ c :: fst (scan e0 (Some c) (take k (drop (n - k) enc))))), b',
           snd (outcome mem cap (bs ++ c :: fst (scan e0 (Some c) (take k (drop (n - k) enc)))))) /\
       (fst (outcome mem cap (bs ++ c :: fst (scan e0 (Some c) (take k (drop (n - k) enc))))) = true ->
        b' = snd (scan e0 (Some c) (take k (drop (n - k) enc))))).
    { intros e0. destruct (put_step mem cap Hcap Hmem bs c Hbs) as [(H2 & ->)|(H2 & ->)]; cbn [bind negb].
      - destruct (IH (bs ++ [c]) e0 (Some c)) as (b' & HE & Hb'); [lia|rewrite app_length; simpl; lia|].
        rewrite <- !app_assoc in HE, Hb'. simpl in HE, Hb'. eauto.
      - rewrite outcome_full by done. eexists. split; [done|]. done. }
    destruct esc.
    + specialize (Hput false). destruct (scan false (Some c) (take k (drop (n - k) enc))) as [o x]. exact Hput.
    + destruct (Z.eqb_spec c BISYNC_DLE) as [->|].
      { apply IH; lia. }
      destruct (Z.eqb_spec c BISYNC_EOT) as [->|].
      { cbn [fst]. rewrite app_nil_r. unfold outcome.
        destruct (Z.leb_spec (Z.of_nat (length bs)) cap); [|lia]. simpl. eauto. }
      specialize (Hput false). destruct (scan false (Some c) (take k (drop (n - k) enc))) as [o x]. exact Hput.
Qed.
End decode.

(** exact behaviour of mu_bisync_decode *)
Lemma decode_ok p mem cap enc n :
  0 <= cap <= int_max -> cap <= Z.of_nat (length mem) ->
  0 <= n <= Z.of_nat (length enc) -> n <= int_max ->
  mu_bisync_decode p mem cap enc n =
    match take (Z.to_nat n) enc with
    | c :: _ =>
      if c =? BISYNC_SOH then
        let '(out, last) := scan false None (take (Z.to_nat n) enc) in
        if Z.of_nat (length out) <=? cap then
          match last with
          | Some b => Ok (if b =? BISYNC_EOT then Z.of_nat (length out) else MU_BISYNC_ERR_FORMAT, overwrite out mem)
          | None => UB
          end
        else Ok (MU_BISYNC_ERR_OFLOW, overwrite (take (Z.to_nat cap) out) mem)
      else Ok (MU_BISYNC_ERR_FORMAT, mem)
    | [] => Ok (MU_BISYNC_ERR_FORMAT, mem)
    end.
Proof.
  intros Hc Hm Hn Hi. unfold mu_bisync_decode.
  rewrite to_int_id by (unfold int_min; lia).
  destruct (Z.ltb_spec n 1).
  { assert (n = 0) as -> by lia. simpl. done. }
  destruct enc as [|c enc]; [simpl in *; lia|].
  assert (Htk : take (Z.to_nat n) (c :: enc) = c :: take (Z.to_nat n - 1) enc).
  { destruct (Z.to_nat n) eqn:E; [lia|]. simpl. rewrite Nat.sub_0_r. done. }
  rewrite Htk. rewrite <- Htk. change (ld (c :: enc) 0) with (Ok c). cbn [bind].
  destruct (Z.eqb_spec c BISYNC_SOH) as [->|]; cbn [negb]; [|done].
  change (MkBuf mem cap 0) with (wr mem cap []).
  destruct (decode_loop_ok p mem cap Hc Hm (BISYNC_SOH :: enc) (Z.to_nat n)) with (k := Z.to_nat n) (bs := @nil Z) (esc := false) (b := @None Z)
    as (b' & HE & Hb'); [lia|lia|lia|simpl; lia|].
  rewrite Nat.sub_diag, Z2Nat.id in HE by lia. rewrite Nat.sub_diag in Hb'.
  change (Z.of_nat 0) with 0 in HE. rewrite HE. clear HE. cbn [bind]. rewrite drop_0, app_nil_l in *.
  destruct (scan false None (take (Z.to_nat n) (BISYNC_SOH :: enc))) as [out last] eqn:Es.
  cbn [fst snd] in *. unfold outcome in *.
  destruct (Z.leb_spec (Z.of_nat (length out)) cap) as [Hle|Hgt]; cbn [fst snd negb] in *; [|done].
  rewrite Hb' by done. destruct last as [b|]; [|done].
  destruct (Z.eqb_spec b BISYNC_EOT); done.
Qed.

(** scan against the grammar *)
Lemma scan_units_EOT raw out : units raw out -> forall b rest,
  scan false b (raw ++ EOT :: rest) = (out, Some EOT).
Proof.
  induction 1 as [|b raw out Hb1 Hb2 H IH|b raw out H IH]; intros b0 rest; simpl.
  - done.
  - destruct (Z.eqb_spec b BISYNC_DLE); [done|]. destruct (Z.eqb_spec b BISYNC_EOT); [done|]. rewrite IH. done.
  - rewrite IH. done.
Qed.

(** every byte string is units, then either the end, or EOT and more, or a lone final DLE *)
Lemma scan_cases l : forall b,
  (exists raw out rest, l = raw ++ EOT :: rest /\ units raw out /\ scan false b l = (out, Some EOT)) \/
  (exists out, units l out /\ scan false b l = (out, if decide (l = []) then b else last l)) \/
  (exists raw out, l = raw ++ [DLE] /\ units raw out /\ scan false b l = (out, Some DLE)).
Proof.
  induction l as [l IH] using (induction_ltof1 _ (@length Z)); unfold ltof in IH. intros b.
  destruct l as [|c l].
  { right; left. exists []. split; [constructor|]. done. }
  destruct (decide (c = DLE)) as [->|Hd].
  - destruct l as [|c2 l].
    { right; right. exists [], []. split; [done|]. split; [constructor|done]. }
    change (scan false b (DLE :: c2 :: l)) with (let '(o, x) := scan false (Some c2) l in (c2 :: o, x)).
    destruct (IH l) with (b := Some c2) as [(raw & out & rest & -> & Hu & ->)|[(out & Hu & ->)|(raw & out & -> & Hu & ->)]]; [simpl; lia| | |].
    + left. exists (DLE :: c2 :: raw), (c2 :: out), rest. split; [done|]. split; [by constructor|done].
    + right; left. exists (c2 :: out). split; [by constructor|].
      destruct (decide (DLE :: c2 :: l = [])); [done|]. f_equal. destruct (decide (l = [])) as [->|]; [done|].
      destruct l; done.
    + right; right. exists (DLE :: c2 :: raw), (c2 :: out). split; [done|]. split; [by constructor|done].
  - destruct (decide (c = EOT)) as [->|He].
    { left. exists [], [], l. split; [done|]. split; [constructor|done]. }
    assert (Hs : scan false b (c :: l) = let '(o, x) := scan false (Some c) l in (c :: o, x)).
    { simpl. destruct (Z.eqb_spec c BISYNC_DLE); [done|]. destruct (Z.eqb_spec c BISYNC_EOT); done. }
    rewrite Hs.
    destruct (IH l) with (b := Some c) as [(raw & out & rest & -> & Hu & ->)|[(out & Hu & ->)|(raw & out & -> & Hu & ->)]]; [simpl; lia| | |].
    + left. exists (c :: raw), (c :: out), rest. split; [done|]. split; [by constructor|done].
    + right; left. exists (c :: out). split; [by constructor|].
      destruct (decide (c :: l = [])); [done|]. f_equal. destruct (decide (l = [])) as [->|]; [done|].
      destruct l; done.
    + right; right. exists (c :: raw), (c :: out). split; [done|]. split; [by constructor|done].
Qed.
