(** * Property C77: mu_bisync_encode and mu_bisync_decode, exactly, for every input *)
From Verif Require Import CSem BisyncModel BisyncSpec BisyncProofs BisyncProps.

(** ** Specification *)
(** How a received byte string reads: it is cut at the first unescaped EOT
    ([Terminated]); or it has none and ends on a whole unit ([Exhausted]); or it
    has none and its last byte is an unescaped DLE ([Dangling]). *)
Inductive ending := Terminated | Exhausted | Dangling.
Inductive reading : list Z -> list Z -> ending -> Prop :=
| r_term raw out rest : units raw out -> reading (raw ++ EOT :: rest) out Terminated
| r_end raw out : units raw out -> reading raw out Exhausted
| r_dangling raw out : units raw out -> reading (raw ++ [DLE]) out Dangling.

(** the number of bytes a capacity argument of type size_t really allows: it is
    stored in an [int] (mu_bisync.c:45), and a negative capacity allows none *)
Definition allowed (cap : Z) : Z := Z.max 0 (to_int cap).

(** result and final contents of the output object, for an input read as [out] / [e] *)
Definition decode_result (input : list Z) (dst : list Z) (room : Z) (out : list Z) (en : ending) : Z * list Z :=
  if room <? Z.of_nat (length out) then (MU_BISYNC_ERR_OFLOW, overwrite (take (Z.to_nat room) out) dst)
  else (match en with
        | Terminated => Z.of_nat (length out)
        | Exhausted => if bool_decide (last input = Some EOT) then Z.of_nat (length out) else MU_BISYNC_ERR_FORMAT
        | Dangling => MU_BISYNC_ERR_FORMAT
        end, overwrite out dst).

(** ** capacities beyond INT_MAX *)
Lemma allowed_id cap : 0 <= cap <= int_max -> allowed cap = cap.
Proof. intros. unfold allowed. rewrite to_int_id by (unfold int_min; lia). lia. Qed.
Lemma allowed_range cap : 0 <= cap -> 0 <= allowed cap <= int_max /\ allowed cap <= cap.
Proof.
  intros Hc. unfold allowed, to_int, wrap_signed, int_max.
  pose proof (Z.mod_pos_bound cap 4294967296 ltac:(lia)).
  pose proof (Z.mod_le cap 4294967296 ltac:(lia) ltac:(lia)).
  change (4294967296 / 2) with 2147483648. cbv zeta.
  destruct (Z.ltb_spec (cap mod 4294967296) 2147483648); lia.
Qed.

Lemma buffer_put_neg m c b : c <= 0 -> buffer_put (MkBuf m c 0) b = Ok (false, MkBuf m c 0).
Proof. intros. unfold buffer_put. simpl. destruct (Z.leb_spec c 0); [done|lia]. Qed.

Lemma decode_loop_neg p fuel enc n m c : c <= 0 -> forall i b esc,
  (exists ok b', decode_loop p fuel enc n i b esc (MkBuf m c 0) = Ok (ok, b', MkBuf m c 0) /\
                 decode_loop p fuel enc n i b esc (MkBuf m 0 0) = Ok (ok, b', MkBuf m 0 0)) \/
  (decode_loop p fuel enc n i b esc (MkBuf m c 0) = UB /\ decode_loop p fuel enc n i b esc (MkBuf m 0 0) = UB) \/
  (decode_loop p fuel enc n i b esc (MkBuf m c 0) = NoFuel /\ decode_loop p fuel enc n i b esc (MkBuf m 0 0) = NoFuel).
Proof.
  intros Hc. induction fuel as [|f IH]; intros i b esc; cbn [decode_loop].
  { destruct (_ <? _); [by right; right|]. left. eauto. }
  destruct (_ <? _); [|left; eauto].
  destruct (ld enc i) as [c0| |]; cbn [bind]; [|by right; left|by right; right].
  destruct esc.
  { rewrite !buffer_put_neg by lia. cbn [bind negb]. left. eauto. }
  destruct (c0 =? BISYNC_DLE).
  { destruct (iadd i 1); cbn [bind]; [apply IH|by right; left|by right; right]. }
  destruct (c0 =? BISYNC_EOT); [left; eauto|].
  rewrite !buffer_put_neg by lia. cbn [bind negb]. left. eauto.
Qed.

Lemma to_int_allowed cap : 0 <= cap -> to_int (allowed cap) = allowed cap.
Proof. intros H. destruct (allowed_range cap H). apply to_int_id. unfold int_min, int_max in *. lia. Qed.

Lemma decode_allowed p dst cap enc n : 0 <= cap ->
  mu_bisync_decode p dst cap enc n = mu_bisync_decode p dst (allowed cap) enc n.
Proof.
  intros Hc. unfold mu_bisync_decode. rewrite to_int_allowed by done.
  destruct (Z.lt_ge_cases (to_int cap) 0) as [Hneg|Hpos].
  2:{ replace (allowed cap) with (to_int cap) by (unfold allowed; lia). done. }
  replace (allowed cap) with 0 by (unfold allowed; lia).
  destruct (if n <? 1 then _ else _) as [bad| |]; cbn [bind]; [|done|done]. destruct bad; [done|].
  destruct (decode_loop_neg p (Z.to_nat n) enc n dst (to_int cap) ltac:(lia) 0 None false)
    as [(ok & b' & -> & ->)|[(-> & ->)|(-> & ->)]]; [|done|done].
  cbn [bind]. done.
Qed.
Lemma encode_allowed p dst cap src n : 0 <= cap ->
  mu_bisync_encode p dst cap src n = mu_bisync_encode p dst (allowed cap) src n.
Proof.
  intros Hc. unfold mu_bisync_encode. rewrite to_int_allowed by done.
  destruct (Z.lt_ge_cases (to_int cap) 0) as [Hneg|Hpos].
  2:{ replace (allowed cap) with (to_int cap) by (unfold allowed; lia). done. }
  replace (allowed cap) with 0 by (unfold allowed; lia).
  rewrite !buffer_put_neg by lia. done.
Qed.

(** ** readings exist and are unique *)
Lemma units_not_dangling raw out : units raw out -> forall raw' out', units raw' out' -> raw = raw' ++ [DLE] -> False.
Proof.
  induction 1 as [|b raw out Hb1 Hb2 H IH|b raw out H IH]; intros raw' out' Hu Heq;
  inversion Hu; subst; simplify_list_eq; try done; eauto.
Qed.
Lemma term_not_dangling raw out : units raw out -> forall raw' out' rest, units raw' out' ->
  raw ++ EOT :: rest = raw' ++ [DLE] -> False.
Proof.
  induction 1 as [|b raw out Hb1 Hb2 H IH|b raw out H IH]; intros raw' out' rest Hu Heq;
  inversion Hu; subst; simplify_list_eq; try done; eauto.
Qed.
Lemma dangling_inj raw out : units raw out -> forall raw' out', units raw' out' -> raw ++ [DLE] = raw' ++ [DLE] -> out = out'.
Proof. intros Hu raw' out' Hu' Heq. apply app_inj_2 in Heq as [-> _]; [|done]. eapply units_det; eauto. Qed.

Lemma reading_total e : exists out en, reading e out en.
Proof.
  destruct (scan_cases e None) as [(raw & out & rest & -> & Hu & _)|[(out & Hu & _)|(raw & out & -> & Hu & _)]];
  eexists _, _; by constructor.
Qed.
Lemma reading_unique e out1 en1 out2 en2 : reading e out1 en1 -> reading e out2 en2 -> out1 = out2 /\ en1 = en2.
Proof.
  intros H1 H2. inversion H1 as [raw1 o1 rest1 Hu1 He1|raw1 o1 Hu1 He1|raw1 o1 Hu1 He1]; subst;
  inversion H2 as [raw2 o2 rest2 Hu2 He2|raw2 o2 Hu2 He2|raw2 o2 Hu2 He2]; subst.
  - destruct (units_EOT_inj _ _ Hu1 _ _ _ _ Hu2 (eq_sym He2)) as (_ & -> & _). done.
  - exfalso. eapply units_not_EOT_term; [exact Hu2|reflexivity|exact Hu1].
  - exfalso. eapply term_not_dangling; [exact Hu1|exact Hu2|done].
  - exfalso. eapply units_not_EOT_term; [exact Hu1|reflexivity|exact Hu2].
  - split; [|done]. eapply units_det; eauto.
  - exfalso. eapply units_not_dangling; [exact Hu1|exact Hu2|done].
  - exfalso. eapply term_not_dangling; [exact Hu2|exact Hu1|done].
  - exfalso. eapply units_not_dangling; [exact Hu2|exact Hu1|done].
  - split; [|done]. eapply dangling_inj; [exact Hu1|exact Hu2|done].
Qed.

(** ** the theorems *)
(** encode: every capacity, every source length *)
Theorem C77_encode_exact : forall p encoded cap src n,
  0 <= cap <= size_max p -> cap <= Z.of_nat (length encoded) ->
  0 <= n <= Z.of_nat (length src) -> n <= size_max p ->
  let f := frame (take (Z.to_nat n) src) in
  mu_bisync_encode p encoded cap src n =
    Ok (if Z.of_nat (length f) <=? allowed cap then Z.of_nat (length f) else MU_BISYNC_ERR_OFLOW,
        overwrite (take (Z.to_nat (allowed cap)) f) encoded).
Proof.
  intros p encoded cap src n Hc Hm Hn Hs f. rewrite encode_allowed by lia.
  destruct (allowed_range cap ltac:(lia)) as [H1 H2].
  rewrite encode_ok by (unfold size_max in *; lia). fold f. cbv zeta.
  destruct (Z.leb_spec (Z.of_nat (length f)) (allowed cap)); [|done].
  rewrite take_ge by lia. done.
Qed.
Print Assumptions C77_encode_exact.

(** decode: every capacity, every input of up to INT_MAX bytes *)
Theorem C77_decode_exact : forall p dst cap encoded n,
  0 <= cap <= size_max p -> cap <= Z.of_nat (length dst) ->
  0 <= n <= Z.of_nat (length encoded) -> n <= int_max ->
  let e := take (Z.to_nat n) encoded in
  exists out en, reading e out en /\ (forall out' en', reading e out' en' -> out' = out /\ en' = en) /\
    mu_bisync_decode p dst cap encoded n =
      Ok (if bool_decide (hd_error e = Some SOH) then decode_result e dst (allowed cap) out en
          else (MU_BISYNC_ERR_FORMAT, dst)).
Proof.
  intros p dst cap encoded n Hc Hm Hn Hi e. rewrite decode_allowed by lia.
  destruct (allowed_range cap ltac:(lia)) as [H1 H2].
  rewrite decode_ok by lia. fold e.
  destruct (reading_total e) as (out & en & Hr). exists out, en. split; [done|]. split.
  { intros out' en' H'. eapply reading_unique; eauto. }
  clearbody e. clear Hn Hi.
  destruct e as [|c e']; [done|]. cbn [hd_error].
  change BISYNC_SOH with SOH.
  destruct (Z.eqb_spec c SOH) as [->|Hcs].
  2:{ rewrite bool_decide_eq_false_2 by congruence. done. }
  rewrite bool_decide_eq_true_2 by done.
  assert (Hnn : SOH :: e' <> []) by done.
  revert Hr Hnn. generalize (SOH :: e'). clear e'. intros e Hr Hnn.
  unfold decode_result.
  destruct (scan_cases e None) as [(raw & o & rest & He & Hu & ->)|[(o & Hu & ->)|(raw & o & He & Hu & ->)]].
  - destruct (reading_unique e out en o Terminated) as [-> ->]; [done|rewrite He; by constructor|].
    destruct (Z.leb_spec (Z.of_nat (length o)) (allowed cap)), (Z.ltb_spec (allowed cap) (Z.of_nat (length o))); [lia|reflexivity|reflexivity|lia].
  - destruct (reading_unique e out en o Exhausted) as [-> ->]; [done|by constructor|].
    destruct (decide (e = [])); [done|].
    destruct (last e) as [b|] eqn:El; [|apply last_None in El; done].
    destruct (Z.leb_spec (Z.of_nat (length o)) (allowed cap)), (Z.ltb_spec (allowed cap) (Z.of_nat (length o))); [lia| |done|lia].
    destruct (Z.eqb_spec b BISYNC_EOT) as [->|].
    + rewrite bool_decide_eq_true_2 by done. done.
    + rewrite bool_decide_eq_false_2 by (intros [= ->]; done). done.
  - destruct (reading_unique e out en o Dangling) as [-> ->]; [done|rewrite He; by constructor|].
    destruct (Z.leb_spec (Z.of_nat (length o)) (allowed cap)), (Z.ltb_spec (allowed cap) (Z.of_nat (length o))); [lia|reflexivity|reflexivity|lia].
Qed.
Print Assumptions C77_decode_exact.

(** ** inputs longer than INT_MAX bytes: the index is an [int], so only the first
    2^31 bytes can be read; if they neither terminate the frame nor fill the output,
    the behaviour is undefined *)
Fixpoint scanT (esc : bool) (l : list Z) : list Z * bool :=
  match l with
  | [] => ([], false)
  | c :: l =>
    if esc then (c :: fst (scanT false l), snd (scanT false l))
    else if c =? BISYNC_DLE then scanT true l
    else if c =? BISYNC_EOT then ([], true)
    else (c :: fst (scanT false l), snd (scanT false l))
  end.

Lemma scanT_units raw out : units raw out -> forall rest,
  scanT false (raw ++ rest) = (out ++ fst (scanT false rest), snd (scanT false rest)).
Proof.
  induction 1 as [|b raw out Hb1 Hb2 H IH|b raw out H IH]; intros rest; simpl.
  - by destruct (scanT false rest).
  - destruct (Z.eqb_spec b BISYNC_DLE); [done|]. destruct (Z.eqb_spec b BISYNC_EOT); [done|]. rewrite IH. done.
  - rewrite IH. done.
Qed.
Lemma scanT_reading e out en : reading e out en ->
  scanT false e = (out, match en with Terminated => true | _ => false end).
Proof.
  destruct 1 as [raw out rest Hu|raw out Hu|raw out Hu].
  - rewrite (scanT_units _ _ Hu). simpl. by rewrite app_nil_r.
  - rewrite <- (app_nil_r raw). rewrite (scanT_units _ _ Hu). simpl. by rewrite app_nil_r.
  - rewrite (scanT_units _ _ Hu). simpl. by rewrite app_nil_r.
Qed.

Section huge.
Context (p : plat) (mem : list Z) (cap : Z) (enc : list Z) (n : Z).
Hypothesis (Hcap : 0 <= cap <= int_max) (Hmem : cap <= Z.of_nat (length mem)).
Hypothesis (Hn : int_max < n <= Z.of_nat (length enc)).

Lemma decode_loop_huge : forall k i bs esc b fuel,
  Z.of_nat i + Z.of_nat (S k) = 2147483648 -> (S k <= fuel)%nat -> Z.of_nat (length bs) <= cap ->
  let s := scanT esc (take (S k) (drop i enc)) in
  if cap <? Z.of_nat (length (bs ++ fst s)) then
    exists b', decode_loop p fuel enc n (Z.of_nat i) b esc (wr mem cap bs) =
      Ok (false, b', wr mem cap (take (Z.to_nat cap) (bs ++ fst s)))
  else if snd s then
    decode_loop p fuel enc n (Z.of_nat i) b esc (wr mem cap bs) = Ok (true, Some EOT, wr mem cap (bs ++ fst s))
  else decode_loop p fuel enc n (Z.of_nat i) b esc (wr mem cap bs) = UB.
Proof.
  induction k as [|k IH]; intros i bs esc b fuel Hi Hf Hbs.
  all: destruct fuel as [|f]; [lia|]; cbn [decode_loop]; pose proof (size_mod_big p); unfold int_max in *;
    rewrite to_size_id by lia; destruct (Z.ltb_spec (Z.of_nat i) n); [|lia];
    destruct (lookup_lt_is_Some_2 enc i) as [c Hc]; [lia|];
    rewrite (ld_ok _ _ _ Hc); cbn [bind]; rewrite (drop_S _ _ _ Hc); cbn [take scanT]; cbv zeta.
  - assert (Hub : iadd (Z.of_nat i) 1 = UB) by (apply ichk_ub; unfold int_max; lia).
    rewrite Hub. cbn [bind].
    assert (Hput : forall o, fst (o : list Z * bool) = [] -> snd o = false ->
      if cap <? Z.of_nat (length (bs ++ c :: fst o)) then
        exists b', (let* '(ok, w) := buffer_put (wr mem cap bs) c in
            if negb ok then Ok (false, Some c, w) else @UB (bool * option Z * buffer)) =
          Ok (false, b', wr mem cap (take (Z.to_nat cap) (bs ++ c :: fst o)))
      else if snd o then False
      else (let* '(ok, w) := buffer_put (wr mem cap bs) c in
            if negb ok then Ok (false, Some c, w) else @UB (bool * option Z * buffer)) = UB).
    { intros [o t]; simpl; intros -> ->. rewrite app_length. simpl.
      destruct (put_step mem cap Hcap Hmem bs c Hbs) as [(H2 & ->)|(H2 & ->)]; cbn [bind negb].
      - destruct (Z.ltb_spec cap (Z.of_nat (length bs + 1))); [lia|done].
      - destruct (Z.ltb_spec cap (Z.of_nat (length bs + 1))); [|lia].
        eexists. rewrite take_app_alt by lia. done. }
    destruct esc.
    { specialize (Hput ([], false) eq_refl eq_refl). simpl in Hput. simpl fst. simpl snd.
      destruct (cap <? _); exact Hput. }
    destruct (Z.eqb_spec c BISYNC_DLE) as [->|]; cbn [fst snd].
    { rewrite app_nil_r. destruct (Z.ltb_spec cap (Z.of_nat (length bs))); [lia|done]. }
    destruct (Z.eqb_spec c BISYNC_EOT) as [->|]; cbn [fst snd].
    { rewrite app_nil_r. destruct (Z.ltb_spec cap (Z.of_nat (length bs))); [lia|done]. }
    { specialize (Hput ([], false) eq_refl eq_refl). simpl in Hput.
      destruct (cap <? _); exact Hput. }
  - unfold iadd. rewrite ichk_ok by (unfold int_min, int_max; lia). cbn [bind].
    replace (Z.of_nat i + 1) with (Z.of_nat (S i)) by lia.
    fold (take (A:=Z)) in *.
    change (match drop (S i) enc with [] => [] | x :: l => x :: take k l end) with (take (S k) (drop (S i) enc)).
    assert (Hput : 
      let s := scanT false (take (S k) (drop (S i) enc)) in
      let C := (let* '(ok, w) := buffer_put (wr mem cap bs) c in
        if negb ok then Ok (false, Some c, w)
        else decode_loop p f enc n (Z.of_nat (S i)) (Some c) false w) in
      if cap <? Z.of_nat (length (bs ++ c :: fst s)) then
        exists b', C = Ok (false, b', wr mem cap (take (Z.to_nat cap) (bs ++ c :: fst s)))
      else if snd s then C = Ok (true, Some EOT, wr mem cap (bs ++ c :: fst s))
      else C = UB).
    { intros s C. unfold C. destruct (put_step mem cap Hcap Hmem bs c Hbs) as [(H2 & ->)|(H2 & ->)]; cbn [bind negb].
      - specialize (IH (S i) (bs ++ [c]) false (Some c) f ltac:(lia) ltac:(lia)).
        rewrite app_length in IH. simpl length in IH. specialize (IH ltac:(lia)). cbv zeta in IH.
        fold s in IH. rewrite <- !app_assoc in IH. simpl in IH. exact IH.
      - rewrite app_length. simpl. destruct (Z.ltb_spec cap (Z.of_nat (length bs + S (length (fst s))))); [|lia].
        eexists. rewrite take_app_alt by lia. done. }
    destruct esc; [exact Hput|].
    destruct (Z.eqb_spec c BISYNC_DLE) as [->|].
    { apply IH; lia. }
    destruct (Z.eqb_spec c BISYNC_EOT) as [->|]; cbn [fst snd].
    { rewrite app_nil_r. destruct (Z.ltb_spec cap (Z.of_nat (length bs))); [lia|done]. }
    exact Hput.
Qed.
End huge.

Definition is_terminated (en : ending) : bool := match en with Terminated => true | _ => false end.

Theorem C77_decode_huge : forall p dst cap encoded n,
  0 <= cap <= size_max p -> cap <= Z.of_nat (length dst) ->
  int_max < n <= Z.of_nat (length encoded) ->
  let e := take (Z.to_nat (int_max + 1)) encoded in
  exists out en, reading e out en /\
    mu_bisync_decode p dst cap encoded n =
      if negb (bool_decide (hd_error e = Some SOH)) then Ok (MU_BISYNC_ERR_FORMAT, dst)
      else if (allowed cap <? Z.of_nat (length out)) || is_terminated en
           then Ok (decode_result e dst (allowed cap) out en)
           else UB.
Proof.
  intros p dst cap encoded n Hc Hm Hn.
  assert (HK : Z.of_nat (Z.to_nat (int_max + 1)) = 2147483648) by (apply Z2Nat.id; unfold int_max; lia).
  generalize dependent (Z.to_nat (int_max + 1)). intros K HK e. rewrite decode_allowed by lia.
  destruct (allowed_range cap ltac:(lia)) as [H1 H2].
  destruct (reading_total e) as (out & en & Hr). exists out, en. split; [done|].
  unfold mu_bisync_decode. rewrite to_int_allowed by lia.
  unfold int_max in *. destruct (Z.ltb_spec n 1); [lia|].
  destruct K as [|k]; [lia|].
  destruct encoded as [|c enc]; [simpl in Hn; lia|]. change (ld (c :: enc) 0) with (Ok c). cbn [bind].
  assert (He : hd_error e = Some c). { done. }
  rewrite He. destruct (Z.eqb_spec c BISYNC_SOH) as [->|Hne]; cbn [negb].
  2:{ rewrite bool_decide_eq_false_2 by (intros [=]; done). done. }
  rewrite bool_decide_eq_true_2 by done. cbn [negb].
  pose proof (decode_loop_huge p dst (allowed cap) (BISYNC_SOH :: enc) n ltac:(unfold int_max; lia) ltac:(lia)
    ltac:(unfold int_max; lia) k 0 [] false None (Z.to_nat n) ltac:(lia) ltac:(lia) ltac:(simpl; lia)) as HL.
  rewrite drop_0 in HL. fold e in HL. rewrite (scanT_reading _ _ _ Hr) in HL.
  cbv zeta in HL. cbn [fst snd] in HL. rewrite app_nil_l in HL.
  change (MkBuf dst (allowed cap) 0) with (wr dst (allowed cap) []).
  change (Z.of_nat 0) with 0 in HL.
  unfold decode_result.
  destruct (Z.ltb_spec (allowed cap) (Z.of_nat (length out))); cbn [orb].
  { destruct HL as (b' & ->). done. }
  destruct en; cbn [is_terminated]; rewrite HL; done.
Qed.
Print Assumptions C77_decode_huge.

Example C77_example :
  reading [1;65;16;4] [1;65;4] Exhausted /\ reading [1;65;4;7] [1;65] Terminated /\ reading [1;16] [1] Dangling /\
  allowed (2 ^ 32 + 3) = 3 /\ allowed (2 ^ 31) = 0 /\
  mu_bisync_decode P64 [0;0;0] 3 [1;16] 2 = Ok (MU_BISYNC_ERR_FORMAT, [1;0;0]) /\
  mu_bisync_decode P64 [0;0;0] 1 [1;65;4;7] 4 = Ok (MU_BISYNC_ERR_OFLOW, [1;0;0]).
Proof.
  split. { apply r_end. repeat constructor; done. }
  split. { apply (r_term [1;65] [1;65] [7]). repeat constructor; done. }
  split. { apply (r_dangling [1] [1]). repeat constructor; done. }
  vm_compute. done.
Qed.
