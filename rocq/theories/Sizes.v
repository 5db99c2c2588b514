(** * C106: how large the buffers of a mu_jems / mu_bvec / mu_bisync chain must be *)
From Verif Require Import CSem.
From Verif Require Import BisyncModel BisyncSpec BisyncProofs BisyncProps BisyncExact.
From Verif Require Import BbufModel BbufSpec BbufProofs BvecModel BvecSpec BvecProps.
From Verif Require Import JsonSpec JsonParse JemsModel JemsSpec JemsProofs JemsDouble JemsProofs2 JemsProps JemsProps2 JemsExact Telemetry.
Open Scope Z_scope.

(** ** Specification *)
(** characters that a byte of a string takes: printable ASCII 1, quote and backslash 2, anything
    else 6 *)
Definition byte_cost (b : Z) : Z :=
  if decide (b = 34 \/ b = 92) then 2 else if decide (32 <= b <= 126) then 1 else 6.
Definition total (l : list Z) : Z := fold_right Z.add 0 l.
(** upper bound for the number of characters of one item, without the separator before it *)
Inductive item_bound : vcall -> Z -> Prop :=
| ib_object : item_bound CObjectOpen 1
| ib_array : item_bound CArrayOpen 1
| ib_number d : item_bound (CNumber d) 21
| ib_integer z : item_bound (CInteger z) 20
| ib_string mem s : cstring mem s -> item_bound (CString mem) (6 * Z.of_nat (length s) + 2)
| ib_bytes mem len : item_bound (CBytes mem len) (6 * len + 2)
| ib_bool b : item_bound (CBool b) 5
| ib_true : item_bound CTrue 4
| ib_false : item_bound CFalse 5
| ib_null : item_bound CNull 4
| ib_literal mem len : item_bound (CLiteral mem len) len.
(** ... and of one API call, with the separators *)
Inductive call_bound : call -> Z -> Prop :=
| cb_val v n : item_bound v n -> call_bound (CVal v) (n + 1)
| cb_key mem k v n : cstring mem k -> item_bound v n -> call_bound (CKey mem v) (6 * Z.of_nat (length k) + 2 + 1 + (n + 1))
| cb_object_close : call_bound CObjectClose 1
| cb_array_close : call_bound CArrayClose 1
| cb_reset : call_bound CReset 0.
(** number of bytes which are escaped in a frame *)
Definition specials (m : list Z) : Z := Z.of_nat (length (List.filter special m)).

(** ** Proofs *)
Lemma quote_unit_len u : Z.of_nat (length (quote_unit u)) = byte_cost u.
Proof. unfold quote_unit, byte_cost. destruct (decide _); [done|]. destruct (decide (32 <= u < 127)), (decide (32 <= u <= 126)); done || lia. Qed.
Lemma str_text_len s : Z.of_nat (length (str_text s)) = total (map byte_cost s) + 2.
Proof.
  unfold str_text. cbn [length]. rewrite app_length. cbn [length].
  assert (H : Z.of_nat (length (concat (map quote_unit s))) = total (map byte_cost s)).
  { induction s as [|u s IH]; [done|]. cbn [map concat total fold_right]. rewrite app_length, Nat2Z.inj_add, IH, quote_unit_len. done. }
  lia.
Qed.
Lemma byte_cost_le b : 1 <= byte_cost b <= 6.
Proof. unfold byte_cost. repeat destruct (decide _); lia. Qed.
Lemma total_cost_le s : Z.of_nat (length s) <= total (map byte_cost s) <= 6 * Z.of_nat (length s).
Proof. induction s as [|b s IH]; [done|]. cbn [map total fold_right length]. fold (total (map byte_cost s)). pose proof (byte_cost_le b). lia. Qed.
Lemma number_text_len d : (length (number_text d) <= 21)%nat.
Proof. unfold number_text. destruct (int64_of_double d); [|simpl; lia..]. rewrite take_length. lia. Qed.

Lemma vtext_len v n : vcall_ok v -> item_bound v n -> Z.of_nat (length (vtext v)) <= n.
Proof.
  intros Hv H. destruct H as [| |d|z|mem s Hs|mem len|b| | | |mem len]; cbn [vtext]; try (simpl; lia).
  - pose proof (number_text_len d). lia.
  - pose proof (fmt_d_len z Hv). lia.
  - rewrite (until0_ok mem s) by done. rewrite str_text_len. pose proof (total_cost_le s). lia.
  - destruct Hv as (_ & H1 & H2). rewrite str_text_len. pose proof (total_cost_le (take (Z.to_nat len) mem)). rewrite take_length in *. lia.
  - destruct b; simpl; lia.
  - destruct Hv as (_ & H1 & H2). rewrite take_length. lia.
Qed.
Lemma asep_len st : Z.of_nat (length (asep st)) <= 1.
Proof. destruct st as [|[b n] st]; [simpl; lia|]. cbn [asep]. unfold separator. destruct (0 <? n); simpl; lia. Qed.
Lemma acall_len p M s c n : call_ok c -> call_bound c n -> Z.of_nat (length (snd (acall p M s c))) <= Z.of_nat (length (snd s)) + n.
Proof.
  intros Hc H. destruct H as [v n Hv|mem k v n Hk Hv| | |]; cbn [acall aval snd].
  - rewrite !app_length. pose proof (vtext_len v n Hc Hv). pose proof (asep_len (fst s)). lia.
  - destruct Hc as [_ Hc]. rewrite !app_length. pose proof (vtext_len v n Hc Hv). pose proof (asep_len (fst s)).
    pose proof (asep_len (fst (aval p M (CString mem) s))). pose proof (vtext_len (CString mem) _ ltac:(by exists k) (ib_string mem k Hk)). lia.
  - rewrite app_length. simpl. lia.
  - rewrite app_length. simpl. lia.
  - lia.
Qed.
Lemma arun_len p M : forall cs ns s, Forall call_ok cs -> Forall2 call_bound cs ns ->
  Z.of_nat (length (snd (arun p M s cs))) <= Z.of_nat (length (snd s)) + total ns.
Proof.
  induction cs as [|c cs IH]; intros ns s Hcs H; inversion H as [|? n ? ns' Hn Hns]; subst.
  - simpl. lia.
  - inversion Hcs as [|? ? Hc Hr]; subst. rewrite arun_cons. pose proof (IH ns' (acall p M s c) Hr Hns). pose proof (acall_len p M s c n Hc Hn).
    cbn [total fold_right]. fold (total ns'). lia.
Qed.

(** ** C106 *)
(** Every legal call has a bound, so the theorems below apply to every session. *)
Theorem C106_bounds_exist : forall cs, Forall call_ok cs -> exists ns, Forall2 call_bound cs ns.
Proof.
  assert (V : forall v, vcall_ok v -> exists n, item_bound v n).
  { intros v Hv. destruct v; try (eexists; by constructor). destruct Hv as (s0 & Hs). eexists. by econstructor. }
  induction 1 as [|c cs Hc _ (ns & IH)]; [by exists []|].
  assert (exists n, call_bound c n) as (n & Hn).
  { destruct c as [v|k v| | |]; try (eexists; by constructor).
    - destruct (V v Hc) as (n & Hn). eexists. by constructor.
    - destruct Hc as [(s & Hs) Hv]. destruct (V v Hv) as (n & Hn). eexists. by econstructor. }
  exists (n :: ns). by constructor.
Qed.
Print Assumptions C106_bounds_exist.
(** Whatever is emitted, balanced or not: the number of characters sent to the writer is at most
    the sum of the bounds of the calls. *)
Theorem C106_output_bound : forall p S cs ns, setting_ok p S -> Forall call_ok cs -> Forall2 call_bound cs ns ->
  exists j t, session p S cs = Ok j /\ written S t j /\ Z.of_nat (length t) <= total ns.
Proof.
  intros p S cs ns HS Hcs Hns. destruct (session_rep p S HS cs Hcs) as (j & E & Hj).
  exists j, (snd (arun p (maxl S) ([(false, 0)], []) cs)). split; [done|]. split; [by eapply written_rep|].
  pose proof (arun_len p (maxl S) cs ns ([(false, 0)], []) Hcs Hns) as H. simpl in H. lia.
Qed.
Print Assumptions C106_output_bound.
(** The exact size of a string item, at any point of a session: two quotes, the cost of each
    byte, and at most one separator. *)
Theorem C106_string_exact : forall p S cs mem s, setting_ok p S -> Forall call_ok cs -> cstring mem s ->
  exists j1 j t0 t1, session p S cs = Ok j1 /\ written S t0 j1 /\ session p S (cs ++ [CVal (CString mem)]) = Ok j /\ written S (t0 ++ t1) j /\
    exists sep, (sep = 0 \/ sep = 1) /\ Z.of_nat (length t1) = sep + total (map byte_cost s) + 2.
Proof.
  intros p S cs mem s HS Hcs Hs. destruct (session_rep p S HS cs Hcs) as (j1 & E1 & R1).
  destruct (session_rep p S HS (cs ++ [CVal (CString mem)])) as (j & E & R); [apply Forall_app; split; [done|]; apply Forall_singleton; by exists s|].
  rewrite arun_app in R. set (s0 := arun p (maxl S) ([(false, 0)], []) cs) in *. unfold arun in R. cbn [fold_left acall aval fst snd vtext] in R.
  exists j1, j, (snd s0), (asep (fst s0) ++ str_text (until0 mem)). split; [done|]. split; [by eapply written_rep|].
  split; [done|]. split; [by eapply written_rep|]. exists (Z.of_nat (length (asep (fst s0)))).
  split; [pose proof (asep_len (fst s0)); lia|]. rewrite app_length, (until0_ok mem s) by done. pose proof (str_text_len s). lia.
Qed.
Print Assumptions C106_string_exact.
(** The bounds of strings, integers and numbers are attained. *)
Definition d_long : spec_float := S754_finite true 8444249301319681 (-2). (* -2111062325329920.25 *)
Theorem C106_bounds_attained : forall p S, setting_ok p S ->
  (forall n : nat, exists mem s j t, cstring mem s /\ length s = n /\ session p S [CVal (CString mem)] = Ok j /\ written S t j /\
     Z.of_nat (length t) = 6 * Z.of_nat n + 2) /\
  (exists z j t, int64 z /\ session p S [CVal (CInteger z)] = Ok j /\ written S t j /\ length t = 20%nat) /\
  (exists d j t, vcall_ok (CNumber d) /\ session p S [CVal (CNumber d)] = Ok j /\ written S t j /\ length t = 21%nat).
Proof.
  intros p S HS. split_and!.
  - intros n. set (s := replicate n 1). assert (Hs : cstring (s ++ [0]) s).
    { split; [|by exists []]. apply Forall_forall. intros x Hx. apply elem_of_replicate in Hx as [-> _]. lia. }
    destruct (session_rep p S HS [CVal (CString (s ++ [0]))]) as (j & E & R); [apply Forall_singleton; by exists s|].
    eexists (s ++ [0]), s, j, _. split; [done|]. split; [apply replicate_length|]. split; [done|]. split; [by eapply written_rep|].
    unfold arun. cbn [fold_left acall aval fst snd vtext app asep]. unfold separator. cbn [Z.ltb Z.compare app].
    rewrite (until0_ok _ s) by done. rewrite str_text_len.
    assert (total (map byte_cost s) = 6 * Z.of_nat n); [|lia]. subst s. clear. induction n as [|n IH]; [done|].
    cbn [replicate map total fold_right]. fold (total (map byte_cost (replicate n 1))). rewrite IH. change (byte_cost 1) with 6. lia.
  - destruct (session_rep p S HS [CVal (CInteger (-9223372036854775808))]) as (j & E & R); [apply Forall_singleton; unfold call_ok, vcall_ok, int64; lia|].
    eexists _, j, _. split; [|split; [exact E|]]; [unfold int64; lia|]. split; [by eapply written_rep|]. reflexivity.
  - assert (Hok : vcall_ok (CNumber d_long)) by (split; [done|]; split; [done|]; split; reflexivity).
    destruct (session_rep p S HS [CVal (CNumber d_long)]) as (j & E & R); [by apply Forall_singleton|].
    eexists _, j, _. split; [exact Hok|]. split; [exact E|]. split; [by eapply written_rep|]. vm_compute. reflexivity.
Qed.
Print Assumptions C106_bounds_attained.

(** ** frames *)
Lemma escape_len m : Z.of_nat (length (escape m)) = Z.of_nat (length m) + specials m.
Proof.
  unfold specials. induction m as [|b m IH]; [done|]. cbn [escape List.filter]. rewrite app_length. destruct (special b); cbn [length] in *; lia.
Qed.
Lemma frame_len m : Z.of_nat (length (frame m)) = Z.of_nat (length m) + specials m + 2.
Proof. unfold frame. cbn [length]. rewrite app_length. cbn [length]. pose proof (escape_len m). lia. Qed.
Lemma specials_le m : 0 <= specials m <= Z.of_nat (length m).
Proof. unfold specials. induction m as [|b m IH]; [done|]. cbn [List.filter length]. destruct (special b); cbn [length]; lia. Qed.
(** A message of n bytes, k of which are SOH, EOT or DLE, is encoded as n + k + 2 bytes, hence at
    most 2n + 2; a buffer of that size is always sufficient, one of less than n + 2 never. *)
Theorem C106_frame_size : forall p encoded cap src n,
  0 <= cap <= int_max -> cap <= Z.of_nat (length encoded) -> 0 <= n <= Z.of_nat (length src) -> n <= size_max p ->
  let k := specials (take (Z.to_nat n) src) in
  0 <= k <= n /\
  (n + k + 2 <= cap <-> exists encoded', mu_bisync_encode p encoded cap src n = Ok (n + k + 2, encoded')) /\
  (2 * n + 2 <= cap -> exists r encoded', mu_bisync_encode p encoded cap src n = Ok (r, encoded') /\ n + 2 <= r <= cap) /\
  (cap < n + 2 -> exists encoded', mu_bisync_encode p encoded cap src n = Ok (MU_BISYNC_ERR_OFLOW, encoded')).
Proof.
  intros p encoded cap src n Hc Hm Hn Hs k. pose proof (specials_le (take (Z.to_nat n) src)) as Hk. fold k in Hk. rewrite take_length in Hk.
  pose proof (frame_len (take (Z.to_nat n) src)) as Hf. fold k in Hf. rewrite take_length in Hf.
  replace (Z.of_nat (Z.to_nat n `min` length src)) with n in * by lia.
  rewrite encode_ok by (unfold size_max in *; lia). cbv zeta. rewrite Hf. split; [done|].
  destruct (Z.leb_spec (n + k + 2) cap) as [Hle|Hgt].
  - split; [split; [eauto|done]|]. split; [|lia]. intros _. eexists _, _. split; [done|lia].
  - split. { split; [lia|]. intros (e' & E). injection E as E _. unfold MU_BISYNC_ERR_OFLOW in E. lia. }
    split; [lia|eauto].
Qed.
Print Assumptions C106_frame_size.
(** both extremes occur for every message length *)
Theorem C106_frame_extremes : forall n : nat, exists m1 m2, length m1 = n /\ length m2 = n /\
  Z.of_nat (length (frame m1)) = Z.of_nat n + 2 /\ Z.of_nat (length (frame m2)) = 2 * Z.of_nat n + 2.
Proof.
  intros n. exists (replicate n 0), (replicate n 16). rewrite !frame_len, !replicate_length.
  assert (H0 : specials (replicate n 0) = 0) by (induction n; [done|exact IHn]).
  assert (H1 : specials (replicate n 16) = Z.of_nat n).
  { clear. unfold specials. induction n as [|n IH]; [done|]. cbn [replicate List.filter]. change (special 16) with true. cbn [length]. lia. }
  rewrite H0, H1. lia.
Qed.
Print Assumptions C106_frame_extremes.

(** ** the whole chain *)
(** A document whose calls add up to at most N characters: a text buffer of N bytes, a frame
    buffer of 2N + 2 and a receive buffer of N + 1 are enough, for every document. *)
Theorem C106_chain : forall p S v cs ns m b pre l post enc encap dst dcap,
  setting_ok p S -> sent (j0 S) = [] -> describes v cs -> narrow p v -> Z.of_nat (depth v) < maxl S ->
  Forall2 call_bound cs ns -> let N := total ns in 2 * N + 2 <= int_max ->
  bytes_at p m b pre l post -> N <= Z.of_nat (length l) ->
  0 <= encap <= int_max -> encap <= Z.of_nat (length enc) -> 2 * N + 2 <= encap ->
  0 <= dcap <= int_max -> dcap <= Z.of_nat (length dst) -> N + 1 <= dcap ->
  exists j oks bv l' r enc' r' dst',
    session p S cs = Ok j /\
    deliver p m (mu_bvec_init (MkBvec b 0) b) (sent j) = Ok (oks, bv, with_contents m b pre l' post) /\
    Forall (fun ok => ok = true) oks /\ mu_bvec_get_count bv <= N /\
    mu_bisync_encode p enc encap l' (mu_bvec_get_count bv) = Ok (r, enc') /\ 0 <= r <= encap /\
    mu_bisync_decode p dst dcap enc' r = Ok (r', dst') /\ r' = mu_bvec_get_count bv + 1 /\
    parse (take (Z.to_nat r' - 1) (drop 1 dst')) = Some v.
Proof.
  intros p S v cs ns m b pre l post enc encap dst dcap HS H0 Hd Hn Hdep Hns N HN Hb Hl He1 He2 He3 Hd1 Hd2 Hd3.
  assert (HNs : int_max < size_mod p) by (destruct p; reflexivity).
  destruct (proj1 describes_ok v cs Hd) as [Hcs _].
  destruct (C106_output_bound p S cs ns HS Hcs Hns) as (j & t & E & Hw & Hlen). fold N in Hlen.
  destruct (C50_document p S v cs HS Hd Hn Hdep) as (j0' & E0 & Hw0 & _). assert (j0' = j) by congruence. subst j0'.
  pose proof (written_inj _ _ _ _ Hw0 Hw) as Et. subst t.
  destruct (C99_document_in_buffer p S v cs m b pre l post HS H0 Hd Hn Hdep Hb) as (j1 & t & l' & oks & bv & E1 & Hw1 & Hj & Hdel & Hoks & Hc & Hcap & Hl' & Htk & _ & Hp);
    [unfold size_max; lia|]. assert (j1 = j) by congruence. subst j1. pose proof (written_inj _ _ _ _ Hw0 Hw1) as Et. subst t. set (t := text v) in *.
  specialize (Hp ltac:(lia)). rewrite Hc in *. rewrite Nat2Z.id in Hp.
  assert (Htl : take (length t) l' = t) by (rewrite <- Htk; apply firstn_all2; lia).
  pose proof (C106_frame_size p enc encap l' (Z.of_nat (length t)) He1 He2 ltac:(lia) ltac:(unfold size_max; lia)) as (_ & _ & (r & enc' & He & Hr) & _); [lia|].
  assert (Hen : encodes p t (take (Z.to_nat r) enc')).
  { rewrite encode_ok in He by lia. cbv zeta in He. rewrite Nat2Z.id, Htl in He.
    destruct (Z.leb_spec (Z.of_nat (length (frame t))) encap); [|injection He as He _; unfold MU_BISYNC_ERR_OFLOW in He; lia].
    assert (Hr' : Z.of_nat (length (frame t)) = r) by congruence. assert (He' : overwrite (frame t) enc = enc') by congruence. clear He. rename He' into He. assert (Hlr : length (take (Z.to_nat r) enc') = Z.to_nat r).
    { rewrite take_length, <- He. unfold overwrite. rewrite app_length, drop_length. lia. }
    exists enc, encap, enc'. split; [done|]. split; [done|]. split; [unfold size_max; lia|].
    split; [|by rewrite Hlr]. rewrite encode_ok by lia. cbv zeta. rewrite Nat2Z.id, firstn_all.
    destruct (Z.leb_spec (Z.of_nat (length (frame t))) encap); [|lia]. rewrite He, Hlr, Hr'. by rewrite Z2Nat.id by lia. }
  pose proof Hen as (e1 & c1 & e1' & _ & _ & _ & _ & Hlr).
  destruct (C18_roundtrip_partial p t _ dst dcap Hen Hd1 Hd2 ltac:(lia)) as (dst' & Hdec & Hout & _).
  assert (Hlr2 : length (take (Z.to_nat r) enc') = Z.to_nat r).
  { rewrite encode_ok in He by lia. cbv zeta in He. rewrite Nat2Z.id, Htl in He.
    destruct (Z.leb_spec (Z.of_nat (length (frame t))) encap); [|injection He as He _; unfold MU_BISYNC_ERR_OFLOW in He; lia].
    assert (Hr' : Z.of_nat (length (frame t)) = r) by congruence. assert (He' : overwrite (frame t) enc = enc') by congruence. clear He. rename He' into He. rewrite take_length, <- He. unfold overwrite. rewrite app_length, drop_length. lia. }
  exists j, oks, bv, l', r, enc', (Z.of_nat (length t) + 1), dst'. split; [done|]. split; [done|]. split.
  { rewrite Hoks. replace (length t - length l)%nat with 0%nat by lia. cbn [replicate]. rewrite app_nil_r. apply Forall_forall. intros x Hx. by apply elem_of_replicate in Hx as [-> _]. }
  split; [rewrite Hc; lia|]. rewrite Hc. split; [done|]. split; [lia|]. split.
  { assert (Hle : (Z.to_nat r <= length enc')%nat) by (rewrite take_length in Hlr2; lia).
    rewrite Hlr2 in Hdec. rewrite decode_ok in Hdec by (rewrite ?Hlr2; lia). rewrite decode_ok by lia. rewrite Nat2Z.id in Hdec.
    rewrite take_take, Nat.min_id in Hdec. exact Hdec. }
  split; [done|]. replace (Z.to_nat (Z.of_nat (length t) + 1) - 1)%nat with (length t) by lia.
  replace (take (length t) (drop 1 dst')) with t; [by rewrite <- Hp, Htl|].
  destruct dst' as [|x dst']; [done|]. cbn [take] in Hout. injection Hout as _ Hout. by cbn [drop].
Qed.
Print Assumptions C106_chain.

(** hypotheses met: the 54 characters of the example document, bounded by 88 *)
Example C106_example : setting_ok P64 ex_set /\ sent (j0 ex_set) = [] /\ describes ex_value ex_calls /\ narrow P64 ex_value /\
  Z.of_nat (depth ex_value) < maxl ex_set /\
  exists ns, Forall2 call_bound ex_calls ns /\ total ns = 88 /\ Z.of_nat (length (text ex_value)) = 54.
Proof.
  split; [apply ex_set_ok|]. split; [done|]. split; [apply ex_describes|]. split; [apply ex_narrow|]. split; [reflexivity|].
  assert (Ka : cstring (cstr "a") (str "a")) by (apply cstring_str; forall_bytes).
  assert (Kb : cstring (cstr "b") (str "b")) by (apply cstring_str; forall_bytes).
  assert (K1 : cstring [1; 0; 5] [1]) by (split; [forall_bytes|by exists [5] ]).
  eexists. split; [unfold ex_calls; repeat (apply Forall2_cons_2 || apply Forall2_nil_2); econstructor; try exact Ka; try exact Kb; try exact K1; econstructor; try exact Ka; try exact Kb; try exact K1|].
  split; [|reflexivity]. vm_compute. reflexivity.
Qed.
