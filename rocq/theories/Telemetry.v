(** * C99: JSON documents written with mu_jems into a byte buffer with mu_bvec_write_byte as the
    writer function, framed by mu_bisync_encode, sent through a mu_spsc to another thread,
    taken apart by mu_bisync_decode: the receiver reads back the documents. *)
From Verif Require Import CSem FifoSpec SpscModel SpscProofs SpscProps SpscTso.
From Verif Require Import BisyncModel BisyncSpec BisyncProofs BisyncProps Link.
From Verif Require Import BbufModel BbufSpec BbufProofs BvecModel BvecSpec BvecProps.
From Verif Require Import JsonSpec JsonParse JemsModel JemsSpec JemsProofs JemsDouble JemsProofs2 JemsProps JemsExact JemsProps2.
Open Scope Z_scope.

(** The writer function given to mu_jems_init (mu_jems.h:57, called at mu_jems.c:241-244) is one
    which passes each character to mu_bvec_write_byte (mu_bvec.c:110-118).  The results of
    the calls, the stream and the memory afterwards. *)
Fixpoint deliver (p : plat) (m : memory) (v : bvec) (calls : list (Z * Z * Z)) : res (list bool * bvec * memory) :=
  match calls with
  | [] => Ok ([], v, m)
  | (_, c, _) :: calls =>
    let* '(ok, v, m) := mu_bvec_write_byte p m v c in
    let* '(oks, v, m) := deliver p m v calls in Ok (ok :: oks, v, m)
  end.

Lemma deliver_vrun p w a : forall t m v os m' v', vrun p m v (VWrite <$> t) = Ok (os, m', v') ->
  exists oks, deliver p m v (map (fun c => (w, c, a)) t) = Ok (oks, v', m') /\ os = VBool <$> oks.
Proof.
  induction t as [|c t IH]; intros m v os m' v' H; cbn [fmap list_fmap vrun map deliver] in *.
  - injection H as <- <- <-. by exists [].
  - cbn [vstep] in H. destruct (mu_bvec_write_byte p m v c) as [[[ok v1] m1]| |]; cbn [bind] in *; try done.
    fold (VWrite <$> t) in H.
    destruct (vrun p m1 v1 (VWrite <$> t)) as [[[os1 m2] v2]| |] eqn:E; cbn [bind] in *; try done. injection H as <- <- <-.
    destruct (IH _ _ _ _ _ E) as (oks & -> & ->). cbn [bind]. by exists (ok :: oks).
Qed.
Lemma VBool_inj (a b : list bool) : VBool <$> a = VBool <$> b -> a = b.
Proof. revert b. induction a as [|x a IH]; intros [|y b] H; try done. injection H as -> H. f_equal. by apply IH. Qed.

(** ** A cut document is recognisable *)
Definition structured (v : json) : Prop := match v with JArr _ | JObj _ => True | _ => False end.

Lemma structured_text v t : jvalue v t -> structured v -> exists c r, t = c :: r /\ (c = ch "[" \/ c = ch "{").
Proof. destruct 1; intros Hs; try done; eexists _, _; (split; [reflexivity|]); [left|left|right|right]; done. Qed.
Lemma bracket_structured v t c r : jvalue v t -> t = c :: r -> c = ch "[" \/ c = ch "{" -> structured v.
Proof.
  intros Hv -> Hc. inversion Hv as [E|E|E|n t Hn E|s t Hs E| | | |]; subst; try done.
  - unfold str in *. cbn in *. chs. lia.
  - unfold str in *. cbn in *. chs. lia.
  - unfold str in *. cbn in *. chs. lia.
  - destruct (number_start n _ [] Hn) as (c' & r' & E & Hc'). injection E as <- _. chs. lia.
  - inversion Hs; subst. chs. lia.
Qed.
(** an array or object is read up to its closing bracket, whatever follows *)
Lemma p_structured v t : jvalue v t -> structured v -> forall f rest, (length t <= f)%nat -> p_value f (t ++ rest) = Some (v, rest).
Proof.
  destruct p_complete as (_ & He & Hm). destruct 1 as [| | | | |w Hw|l t Hl|w Hw|l t Hl]; intros Hs f rest Hf; try done.
  - destruct f as [|f]; [simpl in Hf; lia|]. cbn [app p_value]. rewrite Z.eqb_refl, <- app_assoc, skip_ws_app by done. done.
  - destruct f as [|f]; [simpl in Hf; lia|]. cbn [app p_value]. rewrite Z.eqb_refl, <- app_assoc. cbn [app].
    simpl in Hf. rewrite app_length in Hf. simpl in Hf.
    assert (exists x r, skip_ws (t ++ ch "]" :: rest) = x :: r /\ x <> ch "]") as (x & r & E & Hx).
    { destruct Hl as [v t w1 w2 Hv Hw1 Hw2|v t w1 w2 l ts Hv Hw1 Hw2 _];
        destruct (jvalue_start v t Hv) as (c & r & -> & Hc & Hne & _); eexists _, _; (split; [|exact Hne]);
        rewrite <- app_assoc, skip_ws_app by done; cbn [app]; rewrite skip_ws_cons by done; reflexivity. }
    rewrite E. replace (x =? ch "]") with false by (symmetry; apply Z.eqb_neq; done). rewrite (He l t Hl) by lia. done.
  - destruct f as [|f]; [simpl in Hf; lia|]. cbn [app p_value].
    change (ch "{" =? ch "[") with false. cbn iota. rewrite Z.eqb_refl, <- app_assoc, skip_ws_app by done. done.
  - destruct f as [|f]; [simpl in Hf; lia|]. cbn [app p_value].
    change (ch "{" =? ch "[") with false. cbn iota. rewrite Z.eqb_refl, <- app_assoc. cbn [app].
    simpl in Hf. rewrite app_length in Hf. simpl in Hf.
    assert (exists r, skip_ws (t ++ ch "}" :: rest) = 34 :: r) as (r & E).
    { destruct Hl as [k tk v t w1 w2 w3 w4 Hk Hv Hw1 Hw2 Hw3 Hw4|k tk v t w1 w2 w3 w4 l ts Hk Hv Hw1 Hw2 Hw3 Hw4 _];
        destruct Hk; eexists; rewrite <- !app_assoc, skip_ws_app by done; reflexivity. }
    rewrite E. change (34 =? ch "}") with false. cbn iota. rewrite (Hm l t Hl) by lia. done.
Qed.
(** no proper beginning of the text of an array or object is a JSON text *)
Lemma cut_not_json v t t1 t2 v' : jvalue v t -> structured v -> t = t1 ++ t2 -> t2 <> [] -> ~ json_text v' t1.
Proof.
  intros Hv Hs -> Hne (w1 & tv & w2 & Hw1 & Hv' & Hw2 & ->).
  destruct (structured_text _ _ Hv Hs) as (c & r & E & Hc).
  destruct w1 as [|x w1].
  2:{ cbn [app] in E. injection E as -> _. inversion Hw1; subst. chs. lia. }
  cbn [app] in *. destruct (jvalue_start _ _ Hv') as (c' & r' & E' & _). assert (c' = c) as ->.
  { rewrite E' in E. cbn [app] in E. by injection E. }
  pose proof (bracket_structured _ _ _ _ Hv' E' Hc) as Hs'. set (f := length ((tv ++ w2) ++ t2)).
  pose proof (p_structured _ _ Hv Hs f [] ltac:(done)) as H1. rewrite app_nil_r in H1.
  pose proof (p_structured _ _ Hv' Hs' f (w2 ++ t2)) as H2. rewrite app_assoc, H1 in H2.
  specialize (H2 ltac:(subst f; rewrite !app_length; lia)). injection H2 as _ H2. symmetry in H2. apply app_eq_nil in H2 as [_ ->]. done.
Qed.
Lemma cut_none v t1 t2 : wf_json v -> structured v -> text v = t1 ++ t2 -> t2 <> [] -> parse t1 = None.
Proof.
  intros Hwf Hs E Hne. destruct (parse t1) as [v'|] eqn:Ep; [|done]. apply parse_spec in Ep.
  exfalso. by eapply (cut_not_json v (text v) t1 t2 v'); [apply text_jvalue| | | |].
Qed.

Lemma written_inj S t t' j : written S t j -> written S t' j -> t = t'.
Proof.
  unfold written. intros Hw Hw'. rewrite Hw in Hw'. apply app_inv_head in Hw'.
  clear -Hw'. revert t' Hw'. induction t as [|a t IH]; intros [|b t'] H; try done. cbn [map] in H. injection H as -> H. f_equal. by apply IH.
Qed.
(** A document into a buffer: [cap] is its size.  The buffer gets the first [cap] characters of a
    JSON text of the document (the rest of it, and all memory around it, is unchanged); the
    writer returned true for these only; the count is the length of the text, so that it fits
    if and only if count <= capacity, and then the first [count] bytes parse to the document. *)
Theorem C99_document_in_buffer : forall p S v cs m b pre l post,
  setting_ok p S -> sent (j0 S) = [] -> describes v cs -> narrow p v -> Z.of_nat (depth v) < maxl S ->
  bytes_at p m b pre l post -> Z.of_nat (length (text v)) <= size_max p ->
  let cap := length l in
  exists j t l' oks bv, session p S cs = Ok j /\ written S t j /\ json_text v t /\
    deliver p m (mu_bvec_init (MkBvec b 0) b) (sent j) = Ok (oks, bv, with_contents m b pre l' post) /\
    oks = replicate (Nat.min (length t) cap) true ++ replicate (length t - cap) false /\
    mu_bvec_get_count bv = Z.of_nat (length t) /\ mu_bvec_get_capacity bv = Z.of_nat cap /\
    length l' = cap /\ take cap t = take (length t) l' /\ drop (length t) l' = drop (length t) l /\
    (mu_bvec_get_count bv <= mu_bvec_get_capacity bv ->
       parse (take (Z.to_nat (mu_bvec_get_count bv)) l') = Some v).
Proof.
  intros p S v cs m b pre l post HS H0 Hd Hn Hdep Hb Ht cap.
  destruct (C50_document p S v cs HS Hd Hn Hdep) as (j & E & Hw & _). unfold written in Hw. rewrite H0 in Hw. cbn [app] in Hw.
  destruct (proj1 (describes_ok) v cs Hd) as [_ Hwf]. pose proof (text_json v Hwf) as Hj. pose proof (parse_complete v _ Hj) as Hp.
  set (t := text v) in *.
  assert (HW : size_max p = size_mod p - 1) by done.
  pose proof (stream_writes (size_mod p) t [] l 0 eq_refl ltac:(lia)) as Hst. cbn [app] in Hst.
  assert (Hz : 0 <= 0 <= size_max p) by (pose proof (size_mod_pos p); lia).
  assert (Hok : Forall (vop_ok (size_mod p)) (VWrite <$> t)) by (apply Forall_fmap, Forall_true; done).
  pose proof (C36_bvec_history p m b pre l post 0 _ _ _ _ Hb Hz Hok Hst) as Hv.
  destruct (deliver_vrun p (wr S) (ar S) t _ _ _ _ _ Hv) as (oks & Hdel & Ho). apply VBool_inj in Ho.
  destruct Hb as (Hb1 & Hb2 & Hb3 & Hb4).
  exists j, t, (take (length l) t ++ drop (length t) l), oks, (MkBvec b (0 + Z.of_nat (length t))).
  split; [done|]. split; [unfold written; by rewrite H0|]. split; [done|]. split.
  { rewrite Hw. destruct b. exact Hdel. }
  split; [by symmetry|]. unfold mu_bvec_get_count, mu_bvec_get_capacity, mu_bbuf_capacity. cbn [vcount vbuf]. rewrite Z.add_0_l.
  split; [done|]. split; [by rewrite Hb3|]. split; [rewrite app_length, take_length, drop_length; lia|].
  assert (Htk : take cap t = take (length t) (take (length l) t ++ drop (length t) l)).
  { fold cap. destruct (decide (length t <= cap)%nat) as [Hle|Hgt].
    - rewrite (firstn_all2 (n := cap) t) by lia. by rewrite take_app.
    - rewrite (drop_ge l) by (unfold cap in *; lia). rewrite app_nil_r, take_take, Nat.min_r by lia. done. }
  split; [done|]. split.
  { destruct (decide (length t <= length l)%nat) as [Hle|Hgt].
    - rewrite (firstn_all2 t) by lia. by rewrite drop_app.
    - rewrite !drop_ge; [done|lia|]. rewrite app_length, take_length, drop_length. lia. }
  intros Hle. rewrite Nat2Z.id, <- Htk. rewrite firstn_all2 by (unfold cap; lia). done.
Qed.
Print Assumptions C99_document_in_buffer.

(** When an array or object does not fit, the buffer does not hold a JSON text: the reader of the
    buffer cannot mistake the beginning of the document for a document. *)
Theorem C99_overflow_visible : forall p S v cs m b pre l post,
  setting_ok p S -> sent (j0 S) = [] -> describes v cs -> narrow p v -> Z.of_nat (depth v) < maxl S -> structured v ->
  bytes_at p m b pre l post -> Z.of_nat (length (text v)) <= size_max p ->
  exists j l' oks bv, session p S cs = Ok j /\
    deliver p m (mu_bvec_init (MkBvec b 0) b) (sent j) = Ok (oks, bv, with_contents m b pre l' post) /\
    (mu_bvec_get_capacity bv < mu_bvec_get_count bv -> forall n, parse (take n l') = None).
Proof.
  intros p S v cs m b pre l post HS H0 Hd Hn Hdep Hs Hb Ht.
  destruct (C99_document_in_buffer p S v cs m b pre l post HS H0 Hd Hn Hdep Hb Ht) as (j & t & l' & oks & bv & E & Hw & Hj & Hdel & _ & Hc & Hcap & Hl & Htk & _).
  exists j, l', oks, bv. split; [done|]. split; [done|]. rewrite Hc, Hcap. intros Hlt n.
  destruct (proj1 (describes_ok) v cs Hd) as [_ Hwf].
  destruct (C50_document p S v cs HS Hd Hn Hdep) as (j' & E' & Hw' & _). assert (j' = j) by congruence. subst j'.
  pose proof (written_inj _ _ _ _ Hw' Hw) as Et. subst t.
  assert (El : l' = take (length l) (text v)). { rewrite Htk. symmetry. apply firstn_all2. lia. }
  rewrite El, take_take. eapply (cut_none v _ (drop (Nat.min n (length l)) (text v))); [done|done|by rewrite take_drop|].
  intros Hnil. apply (f_equal length) in Hnil. rewrite drop_length in Hnil. simpl in Hnil. lia.
Qed.
Print Assumptions C99_overflow_visible.

(** A sequence of documents over the link.  [docs]: for each, the emitter's setting, the document
    and the API calls which describe it. *)
Record document := MkDoc { d_set : setting; d_value : json; d_calls : list call }.
Definition document_ok (p : plat) (d : document) : Prop :=
  setting_ok p (d_set d) /\ describes (d_value d) (d_calls d) /\ narrow p (d_value d) /\ Z.of_nat (depth (d_value d)) < maxl (d_set d).
(** the characters passed to the writer function *)
Definition emitted (p : plat) (d : document) (t : list Z) : Prop :=
  exists j, session p (d_set d) (d_calls d) = Ok j /\ written (d_set d) t j.

(** What the receiver can read from the bytes [got]: of the documents [docs], the first [k], and
    only a proper part of the frame of the next. *)
Definition reads_documents (p : plat) (docs : list document) (outs : list (list Z)) (got : list Z) : Prop :=
  exists k part, (k <= length docs)%nat /\ got = concat (take k outs) ++ part /\
    (k = length docs -> part = []) /\
    (forall o, outs !! k = Some o -> exists b o', o = part ++ b :: o') /\
    forall i d dst cap, (i < k)%nat -> docs !! i = Some d ->
      let e := drop (length (concat (take i outs))) got in
      0 <= cap <= int_max -> cap <= Z.of_nat (length dst) -> Z.of_nat (length e) <= int_max ->
      exists t, emitted p d t /\
        (Z.of_nat (length t) + 1 <= cap ->
         exists n dst', mu_bisync_decode p dst cap e (Z.of_nat (length e)) = Ok (n, dst') /\
           n = Z.of_nat (length t) + 1 /\ parse (take (Z.to_nat n - 1) (drop 1 dst')) = Some (d_value d)).

Lemma emitted_parse p d : document_ok p d -> exists t, emitted p d t /\ parse t = Some (d_value d).
Proof.
  intros (HS & Hd & Hn & Hdep). destruct (C60_parses_back p _ _ _ HS Hd Hn Hdep) as (j & t & E & Hw & _ & _ & Hp).
  exists t. split; [by exists j|done].
Qed.
Lemma emitted_fun p d t t' : emitted p d t -> emitted p d t' -> t = t'.
Proof.
  intros (j & E & Hw) (j' & E' & Hw'). assert (j' = j) by congruence. subst j'. by eapply written_inj.
Qed.
Lemma reads p docs ts outs got : Forall (document_ok p) docs -> Forall2 (emitted p) docs ts ->
  received p ts outs got -> reads_documents p docs outs got.
Proof.
  intros Hok Hem [(k & part & H1 & H2 & H3 & H4 & H5) _]. pose proof (Forall2_length _ _ _ Hem) as Hl. exists k, part.
  split; [lia|]. split; [done|]. split; [by rewrite Hl|]. split; [done|].
  intros i d dst cap Hi Hd e Hc1 Hc2 He. destruct (Forall2_lookup_l _ _ _ _ _ Hem Hd) as (t & Ht & Het).
  exists t. split; [done|]. intros Hc3. destruct (H5 i t dst cap Hi Ht Hc1 Hc2 Hc3 He) as (dst' & E & Htk).
  exists (Z.of_nat (length t) + 1), dst'. split; [done|]. split; [done|].
  replace (Z.to_nat (Z.of_nat (length t) + 1) - 1)%nat with (length t) by lia. rewrite Htk.
  destruct (emitted_parse p d) as (t' & Het' & Hp); [by eapply Forall_lookup_1|]. by rewrite (emitted_fun p d t t' Het Het').
Qed.

Theorem C99_documents_over_link : forall p q store size q0 schedule docs ts outs unsent,
  0 <= size <= 65535 -> Z.of_nat (length store) = size -> mu_spsc_init q store size = (SPSC_NONE, q0) ->
  Forall (document_ok p) docs -> Forall2 (emitted p) docs ts -> Forall2 (encodes p) ts outs ->
  exists s evs, crun (MkC q0 PIdle CIdle) schedule = Ok (s, evs) /\
    (put_items evs ++ unsent = concat outs -> reads_documents p docs outs (got_items evs)).
Proof.
  intros p q store size q0 sch docs ts outs unsent Hs Hl Hi Hd Hem He.
  destruct (C74_link p q store size q0 sch ts outs unsent Hs Hl Hi He) as (s & evs & E & H).
  exists s, evs. split; [done|]. intros Hp. eapply reads; eauto.
Qed.
Print Assumptions C99_documents_over_link.
Theorem C99_documents_over_link_tso : forall p q store size q0 schedule docs ts outs unsent,
  0 <= size <= 65535 -> Z.of_nat (length store) = size -> mu_spsc_init q store size = (SPSC_NONE, q0) ->
  Forall tso schedule -> Forall (document_ok p) docs -> Forall2 (emitted p) docs ts -> Forall2 (encodes p) ts outs ->
  exists s evs, trun (MkT q0 [] [] PIdle CIdle) schedule = Ok (s, evs) /\
    (put_items evs ++ unsent = concat outs -> reads_documents p docs outs (got_items evs)).
Proof.
  intros p q store size q0 sch docs ts outs unsent Hs Hl Hi Ht Hd Hem He.
  destruct (C74_link_tso p q store size q0 sch ts outs unsent Hs Hl Hi Ht He) as (s & evs & E & H).
  exists s, evs. split; [done|]. intros Hp. eapply reads; eauto.
Qed.
Print Assumptions C99_documents_over_link_tso.

(** ** Emission cut at any point *)
(** The program stops (a crash, a power failure) after any number of the characters of an array or
    object, but before the last: what was written is not a JSON text. *)
Theorem C100_interrupted_document : forall p S v cs, setting_ok p S -> describes v cs -> narrow p v ->
  Z.of_nat (depth v) < maxl S -> structured v ->
  exists j t, session p S cs = Ok j /\ written S t j /\ json_text v t /\
    forall n, (n < length t)%nat -> forall v', ~ json_text v' (take n t).
Proof.
  intros p S v cs HS Hd Hn Hdep Hs. destruct (C50_document p S v cs HS Hd Hn Hdep) as (j & E & Hw & _).
  destruct (proj1 (describes_ok) v cs Hd) as [_ Hwf]. exists j, (text v). split; [done|]. split; [done|]. split; [by apply text_json|].
  intros n Hlt v'. eapply (cut_not_json v (text v) _ (drop n (text v))); [by apply text_jvalue|done|by rewrite take_drop|].
  intros Hnil. apply (f_equal length) in Hnil. rewrite drop_length in Hnil. simpl in Hnil. lia.
Qed.
Print Assumptions C100_interrupted_document.
(** The same at every point between the API calls. *)
Lemma describes_structured v cs : describes v cs -> structured v -> exists cs' c, cs = cs' ++ [c] /\ (c = CArrayClose \/ c = CObjectClose).
Proof.
  destruct 1 as [| | | | | | | |l cs H|l cs H]; intros Hs; try done.
  - exists (CVal CArrayOpen :: cs), CArrayClose. split; [done|by left].
  - exists (CVal CObjectOpen :: cs), CObjectClose. split; [done|by right].
Qed.
Theorem C100_interrupted_calls : forall p S v cs cs1 cs2, setting_ok p S -> describes v cs -> narrow p v ->
  Z.of_nat (depth v) < maxl S -> structured v -> cs = cs1 ++ cs2 -> cs2 <> [] ->
  exists j1 t1 j t, session p S cs1 = Ok j1 /\ written S t1 j1 /\ session p S cs = Ok j /\ written S t j /\ json_text v t /\
    (exists b more, t = t1 ++ b :: more) /\ forall v', ~ json_text v' t1.
Proof.
  intros p S v cs cs1 cs2 HS Hd Hn Hdep Hs -> Hne.
  destruct (C50_document p S v (cs1 ++ cs2) HS Hd Hn Hdep) as (j & E & Hw & _).
  destruct (proj1 (describes_ok) v _ Hd) as [Hcs Hwf]. pose proof (proj1 (Forall_app _ _ _) Hcs) as [Hcs1 Hcs2].
  destruct (session_rep p S HS cs1 Hcs1) as (j1 & E1 & H1).
  destruct (session_rep p S HS _ Hcs) as (j' & E' & H'). assert (j' = j) by congruence. subst j'.
  destruct (describes_structured _ _ Hd Hs) as (cs' & c & Ec & Hc).
  assert (exists cs2', cs2 = cs2' ++ [c]) as (cs2' & ->).
  { destruct (exists_last Hne) as (x & y & ->). rewrite app_assoc in Ec. apply app_inj_tail in Ec as [_ ->]. by exists x. }
  apply written_rep in H', H1. set (t1 := snd (arun p (maxl S) ([(false, 0)], []) cs1)) in *.
  pose proof (written_inj _ _ _ _ Hw H') as Et.
  rewrite (arun_app p (maxl S) _ cs1) in Et. rewrite (surjective_pairing (arun p (maxl S) _ cs1)) in Et. fold t1 in Et.
  rewrite arun_txt in Et. cbn [snd] in Et.
  rewrite (arun_app p (maxl S) _ cs2') in Et.
  set (u := arun p (maxl S) _ cs2') in Et.
  assert (exists b, snd (arun p (maxl S) u [c]) = snd u ++ [b]) as (b & Eb) by (destruct Hc as [-> | ->]; by eexists).
  rewrite Eb in Et. assert (exists x more, snd u ++ [b] = x :: more) as (x & more & Ex) by (destruct (snd u); eexists _, _; done).
  rewrite Ex in Et. exists j1, t1, j, (text v). do 4 (split; [done|]). split; [by apply text_json|]. split; [by exists x, more|].
  intros v'. by eapply (cut_not_json v (text v) t1 (x :: more)); [apply text_jvalue| | |].
Qed.
Print Assumptions C100_interrupted_calls.
(** For numbers this does not hold: the beginning of 12 is 1. *)
Theorem C100_number_refuted : forall p S, setting_ok p S -> 1 < maxl S ->
  exists j, session p S [CVal (CInteger 12)] = Ok j /\ written S (str "12") j /\
    parse (str "12") = Some (JNum (int_num 12)) /\ parse (take 1 (str "12")) = Some (JNum (int_num 1)).
Proof.
  intros p S HS HM. destruct (C50_document p S (JNum (int_num 12)) [CVal (CInteger 12)] HS) as (j & E & Hw & _).
  - constructor. unfold int64. lia.
  - constructor.
  - simpl. lia.
  - exists j. split; [done|]. split; [exact Hw|]. vm_compute. done.
Qed.
Print Assumptions C100_number_refuted.

(** ** Concrete cases *)
Definition ex99_buf : bbuf := MkBbuf (Ptr 0 1) 60.
Definition ex99_mem : memory := [[9] ++ replicate 60 0 ++ [9]].
Example C99_example : setting_ok P64 ex_set /\ sent (j0 ex_set) = [] /\ describes ex_value ex_calls /\ narrow P64 ex_value /\
  Z.of_nat (depth ex_value) < maxl ex_set /\ structured ex_value /\ bytes_at P64 ex99_mem ex99_buf [9] (replicate 60 0) [9] /\
  Z.of_nat (length (text ex_value)) = 54.
Proof.
  split; [apply ex_set_ok|]. split; [done|]. split; [apply ex_describes|]. split; [apply ex_narrow|]. split; [reflexivity|]. split; [done|].
  split; [|reflexivity]. repeat split; vm_compute; discriminate.
Qed.
(** a buffer of ten bytes is too small *)
Example C99_example_small : bytes_at P64 [[9] ++ replicate 10 0 ++ [9]] (MkBbuf (Ptr 0 1) 10) [9] (replicate 10 0) [9] /\
  exists j oks, session P64 ex_set ex_calls = Ok j /\
    deliver P64 [[9] ++ replicate 10 0 ++ [9]] (MkBvec (MkBbuf (Ptr 0 1) 10) 0) (sent j) =
      Ok (oks, MkBvec (MkBbuf (Ptr 0 1) 10) 54, [[9] ++ str "{""a"":[-12," ++ [9]]) /\ length (filter (fun b => b = true) oks) = 10%nat.
Proof.
  split; [repeat split; vm_compute; discriminate|]. eexists _, _. split; [vm_compute; reflexivity|]. split; [vm_compute; reflexivity|]. reflexivity.
Qed.
(** two documents framed; the receiver has the first and a part of the second *)
Definition ex99_docs : list document :=
  [MkDoc ex_set (JArr [JNull]) [CVal CArrayOpen; CVal CNull; CArrayClose]; MkDoc ex_set ex_value ex_calls].
Example C99_example_docs : Forall (document_ok P64) ex99_docs /\
  exists ts, Forall2 (emitted P64) ex99_docs ts /\ Forall2 (encodes P64) ts (map frame ts) /\ ts = [str "[null]"; text ex_value].
Proof.
  split.
  - apply Forall_cons_2; [|apply Forall_cons_2; [|apply Forall_nil_2]].
    + split; [apply ex_set_ok|]. split; [apply (d_array [JNull] [CVal CNull]); apply (dl_cons _ [CVal CNull] _ []); constructor|].
      split; [|reflexivity]. pose proof (size_mod_big P64). repeat (constructor; try (simpl length; lia)).
    + split; [apply ex_set_ok|]. split; [apply ex_describes|]. split; [apply ex_narrow|reflexivity].
  - exists [str "[null]"; text ex_value]. split; [|split; [|done]].
    + apply Forall2_cons_2; [|apply Forall2_cons_2; [|constructor]].
      * eexists. split; [vm_compute; reflexivity|vm_compute; reflexivity].
      * eexists. split; [vm_compute; reflexivity|vm_compute; reflexivity].
    + apply Forall2_cons_2; [|apply Forall2_cons_2; [|constructor]].
      * exists (replicate 8 0), 8, (frame (str "[null]")). vm_compute. repeat split; discriminate.
      * exists (replicate 60 0), 60, (frame (text ex_value) ++ replicate 4 0). vm_compute. repeat split; discriminate.
Qed.
