(** * C102: bisync encoding and decoding with overlapping buffers. *)
From Verif Require Import CSem BisyncModel BisyncSpec BisyncProofs BisyncProps BisyncAliasModel.

(** the object after the bytes from index [d] on have become [l] *)
Definition tail_set (m : list Z) (d : Z) (l : list Z) : list Z := take (Z.to_nat d) m ++ l.

(** writer in the one object against writer in a separate object *)
Definition wsim (m : list Z) (d : Z) (wa w : buffer) : Prop :=
  wbuf wa = tail_set m d (wbuf w) /\ bcap wa = bcap w /\ bidx wa = bidx w /\ 0 <= bidx w /\
  length (wbuf w) = length (drop (Z.to_nat d) m).

Lemma st_tail m d l i v : 0 <= d <= Z.of_nat (length m) -> 0 <= i ->
  st (tail_set m d l) (d + i) v = let* l := st l i v in Ok (tail_set m d l).
Proof.
  intros Hd Hi. unfold st, tail_set. rewrite app_length, take_length.
  replace (d + i <? Z.of_nat (Z.to_nat d `min` length m + length l)) with (i <? Z.of_nat (length l)) by (zb; lia).
  replace (0 <=? d + i) with true by (symmetry; apply Z.leb_le; lia). replace (0 <=? i) with true by (symmetry; apply Z.leb_le; lia).
  cbn [andb]. destruct (_ <? _); cbn [bind]; [|done]. f_equal.
  rewrite insert_app_r_alt by (rewrite take_length; lia). f_equal. f_equal. rewrite take_length. lia.
Qed.

(** one [aput] against one [buffer_put] *)
Lemma aput_sim m d wa w b : 0 <= d <= Z.of_nat (length m) -> wsim m d wa w ->
  (buffer_put w b = UB /\ aput d wa b = UB) \/
  (exists ok w' wa', buffer_put w b = Ok (ok, w') /\ aput d wa b = Ok (ok, wa') /\ wsim m d wa' w' /\
    bidx w' = (if ok then bidx w + 1 else bidx w) /\
    (forall k, (k <> Z.to_nat (d + bidx w))%nat -> wbuf wa' !! k = wbuf wa !! k) /\
    (ok = true -> wbuf wa' !! Z.to_nat (d + bidx w) = Some b)).
Proof.
  intros Hd (H1 & H2 & H3 & H4 & H5). unfold buffer_put, aput. rewrite H2, H3.
  destruct (Z.leb_spec (bcap w) (bidx w)).
  { right. exists false, w, wa. split_and!; try done. }
  rewrite H1, st_tail by done.
  destruct (st (wbuf w) (bidx w) b) as [l| |] eqn:E; cbn [bind]; [|by left|].
  2:{ exfalso. unfold st in E. destruct (_ && _); done. }
  unfold iadd, ichk, chk. destruct (in_range _ _ _); cbn [bind]; [|by left]. right.
  unfold st in E. destruct ((0 <=? bidx w) && (bidx w <? Z.of_nat (length (wbuf w)))) eqn:Er; [|done].
  injection E as <-.
  eexists _, _, _. split; [done|]. split; [done|]. split.
  { split_and!; simpl; try done; [lia|by rewrite insert_length]. }
  split; [done|]. apply andb_prop in Er as [_ Er]. apply Z.ltb_lt in Er. split.
  - intros k Hk. simpl. unfold tail_set.
    replace (take (Z.to_nat d) m ++ <[Z.to_nat (bidx w):=b]> (wbuf w)) with (<[Z.to_nat (d + bidx w) := b]> (take (Z.to_nat d) m ++ wbuf w)).
    2:{ rewrite insert_app_r_alt by (rewrite take_length; lia). do 2 f_equal. rewrite take_length. lia. }
    by rewrite list_lookup_insert_ne.
  - intros _. simpl. unfold tail_set. rewrite lookup_app_r by (rewrite take_length; lia).
    rewrite take_length. replace (Z.to_nat (d + bidx w) - Z.to_nat d `min` length m)%nat with (Z.to_nat (bidx w)) by lia.
    apply list_lookup_insert. lia.
Qed.

(** the bytes of the object between indexes [k] and [k'] are still the original ones *)
Definition unread (m : list Z) (k k' : Z) (wa : buffer) : Prop := forall j : nat, k <= Z.of_nat j < k' -> wbuf wa !! j = m !! j.

Lemma ld_unread (m : list Z) e i n wa : 0 <= e -> 0 <= i < n -> unread m (e + i) (e + n) wa ->
  ld (wbuf wa) (e + i) = ld (drop (Z.to_nat e) m) i.
Proof.
  intros He Hi Hu. unfold ld. destruct (Z.ltb_spec (e + i) 0); [lia|]. destruct (Z.ltb_spec i 0); [lia|].
  rewrite lookup_drop, Hu by lia. replace (Z.to_nat e + Z.to_nat i)%nat with (Z.to_nat (e + i)) by lia. done.
Qed.
Lemma iadd_cases i : 0 <= i <= int_max -> (iadd i 1 = Ok (i + 1) /\ i + 1 <= int_max) \/ iadd i 1 = UB.
Proof.
  intros H. destruct (decide (i + 1 <= int_max)).
  - left. split; [|done]. unfold iadd. apply ichk_ok. unfold int_min. lia.
  - right. unfold iadd. apply ichk_ub. unfold int_min. lia.
Qed.

(** ** decode *)
Definition rsim (m : list Z) (d : Z) (ra r : res (bool * option Z * buffer)) : Prop :=
  match ra, r with
  | UB, UB | NoFuel, NoFuel => True
  | Ok (ok1, b1, wa), Ok (ok2, b2, w) => ok1 = ok2 /\ b1 = b2 /\ wsim m d wa w
  | _, _ => False
  end.
Lemma decode_loop_sim p m d e n : 0 <= d <= Z.of_nat (length m) -> 0 <= e -> (d <= e \/ e + n <= d) ->
  forall fuel i b esc wa w, wsim m d wa w -> 0 <= i <= int_max -> bidx w <= i -> unread m (e + i) (e + n) wa ->
  rsim m d (adecode_loop p fuel d e n i b esc wa) (decode_loop p fuel (drop (Z.to_nat e) m) n i b esc w).
Proof.
  intros Hd He Hpos. pose proof (size_mod_big p) as Hbig.
  induction fuel as [|fuel IH]; intros i b esc wa w Hw Hi Hb Hu; cbn [adecode_loop decode_loop];
    rewrite to_size_id by (unfold int_max in *; lia); (destruct (Z.ltb_spec i n); [|by simpl]); [done|].
  rewrite (ld_unread m e i n wa) by (done || lia).
  destruct (ld (drop (Z.to_nat e) m) i) as [c| |] eqn:El; cbn [bind]; [|done|done].
  assert (Hput : forall esc', rsim m d
    (let* '(ok, w0) := aput d wa c in if negb ok then Ok (false, Some c, w0) else let* i0 := iadd i 1 in adecode_loop p fuel d e n i0 (Some c) esc' w0)
    (let* '(ok, w0) := buffer_put w c in if negb ok then Ok (false, Some c, w0) else let* i0 := iadd i 1 in decode_loop p fuel (drop (Z.to_nat e) m) n i0 (Some c) esc' w0)).
  { intros esc'. destruct (aput_sim m d wa w c Hd Hw) as [[-> ->]|(ok & w' & wa' & -> & -> & Hw' & Hi' & Hk & _)]; cbn [bind]; [done|].
    destruct ok; cbn [negb]; [|done].
    destruct (iadd_cases i) as [[-> ?]| ->]; [lia| |done]. cbn [bind].
    destruct Hw as (_ & _ & _ & ? & _).
    apply IH; [done|lia|lia|]. intros j Hj. rewrite Hk by lia. apply Hu. lia. }
  destruct esc; [apply Hput|].
  destruct (c =? BISYNC_DLE).
  { destruct (iadd_cases i) as [[-> ?]| ->]; [lia| |done]. cbn [bind]. apply IH; [done|lia|lia|]. intros j Hj. apply Hu. lia. }
  destruct (c =? BISYNC_EOT); [done|]. apply Hput.
Qed.

Lemma wsim0 m d cap : 0 <= d <= Z.of_nat (length m) -> wsim m d (MkBuf m cap 0) (MkBuf (drop (Z.to_nat d) m) cap 0).
Proof. intros H. split_and!; simpl; try done. unfold tail_set. by rewrite take_drop. Qed.

(** Decoding a frame that lies at or after the destination in the same object (in
    particular in place, d = e), or wholly before it, does what decoding into a separate
    buffer with the same contents does: same result, same bytes in the destination,
    nothing before it touched, and undefined in the same cases. *)
Theorem C102_decode_overlap : forall p m d cap e n,
  0 <= d <= Z.of_nat (length m) -> 0 <= e -> d <= e \/ e + n <= d ->
  adecode p m d cap e n =
  (let* '(r, dst) := mu_bisync_decode p (drop (Z.to_nat d) m) cap (drop (Z.to_nat e) m) n in
   Ok (r, take (Z.to_nat d) m ++ dst)).
Proof.
  intros p m d cap e n Hd He Hpos. unfold adecode, mu_bisync_decode.
  destruct (Z.ltb_spec n 1); cbn [bind]; [by rewrite take_drop|].
  change (ld m (e + 0)) with (ld (wbuf (MkBuf m 0 0)) (e + 0)). rewrite (ld_unread m e 0 n (MkBuf m 0 0)) by (done || lia).
  destruct (ld (drop (Z.to_nat e) m) 0) as [c| |]; cbn [bind]; [|done|done].
  destruct (negb (c =? BISYNC_SOH)); [cbn [bind]; by rewrite take_drop|].
  pose proof (decode_loop_sim p m d e n Hd He Hpos (Z.to_nat n) 0 None false _ _ (wsim0 m d (to_int cap) Hd)
    ltac:(unfold int_max; lia) ltac:(simpl; lia) ltac:(done)) as HL. revert HL.
  destruct (adecode_loop _ _ _ _ _ _ _ _ _) as [[[ok1 b1] wa]| |]; destruct (decode_loop _ _ _ _ _ _ _ _) as [[[ok2 b2] w]| |]; simpl; try done.
  intros (-> & -> & H1 & _ & H3 & _). unfold tail_set in H1. rewrite H1. destruct ok2; simpl; [|done].
  destruct b2; [|done]. destruct (negb _); [done|]. by rewrite H3.
Qed.
Print Assumptions C102_decode_overlap.

(** ** encode *)
(** how many bytes of [l] need an escape *)
Definition specials (l : list Z) : Z := Z.of_nat (length (filter (fun b => special b = true) l)).
Lemma specials_cons b l : specials (b :: l) = (if special b then 1 else 0) + specials l.
Proof.
  unfold specials. destruct (special b) eqn:E.
  - rewrite filter_cons_True by done. simpl. lia.
  - rewrite filter_cons_False by (by rewrite E). lia.
Qed.

Definition esim (m : list Z) (d : Z) (ra r : res (bool * buffer)) : Prop :=
  match ra, r with
  | UB, UB | NoFuel, NoFuel => True
  | Ok (ok1, wa), Ok (ok2, w) => ok1 = ok2 /\ wsim m d wa w
  | _, _ => False
  end.
Lemma encode_loop_sim p m d e n : 0 <= d <= Z.of_nat (length m) -> 0 <= e ->
  forall fuel i wa w, wsim m d wa w -> 0 <= i <= int_max ->
  (d + bidx w + specials (take (Z.to_nat (n - i)) (drop (Z.to_nat (e + i)) m)) <= e + i \/ e + n <= d) ->
  unread m (e + i) (e + n) wa ->
  esim m d (aencode_loop p fuel d e n i wa) (encode_loop p fuel (drop (Z.to_nat e) m) n i w).
Proof.
  intros Hd He. pose proof (size_mod_big p) as Hbig.
  induction fuel as [|fuel IH]; intros i wa w Hw Hi Hroom Hu; cbn [aencode_loop encode_loop];
    rewrite to_size_id by (unfold int_max in *; lia); (destruct (Z.ltb_spec i n); [|by simpl]); [done|].
  rewrite (ld_unread m e i n wa) by (done || lia).
  destruct (ld (drop (Z.to_nat e) m) i) as [b| |] eqn:El; cbn [bind]; [|done|done].
  assert (Hlook : m !! Z.to_nat (e + i) = Some b).
  { unfold ld in El. destruct (i <? 0); [done|]. rewrite lookup_drop in El.
    replace (Z.to_nat e + Z.to_nat i)%nat with (Z.to_nat (e + i)) in El by lia. destruct (m !! _); congruence. }
  rewrite (drop_S _ _ _ Hlook) in Hroom.
  replace (Z.to_nat (n - i)) with (Datatypes.S (Z.to_nat (n - (i + 1)))) in Hroom by lia. cbn [take] in Hroom.
  rewrite specials_cons in Hroom.
  replace (Datatypes.S (Z.to_nat (e + i))) with (Z.to_nat (e + (i + 1))) in Hroom by lia.
  set (sp := specials (take (Z.to_nat (n - (i + 1))) (drop (Z.to_nat (e + (i + 1))) m))) in *.
  assert (Hsp : 0 <= sp) by (unfold sp, specials; lia).
  rewrite special_eq. pose proof Hw as (_ & _ & _ & Hb0 & _).
  assert (Hput : forall wa1 w1, wsim m d wa1 w1 -> (d + bidx w1 + sp <= e + i \/ e + n <= d) -> unread m (e + (i + 1)) (e + n) wa1 ->
    esim m d
    (let* '(ok, w0) := aput d wa1 b in if negb ok then Ok (false, w0) else let* i0 := iadd i 1 in aencode_loop p fuel d e n i0 w0)
    (let* '(ok, w0) := buffer_put w1 b in if negb ok then Ok (false, w0) else let* i0 := iadd i 1 in encode_loop p fuel (drop (Z.to_nat e) m) n i0 w0)).
  { intros wa1 w1 Hw1 Hr1 Hu1. destruct (aput_sim m d wa1 w1 b Hd Hw1) as [[-> ->]|(ok & w' & wa' & -> & -> & Hw' & Hi' & Hk & _)]; cbn [bind]; [done|].
    destruct ok; cbn [negb]; [|done].
    destruct (iadd_cases i) as [[-> ?]| ->]; [lia| |done]. cbn [bind].
    pose proof Hw1 as (_ & _ & _ & ? & _).
    apply IH; [done|lia| |].
    - fold sp. destruct Hr1; [left; lia|by right].
    - intros j Hj. rewrite Hk by lia. apply Hu1. lia. }
  destruct (special b).
  - destruct (aput_sim m d wa w BISYNC_DLE Hd Hw) as [[-> ->]|(ok & w' & wa' & -> & -> & Hw' & Hi' & Hk & _)]; cbn [bind]; [done|].
    destruct ok; cbn [negb]; [|done]. apply Hput; [done| |].
    + destruct Hroom; [left; lia|by right].
    + intros j Hj. rewrite Hk by lia. apply Hu. lia.
  - cbn [bind negb]. apply Hput; [done| |].
    + destruct Hroom; [left; lia|by right].
    + intros j Hj. apply Hu. lia.
Qed.

(** Encoding a message that starts far enough behind the destination in the same object
    (one byte for the SOH and one for each byte to be escaped), or lies wholly before it,
    does what encoding into a separate buffer does. *)
Theorem C102_encode_overlap : forall p m d cap e n,
  0 <= d <= Z.of_nat (length m) -> 0 <= e ->
  d + 1 + specials (take (Z.to_nat n) (drop (Z.to_nat e) m)) <= e \/ e + n <= d ->
  aencode p m d cap e n =
  (let* '(r, out) := mu_bisync_encode p (drop (Z.to_nat d) m) cap (drop (Z.to_nat e) m) n in
   Ok (r, take (Z.to_nat d) m ++ out)).
Proof.
  intros p m d cap e n Hd He Hpos. unfold aencode, mu_bisync_encode.
  assert (Hsp : 0 <= specials (take (Z.to_nat n) (drop (Z.to_nat e) m))) by (unfold specials; lia).
  destruct (aput_sim m d _ _ BISYNC_SOH Hd (wsim0 m d (to_int cap) Hd)) as [[-> ->]|(ok & w & wa & -> & -> & Hw & Hi & Hk & _)]; cbn [bind]; [done|].
  destruct ok; cbn [negb].
  2:{ destruct Hw as (H1 & _). unfold tail_set in H1. by rewrite H1. }
  simpl bidx in Hi. simpl wbuf in Hk. simpl bidx in Hk.
  pose proof (encode_loop_sim p m d e n Hd He (Z.to_nat n) 0 wa w Hw ltac:(unfold int_max; lia)) as HL.
  rewrite Z.sub_0_r, Z.add_0_r in HL. specialize (HL ltac:(destruct Hpos; [left; lia|by right])).
  specialize (HL ltac:(intros j Hj; apply Hk; lia)). revert HL.
  destruct (aencode_loop _ _ _ _ _ _ _) as [[ok1 wa1]| |]; destruct (encode_loop _ _ _ _ _ _) as [[ok2 w1]| |]; cbn [esim]; try done.
  intros (-> & Hw1). cbn [bind]. destruct ok2; cbn [negb].
  2:{ destruct Hw1 as (H1 & _). unfold tail_set in H1. by rewrite H1. }
  destruct (aput_sim m d _ _ BISYNC_EOT Hd Hw1) as [[-> ->]|(ok & w2 & wa2 & -> & -> & Hw2 & _)]; cbn [bind]; [done|].
  destruct Hw2 as (H1 & _ & H3 & _). unfold tail_set in H1. rewrite H1. destruct ok; simpl; [|done]. by rewrite H3.
Qed.
Print Assumptions C102_encode_overlap.

(** In place decoding, read off: the frame [frame msg] at index [e], decoded to [d <= e],
    leaves the message (after the SOH the decoder keeps, C18) at [d]. *)
Theorem C102_decode_in_place : forall p m d cap e msg rest,
  0 <= d <= e -> drop (Z.to_nat e) m = frame msg ++ rest ->
  Z.of_nat (length (frame msg)) <= int_max ->
  Z.of_nat (length msg) + 1 <= cap <= int_max -> cap <= Z.of_nat (length (drop (Z.to_nat d) m)) ->
  adecode p m d cap e (Z.of_nat (length (frame msg))) =
  Ok (Z.of_nat (length msg) + 1, take (Z.to_nat d) m ++ overwrite (SOH :: msg) (drop (Z.to_nat d) m)).
Proof.
  intros p m d cap e msg rest Hd He Hlen Hcap Hcm.
  assert (Hle : e <= Z.of_nat (length m)).
  { apply (f_equal length) in He. rewrite drop_length, app_length in He. unfold frame in He. simpl in He. lia. }
  rewrite C102_decode_overlap by lia.
  assert (Hdf : mu_bisync_decode p (drop (Z.to_nat d) m) cap (drop (Z.to_nat e) m) (Z.of_nat (length (frame msg))) =
    Ok (Z.of_nat (length msg) + 1, overwrite (SOH :: msg) (drop (Z.to_nat d) m))).
  { rewrite He. rewrite decode_ok; rewrite ?app_length; try lia.
    rewrite Nat2Z.id, take_app. pose proof (scan_frame msg []) as Hs. rewrite app_nil_r in Hs. rewrite Hs.
    unfold frame. destruct (Z.eqb_spec SOH BISYNC_SOH); [|done].
    simpl length. destruct (Z.leb_spec (Z.of_nat (S (length msg))) cap); [|lia].
    simpl. repeat f_equal. lia. }
  rewrite Hdf. done.
Qed.
Print Assumptions C102_decode_in_place.

(** ** Encoding in place destroys the message *)
(** what comes out: [SOH], then for each input byte a DLE and a byte already written *)
Fixpoint garbage (n : nat) : list Z :=
  match n with O => [SOH] | S i => garbage i ++ [DLE; nth i (garbage i) 0] end.
Lemma garbage_length n : length (garbage n) = (2 * n + 1)%nat.
Proof. induction n as [|n IH]; simpl; [done|]. rewrite app_length, IH. simpl. lia. Qed.
Lemma garbage_special n : Forall (fun b => special b = true) (garbage n).
Proof.
  induction n as [|n IH]; simpl; [by repeat constructor|]. apply Forall_app. split; [done|].
  repeat constructor. rewrite Forall_forall in IH. apply IH. apply elem_of_list_In, nth_In. rewrite garbage_length. lia.
Qed.

Lemma aput_ok (m : list Z) d cap bs b : 0 <= d -> cap <= int_max -> d + cap <= Z.of_nat (length m) -> Z.of_nat (length bs) < cap ->
  aput d (MkBuf (tail_set m d (overwrite bs (drop (Z.to_nat d) m))) cap (Z.of_nat (length bs))) b =
  Ok (true, MkBuf (tail_set m d (overwrite (bs ++ [b]) (drop (Z.to_nat d) m))) cap (Z.of_nat (length (bs ++ [b])))).
Proof.
  intros Hd Hc Hm Hl. unfold aput. cbn [bcap bidx wbuf].
  destruct (Z.leb_spec cap (Z.of_nat (length bs))); [lia|].
  rewrite st_tail by lia. rewrite st_ok by (rewrite overwrite_length; rewrite drop_length; lia). cbn [bind].
  unfold iadd. rewrite ichk_ok by (unfold int_min; lia). cbn [bind].
  rewrite Nat2Z.id, overwrite_snoc by (rewrite drop_length; lia). rewrite app_length. simpl.
  do 3 f_equal. lia.
Qed.

Lemma encode_in_place_loop p m d cap n : 0 <= d -> cap <= int_max -> d + cap <= Z.of_nat (length m) -> 2 * Z.of_nat n + 2 <= cap ->
  forall k i, (i + k = n)%nat ->
  aencode_loop p k d d (Z.of_nat n) (Z.of_nat i) (MkBuf (tail_set m d (overwrite (garbage i) (drop (Z.to_nat d) m))) cap (Z.of_nat (length (garbage i)))) =
  Ok (true, MkBuf (tail_set m d (overwrite (garbage n) (drop (Z.to_nat d) m))) cap (Z.of_nat (length (garbage n)))).
Proof.
  intros Hd Hc Hm Hn. pose proof (size_mod_big p) as Hbig. unfold int_max in *.
  induction k as [|k IH]; intros i Hi; cbn [aencode_loop]; rewrite to_size_id by lia.
  - destruct (Z.ltb_spec (Z.of_nat i) (Z.of_nat n)); [lia|]. by replace i with n by lia.
  - destruct (Z.ltb_spec (Z.of_nat i) (Z.of_nat n)); [|lia]. cbn [wbuf].
    set (b := nth i (garbage i) 0).
    assert (Hb : garbage i !! i = Some b).
    { destruct (lookup_lt_is_Some_2 (garbage i) i) as [x Hx]; [rewrite garbage_length; lia|].
      unfold b. rewrite nth_lookup, Hx. done. }
    rewrite (ld_okZ _ _ b); [|lia|].
    2:{ unfold tail_set, overwrite. rewrite lookup_app_r by (rewrite take_length; lia). rewrite take_length.
        replace (Z.to_nat (d + Z.of_nat i) - Z.to_nat d `min` length m)%nat with i by lia.
        rewrite lookup_app_l by (rewrite garbage_length; lia). done. }
    cbn [bind]. rewrite special_eq.
    assert (Hsp : special b = true).
    { pose proof (garbage_special i) as Hg. rewrite Forall_lookup in Hg. by apply (Hg i). }
    rewrite Hsp.
    rewrite aput_ok; [|lia|unfold int_max; lia|lia|rewrite garbage_length; lia]. cbn [bind negb].
    rewrite aput_ok; [|lia|unfold int_max; lia|lia|rewrite app_length, garbage_length; simpl; lia]. cbn [bind negb].
    unfold iadd. rewrite ichk_ok by (unfold int_min, int_max; lia). cbn [bind].
    replace (Z.of_nat i + 1) with (Z.of_nat (Datatypes.S i)) by lia.
    rewrite <- (IH (Datatypes.S i)) by lia. cbn [garbage]. rewrite <- app_assoc. done.
Qed.

(** The output of encoding [n] bytes in place is the same whatever the bytes are: the
    message is lost for every [n >= 1] (and the call still reports success). *)
Theorem C102_encode_in_place_refuted : forall p m d cap n,
  0 <= d -> cap <= int_max -> d + cap <= Z.of_nat (length m) -> 2 * Z.of_nat n + 2 <= cap ->
  aencode p m d cap d (Z.of_nat n) =
  Ok (2 * Z.of_nat n + 2, take (Z.to_nat d) m ++ overwrite (garbage n ++ [EOT]) (drop (Z.to_nat d) m)).
Proof.
  intros p m d cap n Hd Hc Hm Hn. unfold aencode. rewrite to_int_id by (unfold int_min; lia).
  assert (H0 : MkBuf m cap 0 = MkBuf (tail_set m d (overwrite [] (drop (Z.to_nat d) m))) cap (Z.of_nat (length ([] : list Z)))).
  { unfold tail_set, overwrite. simpl. by rewrite drop_0, take_drop. }
  rewrite H0, aput_ok; [|lia|lia|lia|simpl; lia]. cbn [bind negb app].
  change [BISYNC_SOH] with (garbage 0). rewrite Nat2Z.id.
  pose proof (encode_in_place_loop p m d cap n Hd Hc Hm Hn n 0 ltac:(lia)) as HL. change (Z.of_nat 0) with 0 in HL. rewrite HL.
  cbn [bind negb]. rewrite aput_ok; [|lia|lia|lia|rewrite garbage_length; lia]. cbn [bind negb wbuf bidx].
  rewrite app_length, garbage_length. simpl length. do 2 f_equal. lia.
Qed.
Print Assumptions C102_encode_in_place_refuted.

(** Hypotheses are met.  "A<EOT>B" at index 4 of an object: shifted encoding to index 2 is right,
    to index 3 (one byte short) or in place is not; the frame decodes in place. *)
Example C102_example :
  let m := [0;0;0;0;65;4;66;0;0;0;0;0;0;0;0] in
  aencode P64 m 2 8 4 3 = Ok (6, [0;0;1;65;16;4;66;4;0;0;0;0;0;0;0]) /\
  aencode P64 m 3 8 4 3 = Ok (7, [0;0;0;1;65;16;4;16;4;4;0;0;0;0;0]) /\
  aencode P64 m 4 8 4 3 = Ok (8, [0;0;0;0;1;16;1;16;16;16;1;4;0;0;0]) /\
  adecode P64 [0;0;1;65;16;4;66;4;0] 2 6 2 6 = Ok (4, [0;0;1;65;4;66;66;4;0]).
Proof. vm_compute. done. Qed.
