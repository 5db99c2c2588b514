(** * More lemmas about the mu_bbuf model: byte searches, slices, trimming *)
From Verif Require Import CSem BbufModel BbufSpec BbufProofs.

Lemma to_int_to_size p x : to_int (to_size p x) = to_int x.
Proof.
  unfold to_int, wrap_signed, to_size.
  assert (H : (x mod size_mod p) mod 4294967296 = x mod 4294967296).
  { destruct p; simpl size_mod; [by rewrite Z.mod_mod|].
    symmetry. apply Znumtheory.Zmod_div_mod; [done|done|]. by exists 4294967296. }
  by rewrite H.
Qed.
Lemma to_size_nat p (n : nat) : Z.of_nat n <= int_max -> to_size p (Z.of_nat n) = Z.of_nat n.
Proof. intros H. apply to_size_id. pose proof (size_mod_big p). unfold int_max in *. lia. Qed.

Lemma lookup_snoc_Some {A} (d : list A) x j y : (d ++ [x]) !! j = Some y -> (j < length d)%nat /\ d !! j = Some y \/ j = length d /\ x = y.
Proof.
  intros H. apply lookup_app_Some in H as [H|[H1 H2]]; [left; split; [by eapply lookup_lt_Some|done]|right].
  apply list_lookup_singleton_Some in H2 as [H2 ->]. split; [lia|done].
Qed.

(** ** Byte and predicate searches *)
Section search.
Context (p : plat).

Lemma find_byte_loop_ok m b pre l post byte : buf_at m b pre l post ->
  forall k d fuel, l = d ++ k -> (length k <= fuel)%nat -> (forall j y, d !! j = Some y -> y <> byte) ->
  exists r, find_byte_loop p fuel m b byte (Z.of_nat (length d)) = Ok r /\ first_index (fun x => x = byte) l r.
Proof.
  intros Hb. pose proof (buf_at_at _ _ _ _ _ Hb) as Ha. destruct Hb as (_ & _ & Hc & Hm).
  intros k. induction k as [|x k IH]; intros d fuel Hl Hf Hd.
  - rewrite app_nil_r in Hl. subst d. exists MU_BBUF_NOT_FOUND. split; [|by right].
    destruct fuel; cbn [find_byte_loop]; rewrite to_size_nat by done; rewrite Hc; zb; try lia; done.
  - assert (Hlen : length l = (length d + S (length k))%nat) by (rewrite Hl, app_length; done).
    destruct fuel as [|fuel]; simpl in Hf; [lia|]. cbn [find_byte_loop].
    rewrite to_size_nat by lia. rewrite Hc. destruct (Z.ltb_spec (Z.of_nat (length d)) (Z.of_nat (length l))); [|lia].
    assert (Hx : l !! length d = Some x) by (rewrite Hl; by apply list_lookup_middle).
    rewrite (at_rdi m (bytes b) pre (l ++ post) (length d) x Ha) by (by apply lookup_app_l_Some). cbn [bind].
    destruct (Z.eqb_spec x byte) as [->|Hne].
    + eexists. split; [done|]. left. exists (length d), byte. repeat split; try done.
      intros j y Hj Hy. rewrite Hl, lookup_app_l in Hy by done. by apply (Hd j).
    + unfold iadd. rewrite ichk_ok by (unfold int_min, int_max in *; lia). cbn [bind].
      replace (Z.of_nat (length d) + 1) with (Z.of_nat (length (d ++ [x]))) by (rewrite app_length; simpl; lia).
      apply IH; [by rewrite <- app_assoc|lia|].
      intros j y Hy. apply lookup_snoc_Some in Hy as [[_ Hy]|[_ <-]]; [by apply (Hd j)|done].
Qed.

Lemma rfind_byte_loop_ok m b pre l post byte : buf_at m b pre l post ->
  forall k d fuel, l = k ++ d -> (length k <= fuel)%nat -> (forall j y, d !! j = Some y -> y <> byte) ->
  exists r, rfind_byte_loop fuel m b byte (Z.of_nat (length k) - 1) = Ok r /\ last_index (fun x => x = byte) l r.
Proof.
  intros Hb. pose proof (buf_at_at _ _ _ _ _ Hb) as Ha. destruct Hb as (_ & _ & Hc & Hm).
  intros k. induction k as [|x k IH] using rev_ind; intros d fuel Hl Hf Hd.
  - exists MU_BBUF_NOT_FOUND. simpl in Hl. subst d. split; [|by right].
    destruct fuel; reflexivity.
  - assert (Hlen : length l = (length k + S (length d))%nat) by (rewrite Hl, !app_length; simpl; lia).
    rewrite app_length in *. simpl in Hf. destruct fuel as [|fuel]; [lia|]. cbn [rfind_byte_loop].
    replace (Z.of_nat (length k + length [x]) - 1) with (Z.of_nat (length k)) by (simpl; lia).
    destruct (Z.leb_spec 0 (Z.of_nat (length k))); [|lia].
    assert (Hx : l !! length k = Some x). { rewrite Hl, <- app_assoc. by apply list_lookup_middle. }
    rewrite (at_rdi m (bytes b) pre (l ++ post) (length k) x Ha) by (by apply lookup_app_l_Some). cbn [bind].
    destruct (Z.eqb_spec x byte) as [->|Hne].
    + eexists. split; [done|]. left. exists (length k), byte. repeat split; try done.
      intros j y Hj Hy. rewrite Hl, <- app_assoc, lookup_app_r in Hy by lia.
      change ([byte] ++ d) with (byte :: d) in Hy. rewrite lookup_cons_ne_0 in Hy by lia. by apply (Hd (pred (j - length k))).
    + unfold isub. rewrite ichk_ok by (unfold int_min, int_max in *; lia). cbn [bind].
      apply (IH ([x] ++ d)); [by rewrite app_assoc|lia|].
      intros j y Hy. destruct j as [|j]; simpl in Hy; [by injection Hy as <-|by apply (Hd j)].
Qed.

Lemma find_predicate_loop_ok m l post pred : forall k d q pre fuel,
  Z.of_nat (length l) <= int_max ->
  at_ m q pre (k ++ post) -> l = d ++ k -> (length k <= fuel)%nat -> (forall j y, d !! j = Some y -> pred y = true) ->
  exists r, find_predicate_loop fuel m q pred (Z.of_nat (length d)) (Z.of_nat (length l)) = Ok r /\
     first_index (fun x => pred x = false) l r.
Proof.
  induction k as [|x k IH]; intros d q pre fuel Hm Ha Hl Hf Hd.
  - rewrite app_nil_r in Hl. subst d. exists MU_BBUF_NOT_FOUND. split.
    + destruct fuel; cbn [find_predicate_loop]; zb; try lia; done.
    + right. split; [|done]. intros j y Hy. rewrite (Hd j y Hy). done.
  - assert (Hlen : length l = (length d + S (length k))%nat) by (rewrite Hl, app_length; done).
    destruct fuel as [|fuel]; simpl in Hf; [lia|]. cbn [find_predicate_loop].
    destruct (Z.ltb_spec (Z.of_nat (length d)) (Z.of_nat (length l))); [|lia].
    rewrite (at_rd _ _ _ _ _ Ha). cbn [bind].
    destruct (at_next _ _ _ _ _ Ha) as (q' & -> & Ha' & _). cbn [bind].
    assert (Hx : l !! length d = Some x) by (rewrite Hl; by apply list_lookup_middle).
    destruct (pred x) eqn:Ep; cbn [negb].
    + unfold iadd. rewrite ichk_ok by (unfold int_min, int_max in *; lia). cbn [bind].
      replace (Z.of_nat (length d) + 1) with (Z.of_nat (length (d ++ [x]))) by (rewrite app_length; simpl; lia).
      eapply IH; [done|done|by rewrite <- app_assoc|lia|].
      intros j y Hy. apply lookup_snoc_Some in Hy as [[_ Hy]|[_ <-]]; [by apply (Hd j)|done].
    + eexists. split; [done|]. left. exists (length d), x. repeat split; try done.
      intros j y Hj Hy. rewrite Hl, lookup_app_l in Hy by done. by rewrite (Hd j y Hy).
Qed.

Lemma rfind_predicate_loop_ok m l pred : forall k d q pre post fuel,
  Z.of_nat (length l) <= int_max ->
  at_ m q (pre ++ k) post -> l = k ++ d -> (length k <= fuel)%nat -> (forall j y, d !! j = Some y -> pred y = true) ->
  exists r, rfind_predicate_loop fuel m q pred (Z.of_nat (length k)) = Ok r /\
     last_index (fun x => pred x = false) l r.
Proof.
  induction k as [|x k IH] using rev_ind; intros d q pre post fuel Hm Ha Hl Hf Hd.
  - simpl in Hl. subst d. exists MU_BBUF_NOT_FOUND. split.
    + destruct fuel; done.
    + right. split; [|done]. intros j y Hy. rewrite (Hd j y Hy). done.
  - assert (Hlen : length l = (length k + S (length d))%nat) by (rewrite Hl, !app_length; simpl; lia).
    rewrite app_length in *. simpl in Hf. destruct fuel as [|fuel]; [lia|]. cbn [rfind_predicate_loop].
    destruct (Z.ltb_spec 0 (Z.of_nat (length k + length [x]))); [|simpl in *; lia].
    rewrite app_assoc in Ha.
    destruct (at_prev _ _ _ _ _ Ha) as (q' & -> & Ha' & _). cbn [bind].
    rewrite (at_rd _ _ _ _ _ Ha'). cbn [bind].
    assert (Hx : l !! length k = Some x). { rewrite Hl, <- app_assoc. by apply list_lookup_middle. }
    unfold isub. rewrite ichk_ok by (unfold int_min, int_max in *; simpl; lia).
    replace (Z.of_nat (length k + length [x]) - 1) with (Z.of_nat (length k)) by (simpl; lia).
    destruct (pred x) eqn:Ep; cbn [negb bind].
    + eapply (IH ([x] ++ d)); [done|done|by rewrite app_assoc|lia|].
      intros j y Hy. destruct j as [|j]; simpl in Hy; [by injection Hy as <-|by apply (Hd j)].
    + eexists. split; [done|]. left. exists (length k), x. repeat split; try done.
      intros j y Hj Hy. rewrite Hl, <- app_assoc, lookup_app_r in Hy by lia.
      change ([x] ++ d) with (x :: d) in Hy. rewrite lookup_cons_ne_0 in Hy by lia. by rewrite (Hd _ _ Hy).
Qed.

Lemma find_predicate_ok m b pre l post pred : buf_at m b pre l post ->
  exists r, mu_bbuf_find_predicate m b pred = Ok r /\ first_index (fun x => pred x = false) l r.
Proof.
  intros Hb. unfold mu_bbuf_find_predicate, mu_bbuf_capacity, mu_bbuf_bytes_ro.
  pose proof (buf_at_cap _ _ _ _ _ Hb) as [-> Hc]. apply buf_at_at in Hb.
  apply (find_predicate_loop_ok m l post pred l [] (bytes b) pre); try done; lia.
Qed.
Lemma rfind_predicate_ok m b pre l post pred : buf_at m b pre l post ->
  exists r, mu_bbuf_rfind_predicate m b pred = Ok r /\ last_index (fun x => pred x = false) l r.
Proof.
  intros Hb. unfold mu_bbuf_rfind_predicate, mu_bbuf_capacity, mu_bbuf_bytes_ro.
  pose proof (buf_at_cap _ _ _ _ _ Hb) as [-> Hc]. apply buf_at_at in Hb.
  destruct (at_padd _ _ _ _ _ _ Hb eq_refl) as (q & -> & Ha & _). cbn [bind].
  apply (rfind_predicate_loop_ok m l pred l [] q pre post); try done; try lia. by rewrite app_nil_r.
Qed.

(** ** Slices *)
Lemma norm_start cap start : 0 <= cap <= int_max -> int_min <= start <= int_max ->
  (if start <? 0 then to_int (to_size p (cap + to_size p start))
   else if (cap <? to_size p start) || (start =? MU_BBUF_END) then to_int cap else start) = norm_index cap start.
Proof.
  intros Hc Hs. unfold norm_index, MU_BBUF_END. pose proof (size_mod_big p).
  destruct (Z.ltb_spec start 0).
  - rewrite decide_True by done. rewrite to_int_to_size.
    assert (to_int (cap + to_size p start) = to_int (cap + start)) as ->.
    { rewrite <- (to_int_to_size p (cap + to_size p start)), <- (to_int_to_size p (cap + start)).
      f_equal. unfold to_size. rewrite Zplus_mod_idemp_r. done. }
    apply to_int_id. unfold int_min, int_max in *; lia.
  - rewrite decide_False by lia. rewrite to_size_id by (unfold int_max in *; lia).
    destruct (Z.ltb_spec cap start); simpl; [rewrite to_int_id by (unfold int_min; lia); lia|].
    destruct (Z.eqb_spec start int_max); [rewrite to_int_id by (unfold int_min; lia); lia|lia].
Qed.
Lemma norm_end cap end_ : 0 <= cap <= int_max -> int_min <= end_ <= int_max ->
  (if end_ <? 0 then to_int (to_size p (cap + to_size p end_))
   else if (cap <=? to_size p end_) || (end_ =? MU_BBUF_END) then to_int cap else end_) = norm_index cap end_.
Proof.
  intros Hc Hs. rewrite <- norm_start by done. pose proof (size_mod_big p).
  destruct (Z.ltb_spec end_ 0); [done|]. rewrite to_size_id by (unfold int_max in *; lia).
  unfold MU_BBUF_END.
  destruct (Z.leb_spec cap end_), (Z.ltb_spec cap end_); simpl; try done; try lia.
  destruct (Z.eqb_spec end_ int_max); [done|]. rewrite to_int_id by (unfold int_min; lia). lia.
Qed.
Lemma norm_index_le n i : 0 <= n -> norm_index n i <= n.
Proof. intros. unfold norm_index. destruct (decide (i < 0)); lia. Qed.

Lemma slice_ok m e dst src b d pre l post start end_ :
  e !! src = Some b -> e !! dst = Some d -> buf_at m b pre l post ->
  int_min <= start <= int_max -> int_min <= end_ <= int_max ->
  let n := Z.of_nat (length l) in
  let s := norm_index n start in
  let t := Z.max s (norm_index n end_) in
  0 <= s ->
  mu_bbuf_slice p m e dst src start end_ = Ok (<[dst := MkBbuf (Ptr (blk (bytes b)) (off (bytes b) + s)) (t - s)]> e).
Proof.
  intros Hs Hd Hb Hst Hen n s t H0.
  pose proof (buf_at_cap _ _ _ _ _ Hb) as [_ Hc]. pose proof (buf_at_at _ _ _ _ _ Hb) as Ha.
  unfold mu_bbuf_slice, sget. rewrite Hs. cbn [bind].
  assert (capacity b = n) as -> by (by destruct Hb as (_ & _ & ? & _)). cbv zeta.
  rewrite norm_start, norm_end by done. fold s.
  pose proof (norm_index_le n start ltac:(lia)) as Hsn. fold s in Hsn.
  pose proof (norm_index_le n end_ ltac:(lia)) as Hen'.
  assert (Hmx : (if norm_index n end_ <? s then s else norm_index n end_) = t).
  { subst t. zb; lia. }
  rewrite Hmx.
  rewrite <- (take_drop (Z.to_nat s) l), <- app_assoc in Ha.
  assert (Hlt : s = Z.of_nat (length (take (Z.to_nat s) l))) by (rewrite take_length; subst n; lia).
  destruct (at_padd _ _ _ _ _ s Ha Hlt) as (q & -> & Ha' & Hbl & Hof). cbn [bind].
  pose proof (size_mod_big p).
  unfold isub. rewrite ichk_ok by (unfold int_min, int_max in *; lia). cbn [bind].
  rewrite to_size_id by (unfold int_max in *; lia).
  unfold mu_bbuf_init_ro, sput. rewrite Hd. do 3 f_equal.
  destruct q as [qb qo]. simpl in *. by subst.
Qed.

Lemma slice_buf m b pre l post s t : buf_at m b pre l post -> 0 <= s <= t -> t <= Z.of_nat (length l) ->
  buf_at m (MkBbuf (Ptr (blk (bytes b)) (off (bytes b) + s)) (t - s))
    (pre ++ take (Z.to_nat s) l) (slice_of l s t) (drop (Z.to_nat t) l ++ post).
Proof.
  intros (H1 & H2 & H3 & H4) Hs Ht. unfold slice_of. repeat split; simpl.
  - rewrite H1. f_equal. rewrite <- app_assoc. f_equal. rewrite !app_assoc. f_equal.
    rewrite <- (take_drop (Z.to_nat s) l) at 1. rewrite <- app_assoc. f_equal.
    rewrite <- (take_drop (Z.to_nat (t - s)) (drop (Z.to_nat s) l)) at 1. f_equal.
    rewrite drop_drop. f_equal. lia.
  - rewrite app_length, take_length. lia.
  - rewrite take_length, drop_length. lia.
  - rewrite take_length, drop_length. lia.
Qed.

Lemma slice_part m b pre l post s t : buf_at m b pre l post -> 0 <= s <= t -> t <= Z.of_nat (length l) ->
  part_of m b pre post (MkBbuf (Ptr (blk (bytes b)) (off (bytes b) + s)) (t - s))
    (take (Z.to_nat s) l) (slice_of l s t) (drop (Z.to_nat t) l).
Proof. intros. split; [done|]. by apply slice_buf. Qed.

(** ** Bisect *)
Lemma bisect_norm cap index : 0 <= cap <= int_max -> int_min <= index <= int_max ->
  (if index <? 0 then iadd cap index
     else if (cap <? index) || (index =? MU_BBUF_END) then Ok cap
     else Ok index) = Ok (norm_index cap index).
Proof.
  intros Hc Hi. unfold norm_index, MU_BBUF_END. destruct (Z.ltb_spec index 0).
  - rewrite decide_True by done. unfold iadd. apply ichk_ok. unfold int_min, int_max in *. lia.
  - rewrite decide_False by lia. destruct (Z.ltb_spec cap index); simpl; [f_equal; lia|].
    destruct (Z.eqb_spec index int_max); f_equal; lia.
Qed.
End search.

(** ** Index facts about the drop_while family *)
Lemma drop_while_idx pred (l : list Z) : forall i x, l !! i = Some x -> pred x = false ->
  (forall j y, (j < i)%nat -> l !! j = Some y -> pred y <> false) -> drop_while pred l = drop i l.
Proof.
  induction l as [|y l IH]; intros i x Hx Hp Hlt; [done|].
  destruct i as [|i]; simpl in *.
  - injection Hx as ->. by rewrite Hp.
  - destruct (pred y) eqn:E.
    + eapply IH; [done|done|]. intros j z Hj Hz. apply (Hlt (S j) z); [lia|done].
    + exfalso. apply (Hlt 0%nat y); [lia|done|done].
Qed.
Lemma drop_while_all pred (l : list Z) : (forall j y, l !! j = Some y -> pred y <> false) -> drop_while pred l = [].
Proof.
  induction l as [|y l IH]; intros Hno; [done|]. simpl.
  destruct (pred y) eqn:E; [|exfalso; by apply (Hno 0%nat y)].
  apply IH. intros j z Hz. by apply (Hno (S j)).
Qed.
Lemma drop_while_end_idx pred (l : list Z) : forall i x, l !! i = Some x -> pred x = false ->
  (forall j y, (i < j)%nat -> l !! j = Some y -> pred y <> false) -> drop_while_end pred l = take (S i) l.
Proof.
  intros i x Hx Hp Hlt. unfold drop_while_end. pose proof (lookup_lt_Some _ _ _ Hx).
  rewrite (drop_while_idx pred (reverse l) (length l - 1 - i) x).
  - assert (E : reverse l = reverse (drop (S i) l) ++ reverse (take (S i) l)) by (by rewrite <- reverse_app, take_drop).
    rewrite E, drop_app_alt; [by rewrite reverse_involutive|]. rewrite reverse_length, drop_length. lia.
  - rewrite reverse_lookup by lia. rewrite <- Hx. f_equal. lia.
  - done.
  - intros j y Hj Hy. rewrite reverse_lookup in Hy by lia. eapply Hlt; [|exact Hy]. lia.
Qed.
Lemma drop_while_end_all pred (l : list Z) : (forall j y, l !! j = Some y -> pred y <> false) -> drop_while_end pred l = [].
Proof.
  intros Hno. unfold drop_while_end. rewrite drop_while_all; [done|]. intros j y Hy.
  assert (Hin : y ∈ l). { apply elem_of_reverse. by eapply elem_of_list_lookup_2. }
  apply elem_of_list_lookup_1 in Hin as (k & Hk). by eapply Hno.
Qed.
