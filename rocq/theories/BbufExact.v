(** * C65-C67: exact behaviour of slice and trim for all arguments; making views *)
From Verif Require Import CSem BbufModel BbufSpec BbufProofs BbufProofs2 BbufProofs3 BbufProps.

(** ** C65: mu_bbuf_slice for every pair of ints.
    [whole] is the C object in which the source buffer lies; positions are relative to it. *)
Theorem C65_slice_exact : forall p m e dst src b pre l post start end_,
  e !! src = Some b -> is_Some (e !! dst) -> buf_at m b pre l post ->
  int_min <= start <= int_max -> int_min <= end_ <= int_max ->
  let whole := pre ++ l ++ post in
  let n := Z.of_nat (length l) in
  let s := norm_index n start in
  let t := Z.max s (norm_index n end_) in
  let s' := Z.of_nat (length pre) + s in
  let t' := Z.of_nat (length pre) + t in
  if decide (0 <= s' /\ t - s <= int_max) then
    exists b', mu_bbuf_slice p m e dst src start end_ = Ok (<[dst := b']> e) /\
      blk (bytes b') = blk (bytes b) /\
      buf_at m b' (take (Z.to_nat s') whole) (slice_of whole s' t') (drop (Z.to_nat t') whole)
  else mu_bbuf_slice p m e dst src start end_ = UB.
Proof.
  intros p m e dst src b pre l post start end_ Hs [d Hd] Hb Hst Hen whole n s t s' t'.
  pose proof (buf_at_cap _ _ _ _ _ Hb) as [_ Hc].
  assert (Es : s <= n). { subst s n. apply norm_index_le. lia. }
  assert (Et : s <= t <= n). { subst t. pose proof (norm_index_le n end_ ltac:(subst n; lia)). lia. }
  assert (HW : m !! blk (bytes b) = Some whole) by apply Hb.
  assert (Hlen : Z.of_nat (length whole) = Z.of_nat (length pre) + n + Z.of_nat (length post)).
  { subst whole n. rewrite !app_length. lia. }
  destruct Hb as (H1 & H2 & H3 & H4).
  assert (Hpad : padd m (bytes b) s = if decide (0 <= s') then Ok (Ptr (blk (bytes b)) s') else UB).
  { unfold padd. rewrite HW, H2. fold s'. destruct (decide (0 <= s')).
    - destruct (Z.leb_spec 0 s'); [|lia]. destruct (Z.leb_spec s' (Z.of_nat (length whole))); [done|lia].
    - destruct (Z.leb_spec 0 s'); [lia|done]. }
  unfold mu_bbuf_slice, sget. rewrite Hs. cbn [bind]. rewrite H3. cbv zeta. rewrite norm_start, norm_end by lia.
  fold n s. set (e0 := norm_index n end_) in *.
  replace (if e0 <? s then s else e0) with t by (subst t; destruct (Z.ltb_spec e0 s); lia).
  rewrite Hpad. clearbody e0 s. destruct (decide (0 <= s')) as [Hge|Hge].
  - cbn [bind]. destruct (decide (t - s <= int_max)) as [Ho|Ho].
    + rewrite decide_True by done. unfold isub. rewrite ichk_ok by (unfold int_min, int_max in *; lia). cbn [bind].
      pose proof (size_mod_big p). rewrite to_size_id by (unfold int_max in *; lia).
      unfold mu_bbuf_init_ro, sput. rewrite Hd. eexists. split; [done|]. simpl. split; [done|].
      assert (Ht' : s' <= t') by lia.
      assert (Hl : length (slice_of whole s' t') = Z.to_nat (t - s)).
      { unfold slice_of. rewrite take_length, drop_length. lia. }
      split; [|split; [|split]].
      * simpl. rewrite HW. f_equal. unfold slice_of. rewrite <- (take_drop (Z.to_nat s') whole) at 1. f_equal.
        rewrite <- (take_drop (Z.to_nat (t' - s')) (drop (Z.to_nat s') whole)) at 1. f_equal.
        rewrite drop_drop. f_equal. lia.
      * simpl. rewrite take_length. lia.
      * simpl. rewrite Hl. lia.
      * rewrite Hl. lia.
    + rewrite decide_False by tauto. unfold isub. rewrite ichk_ub; [done|lia].
  - rewrite decide_False by tauto. done.
Qed.
Print Assumptions C65_slice_exact.

(** Hence a slice never reaches beyond the object, and lies inside the source buffer
    exactly when its start does not precede it. *)
Theorem C65_slice_inside : forall p m e dst src b pre l post start end_ b',
  e !! src = Some b -> is_Some (e !! dst) -> buf_at m b pre l post ->
  int_min <= start <= int_max -> int_min <= end_ <= int_max ->
  mu_bbuf_slice p m e dst src start end_ = Ok (<[dst := b']> e) ->
  (exists l', buf m b' l') /\
  off (bytes b') + capacity b' <= off (bytes b) + capacity b /\
  (off (bytes b) <= off (bytes b') <-> - Z.of_nat (length l) <= start).
Proof.
  intros p m e dst src b pre l post start end_ b' Hs Hd Hb Hst Hen HE.
  pose proof (C65_slice_exact p m e dst src b pre l post start end_ Hs Hd Hb Hst Hen) as H. cbv zeta in H.
  destruct (decide _) as [[Hge Ho]|]; [|congruence].
  destruct H as (b2 & HE2 & Hbk & Hb2). rewrite HE in HE2. injection HE2 as E.
  assert (b' = b2) as <-.
  { apply (f_equal (fun x => x !! dst)) in E. destruct Hd as [d Hd].
    rewrite !list_lookup_insert in E by (by eapply lookup_lt_Some). congruence. }
  pose proof (norm_index_le (Z.of_nat (length l)) start ltac:(lia)).
  pose proof (norm_index_le (Z.of_nat (length l)) end_ ltac:(lia)).
  split; [eexists _, _, _; exact Hb2|].
  destruct Hb as (H1 & H2 & H3 & H4). destruct Hb2 as (G1 & G2 & G3 & G4).
  unfold slice_of in *. rewrite take_length, drop_length in G3. rewrite take_length in G2.
  rewrite !app_length in *.
  set (s := norm_index _ start) in *. set (t := Z.max s _) in *.
  assert (Hs' : s = norm_index (Z.of_nat (length l)) start) by done. unfold norm_index in Hs'.
  split; [lia|]. destruct (decide (start < 0)); lia.
Qed.
Print Assumptions C65_slice_inside.
Example C65_example :
  (* the view "hello" inside "xhellox", sliced from -6: starts before the view, still inside the object *)
  mu_bbuf_slice P64 ex_mem [ex_hello] 0 0 (-6) 2 = Ok [MkBbuf (Ptr 0 0) 3] /\
  mu_bbuf_slice P64 ex_mem [ex_hello] 0 0 (-7) 2 = UB /\ mu_bbuf_slice P32 ex_mem [ex_hello] 0 0 3 (-5) = Ok [MkBbuf (Ptr 0 4) 0] /\
  buf_at ex_mem ex_hello [120] [104;101;108;108;111] [120].
Proof. split; [done|]. split; [done|]. split; [done|]. apply ex_hello_at. Qed.

(** ** C66: what the trims return, for every predicate and every buffer, with dst = src
    or not: always a part of the source, never undefined behaviour. *)
Definition keeps_some (pred : Z -> bool) (l : list Z) : Prop := exists x, x ∈ l /\ pred x = false.

Theorem C66_trim_exact : forall p m e dst src b pre l post pred,
  e !! src = Some b -> is_Some (e !! dst) -> buf_at m b pre l post ->
  exists bl l1 ll br lr l2 bt t1 lt t2,
    (* ltrim *)
    mu_bbuf_ltrim p m e dst src pred = Ok (<[dst := bl]> e) /\ part_of m b pre post bl l1 ll [] /\ l = l1 ++ ll /\
    (keeps_some pred l -> ll = drop_while pred l) /\ (~ keeps_some pred l -> ll = l) /\
    (* rtrim: also drops the last byte that should be kept *)
    mu_bbuf_rtrim p m e dst src pred = Ok (<[dst := br]> e) /\ part_of m b pre post br [] lr l2 /\ l = lr ++ l2 /\
    (keeps_some pred l -> exists x, pred x = false /\ lr ++ [x] = drop_while_end pred l) /\ (~ keeps_some pred l -> lr = l) /\
    (* trim *)
    mu_bbuf_trim p m e dst src pred = Ok (<[dst := bt]> e) /\ part_of m b pre post bt t1 lt t2 /\ l = t1 ++ lt ++ t2 /\
    (keeps_some pred l -> exists x, pred x = false /\ lt ++ [x] = drop_while_end pred (drop_while pred l)) /\
    (~ keeps_some pred l -> lt = l).
Proof.
  intros p m e dst src b pre l post pred Hs Hd Hb.
  assert (KS : forall k, keeps_some pred k <-> Exists (fun x => pred x = false) k).
  { intros k. unfold keeps_some. rewrite Exists_exists. done. }
  assert (Last : forall k, keeps_some pred k -> exists x, pred x = false /\ removelast (drop_while_end pred k) ++ [x] = drop_while_end pred k).
  { intros k Hk%KS. pose proof (drop_while_end_nonempty pred k Hk) as Hne.
    unfold drop_while_end in *. destruct (drop_while pred (reverse k)) as [|x r] eqn:E; [done|].
    rewrite reverse_cons, removelast_last. exists x. split; [|done].
    clear Hne Hk. revert x r E. induction (reverse k) as [|y q IH]; intros x r E; [done|]. simpl in E.
    destruct (pred y) eqn:Ey; [by eapply IH|]. congruence. }
  destruct (ltrim_exact p m e dst src b pre l post pred Hs Hd Hb) as (bl & l1 & ll & EL & HL & Hl1 & Hll).
  destruct (rtrim_exact p m e dst src b pre l post pred Hs Hd Hb) as (br & lr & l2 & ER & HR & Hl2 & Hlr).
  assert (Hlt : (dst < length e)%nat) by (by apply lookup_lt_is_Some).
  pose proof HL as [Hbk Hb1]. rewrite app_nil_l in Hb1.
  destruct (rtrim_exact p m (<[dst:=bl]> e) dst dst bl (pre ++ l1) ll post pred ltac:(by rewrite list_lookup_insert)
     ltac:(by rewrite list_lookup_insert) Hb1) as (bt & lt & t2 & ET & [Hbk' Hb'] & Ht2 & Hltt).
  exists bl, l1, ll, br, lr, l2, bt, l1, lt, t2.
  split; [done|]. split; [done|]. split; [done|].
  split; [intros K%KS; by rewrite decide_True in Hll|]. split; [intros K; rewrite KS in K; by rewrite decide_False in Hll|].
  split; [done|]. split; [done|]. split; [done|].
  split. { intros K. destruct (Last l K) as (x & Hx & E). exists x. split; [done|]. apply KS in K. rewrite decide_True in Hlr by done. by rewrite Hlr. }
  split; [intros K; rewrite KS in K; by rewrite decide_False in Hlr|].
  split. { unfold mu_bbuf_trim. rewrite EL. cbn [bind]. by rewrite ET, list_insert_insert. }
  split; [split; [congruence|by rewrite app_nil_r in Hb']|]. split; [by rewrite Hl1, Ht2|].
  split.
  - intros K. assert (K' : keeps_some pred (drop_while pred l)) by (apply KS, trim_len_ltrim, KS, K).
    destruct (Last _ K') as (x & Hx & E). exists x. split; [done|]. apply KS in K. rewrite decide_True in Hll by done.
    rewrite Hll in Hltt. rewrite decide_True in Hltt by (by apply KS). by rewrite Hltt.
  - intros K. rewrite KS in K. rewrite decide_False in Hll by done. rewrite Hll in Hltt. by rewrite decide_False in Hltt.
Qed.
Print Assumptions C66_trim_exact.
Example C66_example :
  mu_bbuf_trim P64 ex_mem [ex_hello] 0 0 (fun c => negb (c =? 108)) = Ok [MkBbuf (Ptr 0 3) 1] /\
  keeps_some (fun c => negb (c =? 108)) [104;101;108;108;111] /\
  drop_while_end (fun c => negb (c =? 108)) (drop_while (fun c => negb (c =? 108)) [104;101;108;108;111]) = [108;108].
Proof. split; [done|]. split; [exists 108; split; [by right; right; left|done]|done]. Qed.

(** ** C67: making views.  The init functions and copy write only the struct given, and the view
    made has the bytes asked for; no byte is copied. *)
Theorem C67_init : forall e b q cap d, e !! b = Some d ->
  mu_bbuf_init_ro e b q cap = Ok (<[b := MkBbuf q cap]> e) /\ mu_bbuf_init_rw e b q cap = Ok (<[b := MkBbuf q cap]> e) /\
  mu_bbuf_bytes_ro (MkBbuf q cap) = q /\ mu_bbuf_bytes_rw (MkBbuf q cap) = q /\ mu_bbuf_capacity (MkBbuf q cap) = cap.
Proof. intros e b q cap d H. unfold mu_bbuf_init_ro, mu_bbuf_init_rw, sput. rewrite H. done. Qed.
Print Assumptions C67_init.

Theorem C67_init_cstr : forall m e b q s, is_Some (e !! b) -> cstr_at m q s ->
  exists v, mu_bbuf_init_cstr m e b q = Ok (<[b := v]> e) /\ buf m v s /\ mu_bbuf_bytes_ro v = q /\
    mu_bbuf_capacity v = Z.of_nat (length s).
Proof.
  intros m e b q s [d Hd] Hs. unfold mu_bbuf_init_cstr, sput. rewrite (strlen_ok _ _ _ Hs). cbn [bind]. rewrite Hd.
  destruct (cstr_buf _ _ _ Hs) as (pre & post & Hb). eexists. split; [done|]. split; [by eexists _, _|done].
Qed.
Print Assumptions C67_init_cstr.

(** dst may be src *)
Theorem C67_copy : forall m e dst src v l, e !! src = Some v -> is_Some (e !! dst) -> buf m v l ->
  exists e', mu_bbuf_copy e dst src = Ok e' /\ e' !! dst = Some v /\ (forall z, z <> dst -> e' !! z = e !! z) /\
    (exists v', e' !! dst = Some v' /\ buf m v' l).
Proof.
  intros m e dst src v l Hs [d Hd] Hb. rewrite (copy_ok e dst src v d Hs Hd). eexists. split; [done|].
  assert (E : <[dst:=v]> e !! dst = Some v) by (apply list_lookup_insert; by eapply lookup_lt_Some).
  split; [done|]. split; [intros z Hz; by rewrite list_lookup_insert_ne|]. by exists v.
Qed.
Print Assumptions C67_copy.
Example C67_example : mu_bbuf_init_cstr ex_mem [ex_hello] 0 (Ptr 2 0) = Ok [MkBbuf (Ptr 2 0) 2] /\ cstr_at ex_mem (Ptr 2 0) [104;101].
Proof.
  split; [done|]. exists [], []. split; [done|]. split; [done|]. split; [|by vm_compute].
  constructor; [lia|]. constructor; [lia|constructor].
Qed.
