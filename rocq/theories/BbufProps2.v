(** * Properties C28-C35 (mu_bbuf: parsers, byte access, mutation) *)
From Verif Require Import CSem BbufModel BbufSpec BbufProofs BbufProofs2 BbufProofs3 BbufProps.

(** ** C28 *)
Theorem C28_parse_unsigned : forall m b l, buf m b l ->
  let v := decimal_value (take_while digit l) in
  mu_bbuf_parse_uint8 m b = Ok (v mod 2 ^ 8) /\
  mu_bbuf_parse_uint16 m b = Ok (v mod 2 ^ 16) /\
  mu_bbuf_parse_uint32 m b = Ok (v mod 2 ^ 32) /\
  mu_bbuf_parse_unsigned_int m b = Ok (v mod 2 ^ 32) /\
  mu_bbuf_parse_uint64 m b = Ok (v mod 2 ^ 64).
Proof.
  intros m b l (pre & post & Hb) v.
  repeat split; (etrans; [apply (uint_parser_ok _ m b pre l post); done|done]).
Qed.
Print Assumptions C28_parse_unsigned.
Definition ex_num : memory := [[45;49;50;51;52;53;54;55;56;57;48;49;120]].
Definition ex_digits := MkBbuf (Ptr 0 1) 12.
Example C28_example : mu_bbuf_parse_uint8 ex_num ex_digits = Ok (12345678901 mod 256) /\
  mu_bbuf_parse_uint64 ex_num ex_digits = Ok 12345678901 /\ mu_bbuf_parse_uint16 ex_num (MkBbuf (Ptr 0 12) 1) = Ok 0.
Proof. vm_compute. done. Qed.

(** ** C29 *)
(** two's complement truncation to w bits: the unique congruent value in range *)
Definition truncated (w x r : Z) : Prop := - 2 ^ (w - 1) <= r < 2 ^ (w - 1) /\ (r - x) mod 2 ^ w = 0.

Lemma conv_truncated8 x : truncated 8 x (ity_conv I8 x).
Proof.
  split; [apply (in_type_range I8), conv_in_type|].
  change (2 ^ 8) with (ity_mod I8). rewrite Zminus_mod, conv_congr, Z.sub_diag. done.
Qed.
Lemma conv_truncated16 x : truncated 16 x (ity_conv I16 x).
Proof.
  split; [apply (in_type_range I16), conv_in_type|].
  change (2 ^ 16) with (ity_mod I16). rewrite Zminus_mod, conv_congr, Z.sub_diag. done.
Qed.

(** The documented behaviour for int8_t and int16_t, for every input. *)
Theorem C29_parse_narrow : forall m b l, buf m b l ->
  exists r8 r16, mu_bbuf_parse_int8 m b = Ok r8 /\ truncated 8 (signed_value l) r8 /\
    mu_bbuf_parse_int16 m b = Ok r16 /\ truncated 16 (signed_value l) r16.
Proof.
  intros m b l (pre & post & Hb). unfold mu_bbuf_parse_int8, mu_bbuf_parse_int16.
  rewrite (int_parser_narrow I8 m b pre l post) by (done || by left).
  rewrite (int_parser_narrow I16 m b pre l post) by (done || by right).
  eexists _, _. split; [done|]. split; [apply conv_truncated8|]. split; [done|apply conv_truncated16].
Qed.
Print Assumptions C29_parse_narrow.
(** int, int32_t, int64_t: exact when the digits fit. *)
Theorem C29_parse_wide_partial : forall m b l, buf m b l ->
  (magnitude l < 2 ^ 31 -> mu_bbuf_parse_int m b = Ok (signed_value l) /\ mu_bbuf_parse_int32 m b = Ok (signed_value l)) /\
  (magnitude l < 2 ^ 63 -> mu_bbuf_parse_int64 m b = Ok (signed_value l)).
Proof.
  intros m b l (pre & post & Hb). unfold mu_bbuf_parse_int, mu_bbuf_parse_int32, mu_bbuf_parse_int64.
  rewrite (int_parser_wide I32 m b pre l post) by (done || by left).
  rewrite (int_parser_wide I64 m b pre l post) by (done || by right).
  change (smax I32) with (2 ^ 31 - 1). change (smax I64) with (2 ^ 63 - 1).
  split; intros H; zb; try lia; done.
Qed.
Print Assumptions C29_parse_wide_partial.
(** Otherwise the behaviour is undefined (signed overflow), not truncation; this includes
    the representable "-2147483648". *)
Theorem C29_parse_wide_refuted : forall m b l, buf m b l ->
  (2 ^ 31 <= magnitude l -> mu_bbuf_parse_int m b = UB /\ mu_bbuf_parse_int32 m b = UB) /\
  (2 ^ 63 <= magnitude l -> mu_bbuf_parse_int64 m b = UB).
Proof.
  intros m b l (pre & post & Hb). unfold mu_bbuf_parse_int, mu_bbuf_parse_int32, mu_bbuf_parse_int64.
  rewrite (int_parser_wide I32 m b pre l post) by (done || by left).
  rewrite (int_parser_wide I64 m b pre l post) by (done || by right).
  change (smax I32) with (2 ^ 31 - 1). change (smax I64) with (2 ^ 63 - 1).
  split; intros H; zb; try lia; done.
Qed.
Print Assumptions C29_parse_wide_refuted.
Example C29_example :
  mu_bbuf_parse_int [[45;49;50;51;120]] (MkBbuf (Ptr 0 0) 5) = Ok (-123) /\
  mu_bbuf_parse_int8 [[51;48;48]] (MkBbuf (Ptr 0 0) 3) = Ok 44 /\
  mu_bbuf_parse_int [[45;50;49;52;55;52;56;51;54;52;56]] (MkBbuf (Ptr 0 0) 11) = UB /\
  signed_value [45;50;49;52;55;52;56;51;54;52;56] = -2147483648.
Proof. vm_compute. done. Qed.

(** ** C30 *)
Theorem C30_parse_hex : forall char_signed m b l, mem_bytes m -> buf m b l ->
  mu_bbuf_parse_hex char_signed m b = Ok (hex_value (take_while hex_digit l) mod 2 ^ 32).
Proof.
  intros cs m b l Hm (pre & post & Hb). unfold mu_bbuf_parse_hex, mu_bbuf_capacity, mu_bbuf_bytes_ro.
  pose proof (mem_bytes_buf _ _ _ _ _ Hm Hb). pose proof (buf_at_cap _ _ _ _ _ Hb) as [-> Hc]. apply buf_at_at in Hb.
  rewrite (hex_loop_ok cs m l (bytes b) pre post); [done|done|done|lia|lia|lia].
Qed.
Print Assumptions C30_parse_hex.
Example C30_example : mu_bbuf_parse_hex true [[49;65;102;200]] (MkBbuf (Ptr 0 0) 4) = Ok 431 /\
  mu_bbuf_parse_hex false [[49;65;102;200]] (MkBbuf (Ptr 0 0) 4) = Ok 431 /\ mem_bytes [[49;65;102;200]].
Proof. split; [done|]. split; [done|]. unfold mem_bytes, is_byte. repeat constructor; lia. Qed.

(** ** C31 *)
Theorem C31_get_ref : forall m b pre l post index, buf_at m b pre l post -> 0 <= index ->
  (index < capacity b ->
     exists x, l !! Z.to_nat index = Some x /\ mu_bbuf_get_byte m b index = Ok (true, Some x) /\
       exists q, mu_bbuf_ref m b index = Ok (Some q) /\ blk q = blk (bytes b) /\
         off q = Z.of_nat (length pre) + index /\ rd m q 0 = Ok x) /\
  (capacity b <= index -> mu_bbuf_get_byte m b index = Ok (false, None) /\ mu_bbuf_ref m b index = Ok None).
Proof.
  intros m b pre l post index Hb Hi. unfold mu_bbuf_get_byte, mu_bbuf_ref.
  pose proof (buf_at_at _ _ _ _ _ Hb) as Ha. pose proof Hb as (H1 & H2 & H3 & H4). split; intros H.
  - destruct (lookup_lt_is_Some_2 l (Z.to_nat index)) as [x Hx]; [lia|]. exists x. split; [done|].
    destruct (Z.leb_spec (capacity b) index); [lia|]. destruct (Z.ltb_spec index (capacity b)); [|lia].
    split.
    + replace index with (Z.of_nat (Z.to_nat index)) at 1 by lia.
      rewrite (at_rdi m (bytes b) pre (l ++ post) _ x Ha) by (by apply lookup_app_l_Some). done.
    + rewrite <- (take_drop (Z.to_nat index) l), <- app_assoc in Ha.
      destruct (at_padd _ _ _ _ _ index Ha) as (q & -> & Ha' & Hq1 & Hq2); [rewrite take_length; lia|].
      exists q. split; [done|]. split; [done|]. split; [lia|].
      rewrite (drop_S _ _ _ Hx) in Ha'. by apply at_rd in Ha'.
  - destruct (Z.leb_spec (capacity b) index); [|lia]. destruct (Z.ltb_spec index (capacity b)); [lia|]. done.
Qed.
Print Assumptions C31_get_ref.
Theorem C31_put : forall m b pre l post index byte, buf_at m b pre l post -> 0 <= index ->
  (index < capacity b ->
     let m' := with_contents m b pre (<[Z.to_nat index := byte]> l) post in
     mu_bbuf_put_byte m b index byte = Ok (true, m') /\
     buf_at m' b pre (<[Z.to_nat index := byte]> l) post /\
     mu_bbuf_get_byte m' b index = Ok (true, Some byte)) /\
  (capacity b <= index -> mu_bbuf_put_byte m b index byte = Ok (false, m)).
Proof.
  intros m b pre l post index byte Hb Hi. unfold mu_bbuf_put_byte.
  pose proof (buf_at_at _ _ _ _ _ Hb) as Ha. pose proof Hb as (H1 & H2 & H3 & H4). split; intros H.
  - set (m' := with_contents m b pre (<[Z.to_nat index := byte]> l) post). destruct (Z.leb_spec (capacity b) index); [lia|].
    assert (Hb' : buf_at m' b pre (<[Z.to_nat index := byte]> l) post).
    { subst m'. repeat split; rewrite ?insert_length; try done. apply list_lookup_insert. by eapply lookup_lt_Some. }
    split; [|split; [done|]].
    + unfold wr. rewrite H1, H2. rewrite st_ok by (rewrite !app_length; lia). cbn [bind].
      subst m'. unfold with_contents. do 3 f_equal.
      rewrite insert_app_r_alt by lia. f_equal.
      replace (Z.to_nat (Z.of_nat (length pre) + index) - length pre)%nat with (Z.to_nat index) by lia.
      rewrite insert_app_l; [done|lia].
    + destruct (C31_get_ref m' b pre _ post index Hb' Hi) as [X _]. destruct (X H) as (x & Hx & -> & _).
      rewrite list_lookup_insert in Hx by lia. congruence.
  - destruct (Z.leb_spec (capacity b) index); [|lia]. done.
Qed.
Print Assumptions C31_put.
Example C31_example : mu_bbuf_put_byte ex_mem ex_hello 4 33 = Ok (true, [[120;104;101;108;108;33;120]; [104;101;108;112]; [104;101;0]]) /\
  mu_bbuf_put_byte ex_mem ex_hello 5 33 = Ok (false, ex_mem) /\ mu_bbuf_get_byte ex_mem ex_hello 0 = Ok (true, Some 104).
Proof. vm_compute. done. Qed.

(** ** C32 *)
(** The only calls that work are those that copy nothing because the offset lies
    outside the destination (positive) or outside the source (negative). *)
Theorem C32_copy_into_partial : forall p m dst src offset, int_min < offset <= int_max ->
  0 <= capacity dst <= size_max p -> 0 <= capacity src <= size_max p ->
  (0 < offset /\ capacity dst <= offset) \/ (offset < 0 /\ capacity src <= - offset) ->
  mu_bbuf_copy_into p m dst src offset = Ok (0, m).
Proof.
  intros p m dst src offset Ho Hd Hs H. unfold mu_bbuf_copy_into, copy_into_from, mu_bbuf_capacity.
  pose proof (size_mod_big p). unfold int_min, int_max in *. destruct H as [[H1 H2]|[H1 H2]].
  - destruct (Z.ltb_spec 0 offset); [|lia]. rewrite to_size_id by lia. destruct (Z.leb_spec (capacity dst) offset); [done|lia].
  - destruct (Z.ltb_spec 0 offset); [lia|]. destruct (Z.ltb_spec offset 0); [|lia].
    rewrite ichk_ok by (unfold int_min, int_max; lia). cbn [bind]. rewrite to_size_id by lia.
    destruct (Z.leb_spec (capacity src) (- offset)); [done|lia].
Qed.
Print Assumptions C32_copy_into_partial.
(** Every other call reads an uninitialised variable (or negates INT_MIN): undefined. *)
Theorem C32_copy_into_refuted : forall p m dst src offset, int_min <= offset <= int_max ->
  0 <= capacity dst <= size_max p -> 0 <= capacity src <= size_max p ->
  ~ ((0 < offset /\ capacity dst <= offset) \/ (int_min < offset < 0 /\ capacity src <= - offset)) ->
  mu_bbuf_copy_into p m dst src offset = UB.
Proof.
  intros p m dst src offset Ho Hd Hs H. unfold mu_bbuf_copy_into, copy_into_from, mu_bbuf_capacity.
  pose proof (size_mod_big p). unfold int_min, int_max, size_max in *.
  destruct (Z.ltb_spec 0 offset).
  - rewrite to_size_id by lia. destruct (Z.leb_spec (capacity dst) offset); [|done]. exfalso. apply H. left. lia.
  - destruct (Z.ltb_spec offset 0); [|done].
    destruct (decide (offset = -2147483648)) as [->|].
    { rewrite ichk_ub by (unfold int_min, int_max; lia). done. }
    rewrite ichk_ok by (unfold int_min, int_max; lia). cbn [bind]. rewrite to_size_id by lia.
    destruct (Z.leb_spec (capacity src) (- offset)); [exfalso; apply H; right; lia|].
    unfold copy_tail. cbn [rdvar bind]. rewrite to_size_id by lia.
    destruct (Z.eqb_spec (capacity src - - offset) 0); [lia|done].
Qed.
Print Assumptions C32_copy_into_refuted.
Example C32_example : mu_bbuf_copy_into P64 ex_mem ex_hello ex_help 0 = UB /\
  mu_bbuf_copy_into P64 ex_mem ex_hello ex_help 1 = UB /\
  mu_bbuf_copy_into P64 ex_mem ex_hello ex_help 5 = Ok (0, ex_mem).
Proof. vm_compute. done. Qed.

(** ** C33 *)
Theorem C33_reverse_partial : forall p m b pre l post, buf_at m b pre l post -> l <> [] ->
  mu_bbuf_reverse p m b = Ok (with_contents m b pre (reverse l) post) /\
  mu_bbuf_reverse p (with_contents m b pre (reverse l) post) b = Ok m.
Proof.
  intros p m b pre l post Hb Hl. split; [by apply reverse_ok|].
  pose proof Hb as (H1 & H2 & H3 & H4).
  rewrite (reverse_ok p _ b pre (reverse l) post).
  - f_equal. unfold with_contents. rewrite list_insert_insert, reverse_involutive. by apply list_insert_id.
  - repeat split; rewrite ?reverse_length; try done. apply list_lookup_insert. by eapply lookup_lt_Some.
  - intros E. apply (f_equal length) in E. rewrite reverse_length in E. destruct l; done.
Qed.
Print Assumptions C33_reverse_partial.
(** For an empty buffer the C code forms the pointer &bytes[SIZE_MAX]: undefined. *)
Theorem C33_reverse_empty_refuted : forall p m b pre post, buf_at m b pre [] post ->
  Z.of_nat (length (pre ++ post)) < size_max p -> mu_bbuf_reverse p m b = UB.
Proof.
  intros p m b pre post Hb Hsz. pose proof (buf_at_at _ _ _ _ _ Hb) as Ha.
  unfold mu_bbuf_reverse. destruct (at_padd m (bytes b) pre [] post 0 Ha eq_refl) as (f & -> & _). cbn [bind].
  destruct Hb as (H1 & H2 & H3 & H4). rewrite H3. simpl length. change (Z.of_nat 0 - 1) with (-1). rewrite to_size_neg1.
  unfold padd. rewrite H1, H2. simpl app. zb; simpl; try done. lia.
Qed.
Print Assumptions C33_reverse_empty_refuted.
Example C33_example : mu_bbuf_reverse P64 ex_mem ex_hello = Ok [[120;111;108;108;101;104;120]; [104;101;108;112]; [104;101;0]] /\
  mu_bbuf_reverse P32 ex_mem (MkBbuf (Ptr 0 3) 0) = UB.
Proof. vm_compute. done. Qed.

(** ** C34 *)
Lemma rot_dec_ok cap : 0 < cap <= int_max -> forall fuel shift, int_min <= shift <= int_max ->
  (Z.to_nat shift <= fuel)%nat ->
  exists s, rot_dec fuel shift cap = Ok s /\ s mod cap = shift mod cap /\ s < cap /\ int_min <= s /\ (0 <= shift -> 0 <= s) /\ (shift < 0 -> s = shift).
Proof.
  intros Hc. induction fuel as [|fuel IH]; intros shift Hs Hf; cbn [rot_dec].
  - destruct (Z.leb_spec cap shift); [lia|]. eexists. split; [done|]. repeat split; try lia.
  - destruct (Z.leb_spec cap shift).
    + unfold isub. rewrite ichk_ok by (unfold int_min, int_max in *; lia). cbn [bind].
      destruct (IH (shift - cap)) as (s & -> & Hm & Hlt & Hlo & Hp & _); [unfold int_min, int_max in *; lia|lia|].
      exists s. split; [done|]. split; [|lia]. rewrite Hm. rewrite <- (Z.mod_add (shift - cap) 1) by lia. f_equal. lia.
    + eexists. split; [done|]. repeat split; try lia.
Qed.
Lemma rot_inc_ok cap : 0 < cap <= int_max -> forall fuel shift, int_min <= shift < cap ->
  (Z.to_nat (- shift) <= fuel)%nat ->
  rot_inc fuel shift cap = Ok (shift mod cap).
Proof.
  intros Hc. induction fuel as [|fuel IH]; intros shift Hs Hf; cbn [rot_inc].
  - destruct (Z.ltb_spec shift 0); [lia|]. by rewrite Z.mod_small by lia.
  - destruct (Z.ltb_spec shift 0).
    + unfold iadd. rewrite ichk_ok by (unfold int_min, int_max in *; lia). cbn [bind].
      rewrite IH; [|unfold int_min, int_max in *; lia|lia]. f_equal.
      rewrite <- (Z.mod_add shift 1) by lia. f_equal. lia.
    + by rewrite Z.mod_small by lia.
Qed.

Definition rot (l : list Z) (s : nat) : list Z := drop (length l - s) l ++ take (length l - s) l.
Lemma rot_rotated l (s : Z) : l <> [] -> rotated l (rot l (Z.to_nat (s mod Z.of_nat (length l)))) s.
Proof.
  intros Hl. set (n := Z.of_nat (length l)). assert (Hn : 0 < n) by (subst n; destruct l; simpl; [done|lia]).
  pose proof (Z.mod_pos_bound s n Hn) as Hb. set (k := s mod n) in *.
  split.
  - unfold rot. rewrite app_length, drop_length, take_length. lia.
  - intros i x Hx. pose proof (lookup_lt_Some _ _ _ Hx) as Hi. fold n.
    rewrite <- (Zplus_mod_idemp_r s). fold k. unfold rot.
    destruct (decide (Z.of_nat i + k < n)).
    + rewrite Z.mod_small by lia. rewrite lookup_app_r by (rewrite drop_length; lia).
      rewrite drop_length, lookup_take by lia. rewrite <- Hx. f_equal. lia.
    + assert (E : (Z.of_nat i + k) mod n = Z.of_nat i + k - n).
      { symmetry. apply Z.mod_unique with (q := 1); lia. }
      rewrite E, lookup_app_l by (rewrite drop_length; lia). rewrite lookup_drop, <- Hx. f_equal. lia.
Qed.

Lemma rotated_unique l l1 l2 s : rotated l l1 s -> rotated l l2 s -> l1 = l2.
Proof.
  intros [H1 H2] [H3 H4]. apply list_eq. intros j.
  destruct (decide (j < length l)%nat) as [Hj|Hj].
  - set (n := Z.of_nat (length l)) in *. assert (0 < n) by (subst n; lia).
    set (i := Z.to_nat ((Z.of_nat j - s) mod n)).
    pose proof (Z.mod_pos_bound (Z.of_nat j - s) n ltac:(lia)).
    destruct (lookup_lt_is_Some_2 l i) as [x Hx]; [subst i n; lia|].
    assert (Hz : Z.to_nat ((Z.of_nat i + s) mod n) = j).
    { subst i. rewrite Z2Nat.id by lia. rewrite Zplus_mod_idemp_l.
      replace (Z.of_nat j - s + s) with (Z.of_nat j) by lia. rewrite Z.mod_small by (subst n; lia). lia. }
    apply H2 in Hx as A. apply H4 in Hx as B. rewrite Hz in A, B. congruence.
  - rewrite !lookup_ge_None_2 by lia. done.
Qed.
Lemma rotated_compose l l1 l2 s t : rotated l l1 s -> rotated l1 l2 t -> rotated l l2 (s + t).
Proof.
  intros [H1 H2] [H3 H4]. split; [congruence|]. intros i x Hx. pose proof (lookup_lt_Some _ _ _ Hx).
  apply H2 in Hx as A. apply H4 in A. rewrite H1 in A.
  pose proof (Z.mod_pos_bound (Z.of_nat i + s) (Z.of_nat (length l)) ltac:(lia)).
  rewrite Z2Nat.id in A by lia. rewrite Zplus_mod_idemp_l in A. rewrite <- A. do 3 f_equal. lia.
Qed.

Lemma rrotate_exact p m b pre l post shift : buf_at m b pre l post -> l <> [] -> int_min <= shift <= int_max ->
  forall fuel, (Z.to_nat (Z.abs shift) <= fuel)%nat ->
  mu_bbuf_rrotate p fuel m b shift = Ok (with_contents m b pre (rot l (Z.to_nat (shift mod Z.of_nat (length l)))) post).
Proof.
  intros Hb Hl Hsh fuel Hf. pose proof Hb as (H1 & H2 & H3 & H4).
  pose proof (buf_at_cap _ _ _ _ _ Hb) as [Hc1 Hc]. unfold mu_bbuf_rrotate. rewrite Hc1.
  assert (Hn : 0 < Z.of_nat (length l)) by (destruct l; simpl; [done|lia]).
  destruct (rot_dec_ok (Z.of_nat (length l)) ltac:(lia) fuel shift Hsh ltac:(lia)) as (s1 & -> & Hm & Hlt & Hlo & Hp & Hq). cbn [bind].
  rewrite (rot_inc_ok (Z.of_nat (length l)) ltac:(lia) fuel s1 ltac:(lia)) by lia.
  cbn [bind]. rewrite Hm. set (k := shift mod Z.of_nat (length l)).
  pose proof (Z.mod_pos_bound shift (Z.of_nat (length l)) Hn) as Hk. fold k in Hk.
  destruct (Z.ltb_spec 0 k).
  2:{ f_equal. assert (k = 0) as -> by lia. unfold with_contents, rot. simpl Z.to_nat.
      rewrite Nat.sub_0_r, drop_all, firstn_all. simpl. by rewrite list_insert_id. }
  rewrite (reverse_ok p m b pre l post Hb Hl). cbn [bind].
  set (m1 := with_contents m b pre (reverse l) post).
  assert (Hlt0 : (blk (bytes b) < length m)%nat) by (by eapply lookup_lt_Some).
  assert (Hb1 : buf_at m1 b pre (reverse l) post).
  { subst m1. repeat split; rewrite ?reverse_length; try done. by apply list_lookup_insert. }
  destruct (C26_bisect_partial p m1 [b;b;b] (Some 1%nat) (Some 2%nat) 0%nat b pre (reverse l) post k) as
    (e' & bl & br & -> & [Hbl1 Hbl] & [Hbr1 Hbr] & He1 & He2 & _); try done.
  { intros x [= <-]. by eexists. } { intros x [= <-]. by eexists. }
  { intros x [= <-]. done. } { unfold int_min, int_max in *. lia. } { rewrite ?reverse_length. lia. }
  cbn [bind]. unfold sget. rewrite (He1 1%nat eq_refl), (He2 2%nat eq_refl). cbn [bind].
  rewrite reverse_length in *.
  assert (Hni : norm_index (Z.of_nat (length l)) k = k).
  { unfold norm_index. destruct (decide (k < 0)); lia. }
  rewrite Hni in *. set (K := Z.to_nat k) in *. rewrite app_nil_r in Hbl.
  rewrite (reverse_ok p m1 bl _ _ _ Hbl).
  2:{ intros E. apply (f_equal length) in E. rewrite take_length, reverse_length in E. simpl in E. lia. }
  cbn [bind]. unfold with_contents. rewrite Hbl1.
  set (m2 := <[_ := _]> m1).
  assert (Hbr2 : buf_at m2 br (pre ++ reverse (take K (reverse l))) (drop K (reverse l)) ([] ++ post)).
  { destruct Hbr as (A & B & C & D). repeat split; try done.
    - rewrite Hbr1. subst m2. rewrite list_lookup_insert; [by rewrite <- app_assoc|]. subst m1.
      unfold with_contents. by rewrite insert_length.
    - rewrite B, !app_length, reverse_length. done. }
  rewrite (reverse_ok p m2 br _ _ _ Hbr2).
  2:{ intros E. apply (f_equal length) in E. rewrite drop_length, reverse_length in E. simpl in E. lia. }
  f_equal. unfold with_contents. rewrite Hbr1. subst m2 m1. unfold with_contents. rewrite !list_insert_insert.
  f_equal. rewrite app_nil_l, <- app_assoc. f_equal. rewrite app_assoc. f_equal. unfold rot. f_equal.
  - unfold reverse. rewrite <- !rev_alt, firstn_rev, rev_involutive. done.
  - unfold reverse. rewrite <- !rev_alt, skipn_rev, rev_involutive. done.
Qed.

(** termination with explicit iteration bound, for every non-empty buffer *)
Theorem C34_rrotate_partial : forall p m b pre l post shift,
  buf_at m b pre l post -> l <> [] -> int_min <= shift <= int_max ->
  exists l' N, rotated l l' shift /\
    forall fuel, (N <= fuel)%nat -> mu_bbuf_rrotate p fuel m b shift = Ok (with_contents m b pre l' post).
Proof.
  intros p m b pre l post shift Hb Hl Hs. eexists _, _.
  split; [|intros fuel Hf; by apply rrotate_exact]. by apply rot_rotated.
Qed.
Print Assumptions C34_rrotate_partial.
Theorem C34_rrotate_compose : forall p m b pre l post s t fuel m1 m2,
  buf_at m b pre l post -> l <> [] -> int_min <= s <= int_max -> int_min <= t <= int_max -> int_min <= s + t <= int_max ->
  (Z.to_nat (Z.abs s) <= fuel)%nat -> (Z.to_nat (Z.abs t) <= fuel)%nat -> (Z.to_nat (Z.abs (s + t)) <= fuel)%nat ->
  mu_bbuf_rrotate p fuel m b s = Ok m1 -> mu_bbuf_rrotate p fuel m1 b t = Ok m2 ->
  mu_bbuf_rrotate p fuel m b (s + t) = Ok m2.
Proof.
  intros p m b pre l post s t fuel m1 m2 Hb Hl Hs Ht Hst F1 F2 F3 E1 E2.
  pose proof Hb as (H1 & H2 & H3 & H4).
  rewrite (rrotate_exact p m b pre l post s Hb Hl Hs fuel F1) in E1. injection E1 as <-.
  set (l1 := rot l _) in *. pose proof (rot_rotated l s Hl) as R1. fold l1 in R1.
  assert (Hlen : length l1 = length l) by (by destruct R1).
  assert (Hl1 : l1 <> []). { intros E. rewrite E in Hlen. destruct l; done. }
  assert (Hb1 : buf_at (with_contents m b pre l1 post) b pre l1 post).
  { repeat split; rewrite ?Hlen; try done. apply list_lookup_insert. by eapply lookup_lt_Some. }
  rewrite (rrotate_exact p _ b pre l1 post t Hb1 Hl1 Ht fuel F2) in E2. injection E2 as <-.
  rewrite (rrotate_exact p m b pre l post (s + t) Hb Hl Hst fuel F3). f_equal.
  unfold with_contents. rewrite list_insert_insert. do 3 f_equal.
  eapply rotated_unique; [by apply rot_rotated|]. eapply rotated_compose; [exact R1|]. by apply rot_rotated.
Qed.
Print Assumptions C34_rrotate_compose.
(** On an empty buffer it never returns. *)
Theorem C34_rrotate_empty_refuted : forall p m q shift fuel, mu_bbuf_rrotate p fuel m (MkBbuf q 0) shift = NoFuel \/
  ~ (int_min <= shift <= int_max).
Proof.
  intros p m q shift fuel. destruct (decide (int_min <= shift <= int_max)) as [Hs|]; [left|by right].
  unfold mu_bbuf_rrotate. simpl capacity. change (to_int 0) with 0.
  destruct (decide (0 <= shift)) as [Hp|Hn].
  - assert (rot_dec fuel shift 0 = NoFuel) as ->; [|done].
    induction fuel as [|fuel IH]; cbn [rot_dec]; (destruct (Z.leb_spec 0 shift); [|lia]); [done|].
    unfold isub. rewrite Z.sub_0_r, ichk_ok by done. done.
  - assert (rot_dec fuel shift 0 = Ok shift) as ->.
    { destruct fuel; cbn [rot_dec]; (destruct (Z.leb_spec 0 shift); [lia|done]). }
    cbn [bind]. assert (rot_inc fuel shift 0 = NoFuel) as ->; [|done].
    induction fuel as [|fuel IH]; cbn [rot_inc]; (destruct (Z.ltb_spec shift 0); [|lia]); [done|].
    unfold iadd. rewrite Z.add_0_r, ichk_ok by done. done.
Qed.
Print Assumptions C34_rrotate_empty_refuted.
Example C34_example :
  mu_bbuf_rrotate P64 20 ex_mem ex_hello 2 = Ok [[120;108;111;104;101;108;120]; [104;101;108;112]; [104;101;0]] /\
  mu_bbuf_rrotate P64 20 ex_mem ex_hello (-8) = mu_bbuf_rrotate P64 20 ex_mem ex_hello 2 /\
  rotated [104;101;108;108;111] [108;111;104;101;108] 2.
Proof.
  split; [done|]. split; [done|]. apply (rot_rotated [104;101;108;108;111] 2). done.
Qed.

(** ** C35 *)
Lemma drop_app_add' {A} (l k : list A) n : drop (length l + n) (l ++ k) = drop n k.
Proof. rewrite drop_app_ge by lia. f_equal. lia. Qed.
Lemma take_app_add' {A} (l k : list A) n : take (length l + n) (l ++ k) = l ++ take n k.
Proof. rewrite take_app_ge by lia. do 2 f_equal. lia. Qed.
Lemma mset_ok m b pre l post v : m !! blk b = Some (pre ++ l ++ post) -> off b = Z.of_nat (length pre) ->
  mset m b v (Z.of_nat (length l)) = Ok (<[blk b := pre ++ replicate (length l) v ++ post]> m).
Proof.
  intros H1 H2. unfold mset. rewrite H1, H2, !app_length. zb; simpl; try lia.
  do 2 f_equal. rewrite Nat2Z.id, take_app, Nat2Z.id. f_equal. f_equal.
  rewrite app_assoc, drop_app_alt; [done|]. rewrite app_length. lia.
Qed.

Theorem C35_clear : forall m b pre l post, buf_at m b pre l post ->
  mu_bbuf_clear m b = Ok (with_contents m b pre (replicate (length l) 0) post).
Proof.
  intros m b pre l post (H1 & H2 & H3 & H4). unfold mu_bbuf_clear. rewrite H3. by apply mset_ok.
Qed.
Print Assumptions C35_clear.

(** every shift but INT_MIN *)
Theorem C35_rshift_partial : forall p m b pre l post shift, buf_at m b pre l post -> int_min < shift <= int_max ->
  exists l', shifted l l' shift /\ mu_bbuf_rshift p m b shift = Ok (with_contents m b pre l' post).
Proof.
  intros p m b pre l post shift Hb Hsh. pose proof Hb as (H1 & H2 & H3 & H4).
  pose proof (size_mod_big p). set (n := length l) in *.
  unfold mu_bbuf_rshift. rewrite H3.
  set (sl := shift <? 0). set (a := Z.abs shift).
  assert (E : (if sl then let* s := ichk (- shift) in Ok (true, s) else Ok (false, shift)) = Ok (sl, a)).
  { subst sl a. destruct (Z.ltb_spec shift 0).
    - rewrite ichk_ok by (unfold int_min, int_max in *; lia). cbn [bind]. do 2 f_equal. lia.
    - do 2 f_equal. lia. }
  rewrite E. cbn [bind]. rewrite (to_size_id p a) by (unfold int_min, int_max in *; lia).
  destruct (Z.eqb_spec a 0) as [Ha0|Ha0].
  { exists l. split.
    - split; [done|]. intros i Hi. assert (shift = 0) as -> by lia. rewrite decide_True by lia. f_equal. lia.
    - unfold with_contents. by rewrite list_insert_id. }
  destruct (Z.leb_spec (Z.of_nat n) a) as [Hna|Hna].
  { exists (replicate n 0). split; [|by apply C35_clear].
    split; [by rewrite replicate_length|]. intros i Hi. rewrite lookup_replicate_2 by done.
    destruct (decide _) as [Hd|Hd]; [|done]. lia. }
  assert (Hlt0 : (blk (bytes b) < length m)%nat) by (by eapply lookup_lt_Some).
  rewrite (to_size_id p (Z.of_nat n - a)) by (unfold int_max in *; lia).
  set (A := Z.to_nat a).
  assert (Hpa : padd m (bytes b) a = Ok (Ptr (blk (bytes b)) (off (bytes b) + a))).
  { unfold padd. rewrite H1, H2, !app_length. fold n. zb; simpl; try lia; done. }
  rewrite Hpa. cbn [bind].
  assert (Hpl : length (pre ++ l ++ post) = (length pre + (n + length post))%nat) by (by rewrite !app_length).
  destruct sl eqn:Esl; subst sl.
  - apply Z.ltb_lt in Esl.
    unfold mmove. simpl blk. rewrite Nat.eqb_refl, H1. simpl off. rewrite H2.
    rewrite memmove_ok by lia. cbn [bind].
    exists (drop A l ++ replicate A 0). split.
    + split; [rewrite app_length, drop_length, replicate_length; lia|]. intros i Hi.
      destruct (decide _) as [Hd|Hd].
      * rewrite lookup_app_l by (rewrite drop_length; lia). rewrite lookup_drop. f_equal. lia.
      * rewrite lookup_app_r by (rewrite drop_length; lia). rewrite drop_length, lookup_replicate_2; [done|lia].
    + assert (Hblk : take (Z.to_nat (Z.of_nat (length pre))) (pre ++ l ++ post) ++
         take (Z.to_nat (Z.of_nat n - a)) (drop (Z.to_nat (Z.of_nat (length pre) + a)) (pre ++ l ++ post)) ++
         drop (Z.to_nat (Z.of_nat (length pre) + (Z.of_nat n - a))) (pre ++ l ++ post) =
         (pre ++ drop A l) ++ drop (n - A) l ++ post).
      { rewrite Nat2Z.id, take_app. rewrite <- app_assoc. f_equal.
        replace (Z.to_nat (Z.of_nat (length pre) + a)) with (length pre + A)%nat by lia.
        rewrite drop_app_add'. 
        replace (Z.to_nat (Z.of_nat (length pre) + (Z.of_nat n - a))) with (length pre + (n - A))%nat by lia.
        rewrite drop_app_add'.
        rewrite (drop_app_le l post A) by lia. rewrite (drop_app_le l post (n - A)) by lia.
        replace (Z.to_nat (Z.of_nat n - a)) with (length (drop A l)) by (rewrite drop_length; lia).
        by rewrite take_app. }
      rewrite Hblk.
      set (m1 := <[_ := _]> m).
      assert (Hm1 : m1 !! blk (bytes b) = Some ((pre ++ drop A l) ++ drop (n - A) l ++ post)) by (by apply list_lookup_insert).
      assert (Hp2 : padd m1 (bytes b) (Z.of_nat n - a) = Ok (Ptr (blk (bytes b)) (off (bytes b) + (Z.of_nat n - a)))).
      { unfold padd. rewrite Hm1, H2, !app_length, !drop_length. fold n. zb; simpl; try lia; done. }
      rewrite Hp2. cbn [bind].
      assert (Hla : length (drop (n - A) l) = A) by (rewrite drop_length; fold n; lia).
      pose proof (mset_ok m1 (Ptr (blk (bytes b)) (off (bytes b) + (Z.of_nat n - a))) (pre ++ drop A l) (drop (n - A) l) post 0) as X.
      rewrite Hla in X. replace (Z.of_nat A) with a in X by lia. rewrite X; [|done|].
      * unfold with_contents. subst m1. simpl blk. rewrite list_insert_insert. by rewrite <- !app_assoc.
      * simpl. rewrite app_length, drop_length. fold n. lia.
  - apply Z.ltb_ge in Esl.
    unfold mmove. simpl blk. rewrite Nat.eqb_refl, H1. simpl off. rewrite H2.
    rewrite memmove_ok by lia. cbn [bind].
    exists (replicate A 0 ++ take (n - A) l). split.
    + split; [rewrite app_length, take_length, replicate_length; lia|]. intros i Hi.
      destruct (decide _) as [Hd|Hd].
      * rewrite lookup_app_r by (rewrite replicate_length; lia). rewrite replicate_length, lookup_take by lia. f_equal. lia.
      * rewrite lookup_app_l by (rewrite replicate_length; lia). rewrite lookup_replicate_2; [done|lia].
    + assert (Hblk : take (Z.to_nat (Z.of_nat (length pre) + a)) (pre ++ l ++ post) ++
         take (Z.to_nat (Z.of_nat n - a)) (drop (Z.to_nat (Z.of_nat (length pre))) (pre ++ l ++ post)) ++
         drop (Z.to_nat (Z.of_nat (length pre) + a + (Z.of_nat n - a))) (pre ++ l ++ post) =
         pre ++ take A l ++ (take (n - A) l ++ post)).
      { replace (Z.to_nat (Z.of_nat (length pre) + a)) with (length pre + A)%nat by lia.
        rewrite take_app_add'. rewrite <- app_assoc. f_equal.
        rewrite (take_app_le l post A) by lia. f_equal.
        rewrite Nat2Z.id, drop_app.
        rewrite take_app_le by lia. replace (Z.to_nat (Z.of_nat n - a)) with (n - A)%nat by lia. f_equal.
        replace (Z.to_nat (Z.of_nat (length pre) + a + (Z.of_nat n - a))) with (length (pre ++ l)) by (rewrite app_length; fold n; lia).
        rewrite app_assoc. by rewrite drop_app. }
      rewrite Hblk.
      set (m1 := <[_ := _]> m).
      assert (Hm1 : m1 !! blk (bytes b) = Some (pre ++ take A l ++ (take (n - A) l ++ post))) by (by apply list_lookup_insert).
      assert (Hla : length (take A l) = A) by (rewrite take_length; fold n; lia).
      pose proof (mset_ok m1 (bytes b) pre (take A l) (take (n - A) l ++ post) 0 Hm1 H2) as X.
      rewrite Hla in X. replace (Z.of_nat A) with a in X by lia. rewrite X.
      unfold with_contents. subst m1. rewrite list_insert_insert. by rewrite <- !app_assoc.
Qed.
Print Assumptions C35_rshift_partial.
(** INT_MIN cannot be negated *)
Theorem C35_rshift_int_min_refuted : forall p m b, mu_bbuf_rshift p m b int_min = UB.
Proof. reflexivity. Qed.
Print Assumptions C35_rshift_int_min_refuted.
Example C35_example :
  mu_bbuf_rshift P64 ex_mem ex_hello 2 = Ok [[120;0;0;104;101;108;120]; [104;101;108;112]; [104;101;0]] /\
  mu_bbuf_rshift P64 ex_mem ex_hello (-1) = Ok [[120;101;108;108;111;0;120]; [104;101;108;112]; [104;101;0]] /\
  mu_bbuf_rshift P64 ex_mem ex_hello (-7) = Ok [[120;0;0;0;0;0;120]; [104;101;108;112]; [104;101;0]].
Proof. vm_compute. done. Qed.
