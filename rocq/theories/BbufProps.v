(** * Properties C21-C27 (mu_bbuf: comparison, searches, slices, trimming) *)
From Verif Require Import CSem BbufModel BbufSpec BbufProofs BbufProofs2.

Lemma buf_cstr_like m b2 pre2 l2 post2 : buf_at m b2 pre2 l2 post2 ->
  to_int (mu_bbuf_capacity b2) = Z.of_nat (length l2) /\
  buf_at m (MkBbuf (bytes b2) (Z.of_nat (length l2))) pre2 l2 post2.
Proof.
  intros H. pose proof (buf_at_cap _ _ _ _ _ H) as [H1 H2]. split; [done|].
  destruct H as (A & B & C & D). repeat split; done.
Qed.
Lemma cstr_cap (s : list Z) : Z.of_nat (length s) <= int_max -> to_int (Z.of_nat (length s)) = Z.of_nat (length s).
Proof. intros. apply to_int_id. unfold int_min. lia. Qed.

(** ** C21 *)
Theorem C21_compare_lexicographic : forall m b1 l1 b2 l2,
  mem_bytes m -> buf m b1 l1 -> buf m b2 l2 ->
  exists r, mu_bbuf_compare m b1 b2 = Ok r /\
    (r < 0 <-> lex_lt l1 l2) /\ (r = 0 <-> l1 = l2) /\ (0 < r <-> lex_lt l2 l1) /\
    mu_bbuf_matches m b1 b2 = Ok (bool_decide (l1 = l2)).
Proof.
  intros m b1 l1 b2 l2 Hm (pre1 & post1 & H1) (pre2 & post2 & H2).
  apply buf_cstr_like in H2 as [Hc H2]. unfold mu_bbuf_compare, mu_bbuf_matches, mu_bbuf_bytes_ro. rewrite Hc.
  rewrite (compare_ok _ _ _ _ _ _ _ _ _ Hm H1 H2). exists (lexcmp l1 l2).
  destruct (lexcmp_spec l1 l2) as (A & B & C). split; [done|]. split; [done|]. split; [done|]. split; [done|].
  cbn [bind]. f_equal. apply eq_true_iff_eq. rewrite Z.eqb_eq, bool_decide_eq_true. done.
Qed.
Print Assumptions C21_compare_lexicographic.
Theorem C21_compare_cstr : forall m b1 l1 q s,
  mem_bytes m -> buf m b1 l1 -> cstr_at m q s ->
  exists r, mu_bbuf_compare_cstr m b1 q = Ok r /\
    (r < 0 <-> lex_lt l1 s) /\ (r = 0 <-> l1 = s) /\ (0 < r <-> lex_lt s l1) /\
    mu_bbuf_matches_cstr m b1 q = Ok (bool_decide (l1 = s)).
Proof.
  intros m b1 l1 q s Hm (pre1 & post1 & H1) Hs.
  destruct (cstr_buf _ _ _ Hs) as (pre2 & post2 & H2).
  unfold mu_bbuf_compare_cstr, mu_bbuf_matches_cstr. rewrite (strlen_ok _ _ _ Hs). cbn [bind].
  rewrite cstr_cap by (by destruct H2 as (_ & _ & _ & ?)).
  rewrite (compare_ok _ _ _ _ _ _ _ _ _ Hm H1 H2). exists (lexcmp l1 s).
  destruct (lexcmp_spec l1 s) as (A & B & C). split; [done|]. split; [done|]. split; [done|]. split; [done|].
  cbn [bind]. f_equal. apply eq_true_iff_eq. rewrite Z.eqb_eq, bool_decide_eq_true. done.
Qed.
Print Assumptions C21_compare_cstr.
(** a total order, stated on the values returned *)
Theorem C21_compare_total_order : forall m b1 l1 b2 l2 b3 l3,
  mem_bytes m -> buf m b1 l1 -> buf m b2 l2 -> buf m b3 l3 ->
  exists r11 r12 r21 r23 r13,
    mu_bbuf_compare m b1 b1 = Ok r11 /\ mu_bbuf_compare m b1 b2 = Ok r12 /\ mu_bbuf_compare m b2 b1 = Ok r21 /\
    mu_bbuf_compare m b2 b3 = Ok r23 /\ mu_bbuf_compare m b1 b3 = Ok r13 /\
    r11 = 0 /\ (r12 < 0 <-> 0 < r21) /\ (r12 = 0 <-> r21 = 0) /\
    (r12 <= 0 -> r23 <= 0 -> r13 <= 0) /\ (r12 < 0 -> r23 <= 0 -> r13 < 0) /\ (r12 <= 0 -> r23 < 0 -> r13 < 0).
Proof.
  intros m b1 l1 b2 l2 b3 l3 Hm H1 H2 H3.
  destruct (C21_compare_lexicographic m b1 l1 b1 l1 Hm H1 H1) as (r11 & E11 & A11 & B11 & G11 & _).
  destruct (C21_compare_lexicographic m b1 l1 b2 l2 Hm H1 H2) as (r12 & E12 & A12 & B12 & G12 & _).
  destruct (C21_compare_lexicographic m b2 l2 b1 l1 Hm H2 H1) as (r21 & E21 & A21 & B21 & G21 & _).
  destruct (C21_compare_lexicographic m b2 l2 b3 l3 Hm H2 H3) as (r23 & E23 & A23 & B23 & G23 & _).
  destruct (C21_compare_lexicographic m b1 l1 b3 l3 Hm H1 H3) as (r13 & E13 & A13 & B13 & G13 & _).
  exists r11, r12, r21, r23, r13. do 5 (split; [done|]).
  split; [by apply B11|]. split; [by rewrite A12, G21|]. split; [by rewrite B12, B21|].
  assert (D12 : r12 <= 0 -> lex_lt l1 l2 \/ l1 = l2) by (intros; destruct (decide (r12 = 0)); [right; by apply B12|left; apply A12; lia]).
  assert (D23 : r23 <= 0 -> lex_lt l2 l3 \/ l2 = l3) by (intros; destruct (decide (r23 = 0)); [right; by apply B23|left; apply A23; lia]).
  split; [|split].
  - intros Ha Hb. destruct (D12 Ha) as [P|P], (D23 Hb) as [Q|Q]; subst.
    + enough (r13 < 0) by lia. apply A13. by eapply lex_lt_trans.
    + enough (r13 < 0) by lia. by apply A13.
    + enough (r13 < 0) by lia. by apply A13.
    + enough (r13 = 0) by lia. by apply B13.
  - intros Ha Hb. apply A12 in Ha. apply A13. destruct (D23 Hb) as [Q|Q]; subst; [by eapply lex_lt_trans|done].
  - intros Ha Hb. apply A23 in Hb. apply A13. destruct (D12 Ha) as [Q|Q]; subst; [by eapply lex_lt_trans|done].
Qed.
Print Assumptions C21_compare_total_order.

(** Buffers above INT_MAX bytes are not compared correctly (64-bit size_t): one of
    2^32 bytes "matches" the empty buffer.  (The API's indices are ints.) *)
Theorem C21_huge_refuted : forall m q1 q2, mu_bbuf_matches m (MkBbuf q1 (2 ^ 32)) (MkBbuf q2 0) = Ok true.
Proof. reflexivity. Qed.
Print Assumptions C21_huge_refuted.

(** concrete buffers used by the examples: "xhellox" with a view of "hello", "help", C string "he" *)
Definition ex_mem : memory := [[120;104;101;108;108;111;120]; [104;101;108;112]; [104;101;0]].
Definition ex_hello := MkBbuf (Ptr 0 1) 5.
Definition ex_help := MkBbuf (Ptr 1 0) 4.
Definition ex_ll := MkBbuf (Ptr 0 3) 2.
Lemma ex_hello_at : buf_at ex_mem ex_hello [120] [104;101;108;108;111] [120].
Proof. repeat split; vm_compute; congruence. Qed.
Lemma ex_help_at : buf_at ex_mem ex_help [] [104;101;108;112] [].
Proof. repeat split; vm_compute; congruence. Qed.
Lemma ex_ll_at : buf_at ex_mem ex_ll [120;104;101] [108;108] [111;120].
Proof. repeat split; vm_compute; congruence. Qed.
Lemma ex_cstr : cstr_at ex_mem (Ptr 2 0) [104;101].
Proof. exists [], []. repeat split; [|vm_compute; congruence]. repeat constructor; done. Qed.
Lemma ex_bytes : mem_bytes ex_mem.
Proof. unfold mem_bytes, is_byte. repeat constructor; lia. Qed.
Example C21_example : mu_bbuf_compare ex_mem ex_hello ex_help = Ok (-4) /\
  mu_bbuf_matches ex_mem ex_hello ex_hello = Ok true /\ mu_bbuf_compare_cstr ex_mem ex_hello (Ptr 2 0) = Ok 3.
Proof. vm_compute. done. Qed.

(** ** C22 *)
Theorem C22_prefix_suffix : forall m b1 l1 b2 l2, buf m b1 l1 -> buf m b2 l2 ->
  exists r1 r2, mu_bbuf_has_prefix m b1 b2 = Ok r1 /\ mu_bbuf_has_suffix m b1 b2 = Ok r2 /\
    (r1 = true <-> exists rest, l1 = l2 ++ rest) /\ (r2 = true <-> exists rest, l1 = rest ++ l2).
Proof.
  intros m b1 l1 b2 l2 (pre1 & post1 & H1) (pre2 & post2 & H2).
  apply buf_cstr_like in H2 as [Hc H2]. unfold mu_bbuf_has_prefix, mu_bbuf_has_suffix, mu_bbuf_bytes_ro. rewrite Hc.
  destruct (has_prefix_ok _ _ _ _ _ _ _ _ _ H1 H2) as (r1 & -> & Hr1).
  destruct (has_suffix_ok _ _ _ _ _ _ _ _ _ H1 H2) as (r2 & -> & Hr2). eauto 10.
Qed.
Print Assumptions C22_prefix_suffix.
Theorem C22_prefix_suffix_cstr : forall m b1 l1 q s, buf m b1 l1 -> cstr_at m q s ->
  exists r1 r2, mu_bbuf_has_prefix_cstr m b1 q = Ok r1 /\ mu_bbuf_has_suffix_cstr m b1 q = Ok r2 /\
    (r1 = true <-> exists rest, l1 = s ++ rest) /\ (r2 = true <-> exists rest, l1 = rest ++ s).
Proof.
  intros m b1 l1 q s (pre1 & post1 & H1) Hs. destruct (cstr_buf _ _ _ Hs) as (pre2 & post2 & H2).
  unfold mu_bbuf_has_prefix_cstr, mu_bbuf_has_suffix_cstr. rewrite (strlen_ok _ _ _ Hs). cbn [bind].
  rewrite cstr_cap by (by destruct H2 as (_ & _ & _ & ?)).
  destruct (has_prefix_ok _ _ _ _ _ _ _ _ _ H1 H2) as (r1 & -> & Hr1).
  destruct (has_suffix_ok _ _ _ _ _ _ _ _ _ H1 H2) as (r2 & -> & Hr2). eauto 10.
Qed.
Print Assumptions C22_prefix_suffix_cstr.
Example C22_example : mu_bbuf_has_prefix ex_mem ex_hello ex_help = Ok false /\
  mu_bbuf_has_prefix_cstr ex_mem ex_hello (Ptr 2 0) = Ok true /\
  mu_bbuf_has_suffix ex_mem ex_hello (MkBbuf (Ptr 0 4) 2) = Ok true.
Proof. vm_compute. done. Qed.

(** ** C23 *)
(** what a search returns: the chosen occurrence, moved past the substring on request *)
Definition found (s l : list Z) (skip : bool) (best : Z -> Z -> Prop) (r : Z) : Prop :=
  (exists k, occurs_at s l k /\ (forall j, occurs_at s l j -> best k j) /\
     r = if skip then k + Z.of_nat (length s) else k) \/
  ((forall j, ~ occurs_at s l j) /\ r = MU_BBUF_NOT_FOUND).

Theorem C23_find_substr : forall m b l bs s skip, buf m b l -> buf m bs s ->
  exists r, mu_bbuf_find_substr m b bs skip = Ok r /\ found s l skip Z.le r.
Proof.
  intros m b l bs s skip (pre1 & post1 & H1) (pre2 & post2 & H2).
  apply buf_cstr_like in H2 as [Hc H2]. unfold mu_bbuf_find_substr, mu_bbuf_bytes_ro. rewrite Hc.
  destruct (find_aux_ok _ _ _ _ _ _ _ _ _ skip H1 H2) as (r & Hr & [(k & Hk & Hm & ->)|[Hn ->]]);
    eexists; (split; [done|]); [left|by right].
  exists k. split; [done|]. split; [|done]. intros j Hj. destruct (Z.le_gt_cases k j); [done|]. by apply Hm in Hj.
Qed.
Print Assumptions C23_find_substr.
Theorem C23_rfind_substr : forall m b l bs s skip, buf m b l -> buf m bs s ->
  exists r, mu_bbuf_rfind_substr m b bs skip = Ok r /\ found s l skip Z.ge r.
Proof.
  intros m b l bs s skip (pre1 & post1 & H1) (pre2 & post2 & H2).
  apply buf_cstr_like in H2 as [Hc H2]. unfold mu_bbuf_rfind_substr, mu_bbuf_bytes_ro. rewrite Hc.
  destruct (rfind_aux_ok _ _ _ _ _ _ _ _ _ skip H1 H2) as (r & Hr & [(k & Hk & Hm & ->)|[Hn ->]]);
    eexists; (split; [done|]); [left|by right].
  exists k. split; [done|]. split; [|done]. intros j Hj. destruct (Z.le_gt_cases j k); [lia|].
  exfalso. by apply (Hm j).
Qed.
Print Assumptions C23_rfind_substr.
Theorem C23_find_subcstr : forall m b l q s skip, buf m b l -> cstr_at m q s ->
  exists r, mu_bbuf_find_subcstr m b q skip = Ok r /\ found s l skip Z.le r.
Proof.
  intros m b l q s skip H1 Hs. destruct (cstr_buf _ _ _ Hs) as (pre2 & post2 & H2).
  unfold mu_bbuf_find_subcstr. rewrite (strlen_ok _ _ _ Hs). cbn [bind].
  destruct (C23_find_substr m b l _ s skip H1 ltac:(by eexists _, _)) as (r & Hr & Hf). exists r. split; [|done].
  exact Hr.
Qed.
Print Assumptions C23_find_subcstr.
Theorem C23_rfind_subcstr : forall m b l q s skip, buf m b l -> cstr_at m q s ->
  exists r, mu_bbuf_rfind_subcstr m b q skip = Ok r /\ found s l skip Z.ge r.
Proof.
  intros m b l q s skip H1 Hs. destruct (cstr_buf _ _ _ Hs) as (pre2 & post2 & H2).
  unfold mu_bbuf_rfind_subcstr. rewrite (strlen_ok _ _ _ Hs). cbn [bind].
  destruct (C23_rfind_substr m b l _ s skip H1 ltac:(by eexists _, _)) as (r & Hr & Hf). exists r. split; [|done].
  exact Hr.
Qed.
Print Assumptions C23_rfind_subcstr.
Example C23_example : mu_bbuf_find_substr ex_mem ex_hello ex_ll false = Ok 2 /\
  mu_bbuf_find_substr ex_mem ex_hello ex_ll true = Ok 4 /\
  mu_bbuf_rfind_subcstr ex_mem ex_hello (Ptr 2 0) false = Ok 0 /\
  mu_bbuf_find_substr ex_mem ex_hello ex_help false = Ok MU_BBUF_NOT_FOUND.
Proof. vm_compute. done. Qed.

(** ** C24 *)
Theorem C24_find_byte : forall p m b l byte, buf m b l ->
  exists r1 r2, mu_bbuf_find_byte p m b byte = Ok r1 /\ first_index (fun x => x = byte) l r1 /\
    mu_bbuf_rfind_byte p m b byte = Ok r2 /\ last_index (fun x => x = byte) l r2.
Proof.
  intros p m b l byte (pre & post & Hb). unfold mu_bbuf_find_byte, mu_bbuf_rfind_byte.
  destruct (find_byte_loop_ok p m b pre l post byte Hb l [] (Z.to_nat (capacity b))) as (r1 & E1 & F1); [done| |done|].
  { destruct Hb as (_ & _ & -> & _). lia. }
  rewrite to_int_to_size.
  assert (E : to_int (capacity b - 1) = Z.of_nat (length l) - 1).
  { destruct Hb as (_ & _ & -> & H). apply to_int_id. unfold int_min, int_max in *. lia. }
  rewrite E.
  destruct (rfind_byte_loop_ok m b pre l post byte Hb l [] (S (Z.to_nat (Z.of_nat (length l) - 1)))) as (r2 & E2 & F2);
    [by rewrite app_nil_r|lia|done|].
  exists r1, r2. done.
Qed.
Print Assumptions C24_find_byte.
Theorem C24_find_predicate : forall m b l pred, buf m b l ->
  exists r1 r2, mu_bbuf_find_predicate m b pred = Ok r1 /\ first_index (fun x => pred x = false) l r1 /\
    mu_bbuf_rfind_predicate m b pred = Ok r2 /\ last_index (fun x => pred x = false) l r2.
Proof.
  intros m b l pred (pre & post & Hb).
  destruct (find_predicate_ok m b pre l post pred Hb) as (r1 & E1 & F1).
  destruct (rfind_predicate_ok m b pre l post pred Hb) as (r2 & E2 & F2). eauto 10.
Qed.
Print Assumptions C24_find_predicate.
Example C24_example : mu_bbuf_find_byte P32 ex_mem ex_hello 108 = Ok 2 /\ mu_bbuf_rfind_byte P64 ex_mem ex_hello 108 = Ok 3 /\
  mu_bbuf_find_predicate ex_mem ex_hello (fun c => c <? 108) = Ok 2 /\ mu_bbuf_rfind_byte P64 [[1]] (MkBbuf (Ptr 0 0) 0) 1 = Ok MU_BBUF_NOT_FOUND.
Proof. vm_compute. done. Qed.

(** ** C25 *)
(** Holds for every start not before the beginning of the buffer. *)
Theorem C25_slice_partial : forall p m e dst src b pre l post start end_,
  e !! src = Some b -> is_Some (e !! dst) -> buf_at m b pre l post ->
  int_min <= start <= int_max -> int_min <= end_ <= int_max ->
  - Z.of_nat (length l) <= start ->
  let s := norm_index (Z.of_nat (length l)) start in
  let t := Z.max s (norm_index (Z.of_nat (length l)) end_) in
  exists b', mu_bbuf_slice p m e dst src start end_ = Ok (<[dst := b']> e) /\
    part_of m b pre post b' (take (Z.to_nat s) l) (slice_of l s t) (drop (Z.to_nat t) l).
Proof.
  intros p m e dst src b pre l post start end_ Hs [d Hd] Hb Hst Hen Hge s t.
  assert (Hs0 : 0 <= s). { subst s. unfold norm_index. destruct (decide (start < 0)); lia. }
  eexists. split; [by eapply slice_ok|].
  pose proof (norm_index_le (Z.of_nat (length l)) start ltac:(lia)).
  pose proof (norm_index_le (Z.of_nat (length l)) end_ ltac:(lia)).
  apply slice_part; [done|lia|lia].
Qed.
Print Assumptions C25_slice_partial.

(** A start before the beginning is not limited: the result is undefined behaviour, or
    a buffer starting before the source buffer. *)
Theorem C25_slice_refuted : forall p m e dst src b pre l post start end_,
  e !! src = Some b -> is_Some (e !! dst) -> buf_at m b pre l post ->
  int_min <= start < - Z.of_nat (length l) -> int_min <= end_ <= int_max ->
  mu_bbuf_slice p m e dst src start end_ = UB \/
  exists b', mu_bbuf_slice p m e dst src start end_ = Ok (<[dst := b']> e) /\
    blk (bytes b') = blk (bytes b) /\ off (bytes b') < off (bytes b).
Proof.
  intros p m e dst src b pre l post start end_ Hs [d Hd] Hb Hst Hen.
  unfold mu_bbuf_slice, sget. rewrite Hs. cbn [bind].
  pose proof (buf_at_cap _ _ _ _ _ Hb) as [_ Hc]. destruct Hb as (_ & _ & -> & _).
  cbv zeta. rewrite norm_start, norm_end by lia.
  set (s := norm_index _ start). set (t := norm_index _ end_).
  assert (Hneg : s < 0). { subst s. unfold norm_index. destruct (decide (start < 0)); lia. }
  clearbody s t. unfold padd. destruct (m !! blk (bytes b)) as [dd|]; [|by left].
  destruct (Z.leb_spec 0 (off (bytes b) + s)); simpl; [|by left].
  destruct (Z.leb_spec (off (bytes b) + s) (Z.of_nat (length dd))); simpl; [|by left].
  unfold isub. destruct (ichk _) as [n| |] eqn:E; simpl; [|by left|].
  - right. unfold mu_bbuf_init_ro, sput. rewrite Hd. eexists. split; [done|]. simpl. split; [done|lia].
  - exfalso. unfold ichk, chk in E. by destruct (in_range _ _ _).
Qed.
Print Assumptions C25_slice_refuted.
Example C25_example : mu_bbuf_slice P64 ex_mem [ex_hello] 0 0 1 (-1) = Ok [MkBbuf (Ptr 0 2) 3] /\
  (* the view "hello" sliced from -6 exposes the byte before it *)
  mu_bbuf_slice P64 ex_mem [ex_hello] 0 0 (-6) 2 = Ok [MkBbuf (Ptr 0 0) 3] /\
  mu_bbuf_slice P64 ex_mem [ex_help] 0 0 (-5) 2 = UB.
Proof. vm_compute. done. Qed.

(** ** C26 *)
Theorem C26_bisect_partial : forall p m e left right src b pre l post index,
  e !! src = Some b -> buf_at m b pre l post ->
  (forall x, left = Some x -> is_Some (e !! x)) -> (forall y, right = Some y -> is_Some (e !! y)) ->
  (forall x, left = Some x -> right <> Some x) ->
  int_min <= index <= int_max -> - Z.of_nat (length l) <= index ->
  let i := Z.to_nat (norm_index (Z.of_nat (length l)) index) in
  exists e' bl br, mu_bbuf_bisect p m e left right src index = Ok e' /\
    part_of m b pre post bl [] (take i l) (drop i l) /\
    part_of m b pre post br (take i l) (drop i l) [] /\
    (forall x, left = Some x -> e' !! x = Some bl) /\ (forall y, right = Some y -> e' !! y = Some br) /\
    (forall z, left <> Some z -> right <> Some z -> e' !! z = e !! z).
Proof.
  intros p m e left right src b pre l post index Hs Hb Hl Hr Hne Hi Hge i.
  pose proof (buf_at_cap _ _ _ _ _ Hb) as [Hc1 Hc]. pose proof (buf_at_at _ _ _ _ _ Hb) as Ha.
  set (k := norm_index (Z.of_nat (length l)) index) in *.
  assert (Hk : 0 <= k <= Z.of_nat (length l)).
  { subst k. split; [|apply norm_index_le; lia]. unfold norm_index. destruct (decide (index < 0)); lia. }
  set (bl := MkBbuf (bytes b) k).
  set (br := MkBbuf (Ptr (blk (bytes b)) (off (bytes b) + k)) (Z.of_nat (length l) - k)).
  pose proof (size_mod_big p).
  unfold mu_bbuf_bisect, sget, mu_bbuf_capacity. rewrite Hs. cbn [bind]. rewrite Hc1.
  rewrite bisect_norm by done. cbn [bind]. fold k.
  rewrite !to_size_id by (unfold int_max in *; lia).
  assert (Hq : forall m', m' = m -> padd m' (bytes b) k = Ok (Ptr (blk (bytes b)) (off (bytes b) + k))).
  { intros m' ->. rewrite <- (take_drop i l), <- app_assoc in Ha.
    destruct (at_padd _ _ _ _ _ k Ha) as (q & -> & _ & Hq1 & Hq2); [rewrite take_length; subst i; lia|].
    destruct q; simpl in *. by subst. }
  set (e1 := match left with Some x => <[x := bl]> e | None => e end).
  assert (He1 : match left with Some l0 => let* s := Ok b in mu_bbuf_init_ro e l0 (mu_bbuf_bytes_ro s) k | None => Ok e end = Ok e1).
  { subst e1. destruct left as [x|]; [|done]. cbn [bind]. unfold mu_bbuf_init_ro, sput.
    destruct (Hl x eq_refl) as [v ->]. done. }
  cbn [bind] in He1. rewrite He1. cbn [bind].
  set (e2 := match right with Some y => <[y := br]> e1 | None => e1 end).
  assert (Hs1 : exists b1, e1 !! src = Some b1 /\ bytes b1 = bytes b).
  { subst e1. destruct left as [x|]; [|by exists b]. destruct (decide (x = src)) as [->|].
    - exists bl. rewrite list_lookup_insert; [done|]. by eapply lookup_lt_Some.
    - exists b. by rewrite list_lookup_insert_ne. }
  exists e2, bl, br.
  split.
  { subst e2. destruct right as [y|]; [|done]. destruct Hs1 as (b1 & -> & Hb1). cbn [bind].
    unfold mu_bbuf_bytes_ro. rewrite Hb1, Hq by done. cbn [bind].
    unfold isub. rewrite ichk_ok by (unfold int_min, int_max in *; lia). cbn [bind].
    rewrite to_size_id by (unfold int_max in *; lia).
    unfold mu_bbuf_init_ro, sput. destruct (Hr y eq_refl) as [v Hv].
    assert (is_Some (e1 !! y)) as [v' ->].
    { subst e1. destruct left as [x|]; [|by eexists]. apply lookup_lt_is_Some. rewrite insert_length. by eapply lookup_lt_Some. }
    done. }
  split.
  { split; [done|]. rewrite app_nil_r. pose proof (slice_buf m b pre l post 0 k Hb ltac:(lia) ltac:(lia)) as X.
    unfold slice_of in X. rewrite Z.sub_0_r, Z.add_0_r in X. simpl in X. rewrite drop_0, app_nil_r in X.
    subst bl i. destruct (bytes b). done. }
  split.
  { split; [done|]. pose proof (slice_buf m b pre l post k (Z.of_nat (length l)) Hb ltac:(lia) ltac:(lia)) as X.
    unfold slice_of in X. rewrite Nat2Z.id, drop_all in X. simpl in X. fold i in X.
    rewrite (take_ge (drop i l)) in X by (rewrite drop_length; subst i; lia). done. }
  split; [|split].
  - intros x Hx. subst e2 e1. rewrite Hx. destruct (Hl x Hx) as [v Hv]. apply lookup_lt_Some in Hv.
    destruct right as [y|].
    + rewrite list_lookup_insert_ne by (intros ->; by apply (Hne x)). by apply list_lookup_insert.
    + by apply list_lookup_insert.
  - intros y Hy. subst e2. rewrite Hy. apply list_lookup_insert. destruct (Hr y Hy) as [v Hv]. apply lookup_lt_Some in Hv.
    subst e1. destruct left; rewrite ?insert_length; done.
  - intros z Hz1 Hz2. subst e2 e1. destruct right as [y|], left as [x|]; rewrite ?list_lookup_insert_ne; congruence.
Qed.
Print Assumptions C26_bisect_partial.

(** For an index before the beginning, the left part gets a capacity larger than the
    source: close to SIZE_MAX. *)
Theorem C26_bisect_refuted : forall p m e x src b pre l post index,
  e !! src = Some b -> is_Some (e !! x) -> buf_at m b pre l post ->
  int_min <= index < - Z.of_nat (length l) ->
  exists b', mu_bbuf_bisect p m e (Some x) None src index = Ok (<[x := b']> e) /\ Z.of_nat (length l) < capacity b'.
Proof.
  intros p m e x src b pre l post index Hs [d Hd] Hb Hi.
  pose proof (buf_at_cap _ _ _ _ _ Hb) as [Hc1 Hc].
  unfold mu_bbuf_bisect, sget, mu_bbuf_capacity. rewrite Hs. cbn [bind]. rewrite Hc1.
  rewrite bisect_norm by (unfold int_max in *; lia). cbn [bind]. unfold mu_bbuf_init_ro, sput. rewrite Hd.
  eexists. split; [done|]. simpl. unfold norm_index. rewrite decide_True by lia.
  unfold to_size. pose proof (size_mod_big p). unfold int_min, int_max in *.
  rewrite <- (Z.mod_unique (Z.of_nat (length l) + index) (size_mod p) (-1) (Z.of_nat (length l) + index + size_mod p)); lia.
Qed.
Print Assumptions C26_bisect_refuted.
Example C26_example : mu_bbuf_bisect P32 ex_mem [ex_hello; ex_help] (Some 0%nat) (Some 1%nat) 0 2
    = Ok [MkBbuf (Ptr 0 1) 2; MkBbuf (Ptr 0 3) 3] /\
  mu_bbuf_bisect P64 ex_mem [ex_hello; ex_help] (Some 1%nat) (Some 0%nat) 0 (-1)
    = Ok [MkBbuf (Ptr 0 5) 1; MkBbuf (Ptr 0 1) 4] /\
  mu_bbuf_bisect P64 ex_mem [ex_hello; ex_help] (Some 1%nat) None 0 (-6)
    = Ok [ex_hello; MkBbuf (Ptr 0 1) 18446744073709551615].
Proof. vm_compute. done. Qed.

(** ** C27 *)
Lemma copy_ok e dst src b d : e !! src = Some b -> e !! dst = Some d ->
  mu_bbuf_copy e dst src = Ok (<[dst := b]> e).
Proof.
  intros Hs Hd. unfold mu_bbuf_copy, sget, sput. rewrite Hs, Hd. cbn [bind].
  destruct b as [bq bc]. simpl.
  assert (Hl : (dst < length e)%nat) by (by eapply lookup_lt_Some).
  destruct (decide (dst = src)) as [->|Hne].
  - rewrite list_lookup_insert by done. simpl. rewrite Hs in Hd. injection Hd as <-. simpl.
    by rewrite list_insert_insert.
  - rewrite list_lookup_insert_ne by done. rewrite Hs. simpl.
    rewrite list_lookup_insert by done. simpl. by rewrite list_insert_insert.
Qed.

(** What ltrim computes: right unless every byte matches, in which case nothing is trimmed. *)
Lemma ltrim_exact p m e dst src b pre l post pred :
  e !! src = Some b -> is_Some (e !! dst) -> buf_at m b pre l post ->
  exists b' l1 l', mu_bbuf_ltrim p m e dst src pred = Ok (<[dst := b']> e) /\ part_of m b pre post b' l1 l' [] /\
    l = l1 ++ l' /\
    l' = if decide (Exists (fun x => pred x = false) l) then drop_while pred l else l.
Proof.
  intros Hs [d Hd] Hb. unfold mu_bbuf_ltrim, sget. rewrite Hs. cbn [bind].
  destruct (find_predicate_ok m b pre l post pred Hb) as (r & -> & Hr). cbn [bind].
  destruct Hr as [(i & x & Hx & Hp & Hlt & ->)|[Hno ->]].
  - pose proof (lookup_lt_Some _ _ _ Hx) as Hil.
    pose proof (buf_at_cap _ _ _ _ _ Hb) as [_ Hc].
    destruct (Z.eqb_spec (Z.of_nat i) MU_BBUF_NOT_FOUND) as [E|E].
    { exfalso. unfold MU_BBUF_NOT_FOUND in E. lia. }
    destruct (C25_slice_partial p m e dst src b pre l post (Z.of_nat i) MU_BBUF_END Hs ltac:(by eexists) Hb) as (b' & HE & Hb');
      [unfold int_min; lia|unfold MU_BBUF_END, int_min, int_max; lia|lia|].
    assert (Hn1 : norm_index (Z.of_nat (length l)) (Z.of_nat i) = Z.of_nat i).
    { unfold norm_index. destruct (decide (Z.of_nat i < 0)); lia. }
    assert (Hn2 : norm_index (Z.of_nat (length l)) MU_BBUF_END = Z.of_nat (length l)).
    { unfold norm_index, MU_BBUF_END. destruct (decide (int_max < 0)); lia. }
    rewrite Hn1, Hn2, Z.max_r in Hb' by lia. rewrite !Nat2Z.id, drop_all in Hb'. unfold slice_of in Hb'.
    rewrite Nat2Z.id, (take_ge (drop i l)) in Hb' by (rewrite drop_length; lia).
    exists b', (take i l), (drop i l). split; [done|]. split; [done|]. split; [by rewrite take_drop|].
    rewrite decide_True by (apply Exists_exists; exists x; split; [by eapply elem_of_list_lookup_2|done]).
    by rewrite (drop_while_idx pred l i x Hx Hp Hlt).
  - rewrite Z.eqb_refl. exists b, [], l. split; [by eapply copy_ok|].
    split; [split; [done|by rewrite app_nil_r]|]. split; [done|].
    rewrite decide_False; [done|]. intros (x & Hin & Hx)%Exists_exists.
    apply elem_of_list_lookup_1 in Hin as (j & Hj). by eapply Hno.
Qed.

(** What rtrim computes: it also removes the last byte to be kept. *)
Lemma rtrim_exact p m e dst src b pre l post pred :
  e !! src = Some b -> is_Some (e !! dst) -> buf_at m b pre l post ->
  exists b' l' l2, mu_bbuf_rtrim p m e dst src pred = Ok (<[dst := b']> e) /\ part_of m b pre post b' [] l' l2 /\
    l = l' ++ l2 /\
    l' = if decide (Exists (fun x => pred x = false) l) then removelast (drop_while_end pred l) else l.
Proof.
  intros Hs [d Hd] Hb. unfold mu_bbuf_rtrim, sget. rewrite Hs. cbn [bind].
  destruct (rfind_predicate_ok m b pre l post pred Hb) as (r & -> & Hr). cbn [bind].
  destruct Hr as [(i & x & Hx & Hp & Hlt & ->)|[Hno ->]].
  - pose proof (lookup_lt_Some _ _ _ Hx) as Hil.
    pose proof (buf_at_cap _ _ _ _ _ Hb) as [_ Hc].
    destruct (Z.eqb_spec (Z.of_nat i) MU_BBUF_NOT_FOUND) as [E|E].
    { exfalso. unfold MU_BBUF_NOT_FOUND in E. lia. }
    destruct (C25_slice_partial p m e dst src b pre l post 0 (Z.of_nat i) Hs ltac:(by eexists) Hb) as (b' & HE & Hb');
      [unfold int_min, int_max; lia|unfold int_min; lia|lia|].
    assert (Hn1 : norm_index (Z.of_nat (length l)) (Z.of_nat i) = Z.of_nat i).
    { unfold norm_index. destruct (decide (Z.of_nat i < 0)); lia. }
    assert (Hn2 : norm_index (Z.of_nat (length l)) 0 = 0).
    { unfold norm_index. destruct (decide (0 < 0)); lia. }
    rewrite Hn1, Hn2, Z.max_r in Hb' by lia. unfold slice_of in Hb'. rewrite Z.sub_0_r, !Nat2Z.id in Hb'.
    change (Z.to_nat 0) with 0%nat in Hb'. rewrite drop_0, take_0 in Hb'.
    exists b', (take i l), (drop i l). split; [done|]. split; [done|]. split; [by rewrite take_drop|].
    rewrite decide_True by (apply Exists_exists; exists x; split; [by eapply elem_of_list_lookup_2|done]).
    rewrite (drop_while_end_idx pred l i x Hx Hp Hlt). by rewrite (take_S_r _ _ _ Hx), removelast_last.
  - rewrite Z.eqb_refl. exists b, l, []. split; [by eapply copy_ok|].
    split; [split; [done|by rewrite app_nil_r]|]. split; [by rewrite app_nil_r|].
    rewrite decide_False; [done|]. intros (x & Hin & Hx)%Exists_exists.
    apply elem_of_list_lookup_1 in Hin as (j & Hj). by eapply Hno.
Qed.

(** ltrim is right whenever some byte is to be kept (or there is nothing to trim). *)
Theorem C27_ltrim_partial : forall p m e dst src b pre l post pred,
  e !! src = Some b -> is_Some (e !! dst) -> buf_at m b pre l post ->
  (l = [] \/ exists x, x ∈ l /\ pred x = false) ->
  exists b' l1, mu_bbuf_ltrim p m e dst src pred = Ok (<[dst := b']> e) /\
    part_of m b pre post b' l1 (drop_while pred l) [] /\ l = l1 ++ drop_while pred l.
Proof.
  intros p m e dst src b pre l post pred Hs Hd Hb Hl.
  destruct (ltrim_exact p m e dst src b pre l post pred Hs Hd Hb) as (b' & l1 & l' & HE & Hb' & Hl1 & Hl').
  assert (E : l' = drop_while pred l).
  { rewrite Hl'. destruct Hl as [->|(x & Hin & Hx)].
    - by destruct (decide _).
    - rewrite decide_True; [done|]. apply Exists_exists. eauto. }
  rewrite <- E. eauto.
Qed.
Print Assumptions C27_ltrim_partial.

(** ... and wrong whenever every byte of a non-empty buffer is to be trimmed. *)
Theorem C27_ltrim_refuted : forall p m e dst src b pre l post pred,
  e !! src = Some b -> is_Some (e !! dst) -> buf_at m b pre l post ->
  l <> [] -> (forall x, x ∈ l -> pred x = true) ->
  exists b', mu_bbuf_ltrim p m e dst src pred = Ok (<[dst := b']> e) /\ part_of m b pre post b' [] l [] /\ drop_while pred l = [].
Proof.
  intros p m e dst src b pre l post pred Hs Hd Hb Hl Hall.
  destruct (ltrim_exact p m e dst src b pre l post pred Hs Hd Hb) as (b' & l1 & l' & HE & Hb' & Hl1 & Hl').
  exists b'. split; [done|]. split.
  - rewrite decide_False in Hl'; [|intros (x & Hin & Hx)%Exists_exists; by rewrite (Hall x Hin) in Hx].
    subst l'. assert (l1 = []) as ->; [|done]. apply (f_equal length) in Hl1. rewrite app_length in Hl1. destruct l1; [done|simpl in Hl1; lia].
  - apply drop_while_all. intros j y Hy. rewrite (Hall y); [done|]. by eapply elem_of_list_lookup_2.
Qed.
Print Assumptions C27_ltrim_refuted.

Lemma drop_while_end_nonempty pred (l : list Z) : Exists (fun x => pred x = false) l -> drop_while_end pred l <> [].
Proof.
  intros H. unfold drop_while_end. intros HE. apply (f_equal reverse) in HE.
  rewrite reverse_involutive in HE. simpl in HE.
  assert (Hr : Exists (fun x => pred x = false) (reverse l)).
  { apply Exists_exists in H as (x & Hin & Hx). apply Exists_exists. exists x. by rewrite elem_of_reverse. }
  clear H. change (reverse []) with (@nil Z) in HE. induction Hr as [x r Hx|x r Hr IH]; simpl in HE.
  - by rewrite Hx in HE.
  - destruct (pred x); [by apply IH|done].
Qed.
Lemma drop_while_end_none pred (l : list Z) : ~ Exists (fun x => pred x = false) l -> drop_while_end pred l = [].
Proof.
  intros H. apply drop_while_end_all. intros j y Hy Hp. apply H. apply Exists_exists. exists y.
  split; [by eapply elem_of_list_lookup_2|done].
Qed.

(** rtrim is wrong for EVERY non-empty buffer: the result is never the trimmed contents
    (it is right on empty ones). *)
Theorem C27_rtrim_refuted : forall p m e dst src b pre l post pred,
  e !! src = Some b -> is_Some (e !! dst) -> buf_at m b pre l post ->
  exists b' l' l2, mu_bbuf_rtrim p m e dst src pred = Ok (<[dst := b']> e) /\ part_of m b pre post b' [] l' l2 /\
    l = l' ++ l2 /\
    (l' = drop_while_end pred l <-> l = []).
Proof.
  intros p m e dst src b pre l post pred Hs Hd Hb.
  destruct (rtrim_exact p m e dst src b pre l post pred Hs Hd Hb) as (b' & l' & l2 & HE & Hb' & Hl2 & Hl').
  exists b', l', l2. split; [done|]. split; [done|]. split; [done|]. rewrite Hl'. clear Hl2 Hl'.
  destruct (decide _) as [Hex|Hex].
  - split; [|intros ->; by apply Exists_nil in Hex]. intros HE'. exfalso.
    pose proof (drop_while_end_nonempty pred l Hex) as Hne.
    destruct (drop_while_end pred l) as [|x k _] using rev_ind; [done|].
    rewrite removelast_last in HE'. apply (f_equal length) in HE'. rewrite app_length in HE'. simpl in HE'. lia.
  - rewrite drop_while_end_none by done. done.
Qed.
Print Assumptions C27_rtrim_refuted.

Lemma trim_len_ltrim pred (l : list Z) : Exists (fun x => pred x = false) l -> Exists (fun x => pred x = false) (drop_while pred l).
Proof.
  induction 1 as [x l Hx|x l H IH]; simpl.
  - rewrite Hx. by left.
  - destruct (pred x); [done|]. by right.
Qed.

(** trim is likewise wrong for every non-empty buffer. *)
Theorem C27_trim_refuted : forall p m e dst src b pre l post pred,
  e !! src = Some b -> is_Some (e !! dst) -> buf_at m b pre l post ->
  exists b' l1 l' l2, mu_bbuf_trim p m e dst src pred = Ok (<[dst := b']> e) /\ part_of m b pre post b' l1 l' l2 /\
    l = l1 ++ l' ++ l2 /\
    (l' = drop_while_end pred (drop_while pred l) <-> l = []).
Proof.
  intros p m e dst src b pre l post pred Hs Hd Hb. unfold mu_bbuf_trim.
  destruct (ltrim_exact p m e dst src b pre l post pred Hs Hd Hb) as (b1 & l1 & k & -> & [Hbk Hb1] & Hl1 & Hk). cbn [bind].
  rewrite app_nil_l in Hb1.
  assert (Hlt : (dst < length e)%nat) by (by apply lookup_lt_is_Some).
  destruct (rtrim_exact p m (<[dst:=b1]> e) dst dst b1 (pre ++ l1) k post pred ltac:(by rewrite list_lookup_insert)
     ltac:(by rewrite list_lookup_insert) Hb1) as (b' & l' & l2 & HE & [Hbk' Hb'] & Hl2 & Hl').
  rewrite HE, list_insert_insert. exists b', l1, l', l2. split; [done|].
  split; [split; [congruence|by rewrite app_nil_r in Hb']|]. split; [by rewrite Hl1, Hl2|].
  rewrite Hl', Hk. clear HE Hb1 Hb' Hl1 Hl2 Hl' Hk.
  destruct (decide (Exists (fun x => pred x = false) l)) as [Hex|Hex].
  - rewrite decide_True by (by apply trim_len_ltrim).
    split; [|intros ->; by apply Exists_nil in Hex]. intros HE'. exfalso.
    pose proof (drop_while_end_nonempty pred _ (trim_len_ltrim _ _ Hex)) as Hne.
    destruct (drop_while_end pred (drop_while pred l)) as [|x kk _] using rev_ind; [done|].
    rewrite removelast_last in HE'. apply (f_equal length) in HE'. rewrite app_length in HE'. simpl in HE'. lia.
  - rewrite decide_False by done.
    assert (E : drop_while pred l = []).
    { apply drop_while_all. intros j y Hy Hp. apply Hex. apply Exists_exists. exists y.
      split; [by eapply elem_of_list_lookup_2|done]. }
    rewrite E. done.
Qed.
Print Assumptions C27_trim_refuted.
Example C27_example :
  (* "hello": l trimmed at the left of < 'l' gives "llo"; rtrim of 'o' gives "hel" instead of "hell" *)
  mu_bbuf_ltrim P64 ex_mem [ex_hello] 0 0 (fun c => c <? 108) = Ok [MkBbuf (Ptr 0 3) 3] /\
  mu_bbuf_rtrim P64 ex_mem [ex_hello] 0 0 (fun c => c =? 111) = Ok [MkBbuf (Ptr 0 1) 3] /\
  drop_while_end (fun c => c =? 111) [104;101;108;108;111] = [104;101;108;108].
Proof. vm_compute. done. Qed.
