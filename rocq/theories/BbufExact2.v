(** * C78-C81: mu_bbuf_bisect, the signed parsers, mu_bbuf_copy_into and the in-place
    mutators, for every argument (including those for which C26, C29, C32-C35 fail) *)
From Verif Require Import CSem BbufModel BbufSpec BbufProofs BbufProofs2 BbufProofs3 BbufProps BbufProps2.

(** ** C78.  [k] is the position of the cut relative to the source buffer; it is negative
    when the index precedes the beginning. [left], [right] and [src] may be the same
    struct; [right] is written last. *)
Definition upd (e : senv) (x : option nat) (b : bbuf) : senv :=
  match x with Some x => <[x := b]> e | None => e end.

Theorem C78_bisect_exact : forall p m e left right src b pre l post index,
  e !! src = Some b -> buf_at m b pre l post ->
  (forall x, left = Some x -> is_Some (e !! x)) -> (forall y, right = Some y -> is_Some (e !! y)) ->
  int_min <= index <= int_max ->
  let n := Z.of_nat (length l) in
  let k := norm_index n index in
  let bl := MkBbuf (bytes b) (k mod size_mod p) in
  let br := MkBbuf (Ptr (blk (bytes b)) (Z.of_nat (length pre) + k)) (n - k) in
  mu_bbuf_bisect p m e left right src index =
    match right with
    | None => Ok (upd e left bl)
    | Some _ => if decide (0 <= Z.of_nat (length pre) + k /\ int_min < index) then Ok (upd (upd e left bl) right br)
                else UB
    end.
Proof.
  intros p m e left right src b pre l post index Hs Hb Hl Hr Hi n k bl br.
  pose proof (buf_at_cap _ _ _ _ _ Hb) as [Hc1 Hc]. pose proof Hb as (H1 & H2 & H3 & H4).
  assert (Hk : int_min <= k <= n /\ (index < 0 -> k = n + index) /\ (0 <= index -> 0 <= k)).
  { subst k. unfold norm_index, int_min in *. destruct (decide (index < 0)); subst n; lia. }
  destruct Hk as (Hk & Hkn & Hkp).
  assert (Hn : 0 <= n <= int_max) by (subst n; lia).
  unfold mu_bbuf_bisect, sget, mu_bbuf_capacity. rewrite Hs. cbn [bind]. rewrite Hc1. fold n.
  rewrite bisect_norm by (subst n; lia || done). cbn [bind]. fold k. fold (to_size p k).
  assert (He1 : match left with Some l0 => mu_bbuf_init_ro e l0 (mu_bbuf_bytes_ro b) (to_size p k) | None => Ok e end = Ok (upd e left bl)).
  { destruct left as [x|]; [|done]. unfold mu_bbuf_init_ro, sput. destruct (Hl x eq_refl) as [v ->]. done. }
  rewrite He1. cbn [bind]. destruct right as [y|]; [|done].
  assert (Hs1 : exists b1, upd e left bl !! src = Some b1 /\ bytes b1 = bytes b).
  { destruct left as [x|]; [|by exists b]. simpl. destruct (decide (x = src)) as [->|].
    - exists bl. rewrite list_lookup_insert; [done|]. by eapply lookup_lt_Some.
    - exists b. by rewrite list_lookup_insert_ne. }
  destruct Hs1 as (b1 & -> & Hb1). cbn [bind]. unfold mu_bbuf_bytes_ro. rewrite Hb1.
  unfold padd. rewrite H1, H2. 
  assert (Z.of_nat (length pre) + k <= Z.of_nat (length (pre ++ l ++ post))).
  { rewrite !app_length. lia. }
  destruct (Z.leb_spec (Z.of_nat (length pre) + k) (Z.of_nat (length (pre ++ l ++ post)))); [|lia].
  destruct (Z.leb_spec 0 (Z.of_nat (length pre) + k)); cbn [andb bind].
  2:{ rewrite decide_False by lia. done. }
  unfold isub. destruct (decide (int_min < index)).
  - rewrite decide_True by done. pose proof (size_mod_big p).
    rewrite ichk_ok by (unfold int_min, int_max in *; destruct (Z.lt_ge_cases index 0); lia). cbn [bind].
    rewrite to_size_id by (unfold int_min, int_max in *; destruct (Z.lt_ge_cases index 0); lia).
    unfold mu_bbuf_init_ro, sput. destruct (Hr y eq_refl) as [v Hv].
    assert (is_Some (upd e left bl !! y)) as [v' ->]; [|done].
    destruct left as [x|]; [|by eexists]. apply lookup_lt_is_Some. simpl. rewrite insert_length. by eapply lookup_lt_Some.
  - rewrite decide_False by tauto. rewrite ichk_ub; [done|]. unfold int_min, int_max in *. lia.
Qed.
Print Assumptions C78_bisect_exact.
Example C78_example :
  mu_bbuf_bisect P64 ex_mem [ex_hello; ex_help] (Some 1%nat) (Some 1%nat) 0 2 = Ok [ex_hello; MkBbuf (Ptr 0 3) 3] /\
  mu_bbuf_bisect P64 ex_mem [ex_hello] None (Some 0%nat) 0 (-6) = Ok [MkBbuf (Ptr 0 0) 6] /\
  mu_bbuf_bisect P64 ex_mem [ex_hello] None (Some 0%nat) 0 (-7) = UB /\
  mu_bbuf_bisect P32 ex_mem [ex_hello; ex_help] (Some 0%nat) None 0 int_min = Ok [MkBbuf (Ptr 0 1) 2147483653; ex_help].
Proof. vm_compute. done. Qed.

(** ** C79: the signed parsers *)
Theorem C79_parse_signed_exact : forall m b l, buf m b l ->
  (exists r, mu_bbuf_parse_int8 m b = Ok r /\ truncated 8 (signed_value l) r) /\
  (exists r, mu_bbuf_parse_int16 m b = Ok r /\ truncated 16 (signed_value l) r) /\
  mu_bbuf_parse_int m b = (if magnitude l <? 2 ^ 31 then Ok (signed_value l) else UB) /\
  mu_bbuf_parse_int32 m b = (if magnitude l <? 2 ^ 31 then Ok (signed_value l) else UB) /\
  mu_bbuf_parse_int64 m b = (if magnitude l <? 2 ^ 63 then Ok (signed_value l) else UB).
Proof.
  intros m b l Hb. destruct (C29_parse_narrow m b l Hb) as (r8 & r16 & H1 & H2 & H3 & H4).
  destruct (C29_parse_wide_partial m b l Hb) as [A1 A2]. destruct (C29_parse_wide_refuted m b l Hb) as [B1 B2].
  split; [eauto|]. split; [eauto|].
  destruct (Z.ltb_spec (magnitude l) (2 ^ 31)) as [H|H].
  - destruct (A1 H) as [-> ->]. split; [done|]. split; [done|].
    destruct (Z.ltb_spec (magnitude l) (2 ^ 63)); [auto|]. assert (2 ^ 31 < 2 ^ 63) by reflexivity. lia.
  - destruct (B1 H) as [-> ->]. split; [done|]. split; [done|].
    destruct (Z.ltb_spec (magnitude l) (2 ^ 63)); auto.
Qed.
Print Assumptions C79_parse_signed_exact.
(** the truncation is unique, so the 8- and 16-bit results are determined *)
Lemma truncated_unique w x r1 r2 : 0 < w -> truncated w x r1 -> truncated w x r2 -> r1 = r2.
Proof.
  intros Hw [R1 C1] [R2 C2]. assert (Hp : 2 ^ w = 2 * 2 ^ (w - 1)).
  { rewrite <- Z.pow_succ_r by lia. f_equal. lia. }
  assert (0 < 2 ^ (w - 1)) by (apply Z.pow_pos_nonneg; lia).
  apply Z.mod_divide in C1 as [k1 K1]; [|lia]. apply Z.mod_divide in C2 as [k2 K2]; [|lia].
  assert (r1 - r2 = (k1 - k2) * 2 ^ w) by lia.
  assert (k1 - k2 = 0) by nia. nia.
Qed.
Example C79_example :
  mu_bbuf_parse_int64 [[45;57;50;50]] (MkBbuf (Ptr 0 0) 4) = Ok (-922) /\
  mu_bbuf_parse_int32 [[50;49;52;55;52;56;51;54;52;56]] (MkBbuf (Ptr 0 0) 10) = UB /\
  mu_bbuf_parse_int32 [[50;49;52;55;52;56;51;54;52;55]] (MkBbuf (Ptr 0 0) 10) = Ok 2147483647.
Proof. vm_compute. done. Qed.

(** ** C80: mu_bbuf_copy_into *)
Theorem C80_copy_into_exact : forall p m dst src offset, int_min <= offset <= int_max ->
  0 <= capacity dst <= size_max p -> 0 <= capacity src <= size_max p ->
  mu_bbuf_copy_into p m dst src offset =
    if decide ((0 < offset /\ capacity dst <= offset) \/ (int_min < offset < 0 /\ capacity src <= - offset))
    then Ok (0, m) else UB.
Proof.
  intros p m dst src offset Ho Hd Hs. destruct (decide _) as [H|H].
  - apply C32_copy_into_partial; try done; [|lia].
    unfold int_min in *. lia.
  - by apply C32_copy_into_refuted.
Qed.
Print Assumptions C80_copy_into_exact.
Example C80_example : mu_bbuf_copy_into P64 ex_mem ex_hello ex_help (-4) = Ok (0, ex_mem) /\
  mu_bbuf_copy_into P64 ex_mem ex_hello ex_help (-3) = UB.
Proof. vm_compute. done. Qed.

(** ** C81: reverse, rrotate, rshift, clear on every buffer and every shift.  A call of
    mu_bbuf_rrotate [returns] a result if it does so with enough loop iterations, and
    [hangs] if no number of iterations suffices. *)
Theorem C81_mutators_exact : forall p m b pre l post shift,
  buf_at m b pre l post -> Z.of_nat (length (pre ++ l ++ post)) < size_max p -> int_min <= shift <= int_max ->
  mu_bbuf_clear m b = Ok (with_contents m b pre (replicate (length l) 0) post) /\
  mu_bbuf_reverse p m b = (if decide (l = []) then UB else Ok (with_contents m b pre (reverse l) post)) /\
  (if decide (l = []) then forall fuel, mu_bbuf_rrotate p fuel m b shift = NoFuel
   else exists l' N, rotated l l' shift /\
          forall fuel, (N <= fuel)%nat -> mu_bbuf_rrotate p fuel m b shift = Ok (with_contents m b pre l' post)) /\
  (if decide (shift = int_min) then mu_bbuf_rshift p m b shift = UB
   else exists l', shifted l l' shift /\ mu_bbuf_rshift p m b shift = Ok (with_contents m b pre l' post)).
Proof.
  intros p m b pre l post shift Hb Hsz Hs. split; [by apply C35_clear|]. split; [|split].
  - destruct (decide (l = [])) as [->|]; [|by apply C33_reverse_partial].
    by apply (C33_reverse_empty_refuted p m b pre post).
  - destruct (decide (l = [])) as [->|]; [|by apply C34_rrotate_partial].
    intros fuel. destruct Hb as (_ & _ & H & _). destruct b as [q c]. simpl in H. subst c.
    destruct (C34_rrotate_empty_refuted p m q shift fuel); done.
  - destruct (decide (shift = int_min)) as [->|]; [apply C35_rshift_int_min_refuted|].
    apply C35_rshift_partial; [done|]. unfold int_min in *. lia.
Qed.
Print Assumptions C81_mutators_exact.
Example C81_example : buf_at ex_mem ex_hello [120] [104;101;108;108;111] [120] /\
  mu_bbuf_rshift P64 ex_mem (MkBbuf (Ptr 0 3) 0) 4 = Ok ex_mem /\
  mu_bbuf_rrotate P64 20 ex_mem ex_hello (-2147483643) = NoFuel.
Proof. split; [done|]. vm_compute. done. Qed.
