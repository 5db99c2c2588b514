(** * Lemmas about the mu_bbuf model: parsers and mutation *)
From Verif Require Import CSem BbufModel BbufSpec BbufProofs BbufProofs2.

(** ** Parsers *)
Definition dstep (v c : Z) : Z := v * 10 + (c - 48).

Lemma wrap_mod M x y : x mod M = y mod M -> wrap_signed M x = wrap_signed M y.
Proof. intros H. unfold wrap_signed. by rewrite H. Qed.
Lemma wrap_congr M x : 0 < M -> wrap_signed M x mod M = x mod M.
Proof.
  intros HM. unfold wrap_signed. destruct (x mod M <? M / 2).
  - by rewrite Z.mod_mod by lia.
  - rewrite <- (Z.mod_add _ 1) by lia. replace (x mod M - M + 1 * M) with (x mod M) by lia. by rewrite Z.mod_mod by lia.
Qed.
Lemma ity_mod_pos t : 0 < ity_mod t.
Proof. destruct t; reflexivity. Qed.
Lemma conv_congr t x : ity_conv t x mod ity_mod t = x mod ity_mod t.
Proof.
  unfold ity_conv. pose proof (ity_mod_pos t). destruct (ity_signed t); [by apply wrap_congr|]. by rewrite Z.mod_mod by lia.
Qed.
Lemma conv_mod t x y : x mod ity_mod t = y mod ity_mod t -> ity_conv t x = ity_conv t y.
Proof. intros H. unfold ity_conv. destruct (ity_signed t); [by apply wrap_mod|done]. Qed.

Definition wraps (t : ity) : bool := match t with I32 | I64 => false | _ => true end.
Definition in_type (t : ity) (v : Z) : Prop := ity_conv t v = v.

Lemma in_type_range t v : in_type t v ->
  match t with
  | I8 => -128 <= v < 128 | I16 => -32768 <= v < 32768 | I32 => -2147483648 <= v < 2147483648
  | I64 => -9223372036854775808 <= v < 9223372036854775808
  | U8 => 0 <= v < 256 | U16 => 0 <= v < 65536 | U32 => 0 <= v < 4294967296 | U64 => 0 <= v < 18446744073709551616
  end.
Proof.
  unfold in_type, ity_conv. destruct t; simpl; intros H; rewrite <- H; clear H;
  try (apply Z.mod_pos_bound; reflexivity);
  match goal with |- context [wrap_signed ?M v] => exact (wrap_signed_range M v eq_refl eq_refl) end.
Qed.
Lemma conv_in_type t x : in_type t (ity_conv t x).
Proof. apply conv_mod, conv_congr. Qed.

(** one step of the accumulation for the types which wrap *)
Lemma arith_step t v d : wraps t = true -> in_type t v -> 0 <= d <= 9 ->
  exists v10 w, ity_arith t (v * 10) = Ok v10 /\ ity_arith t (v10 + d) = Ok w /\ ity_conv t w = ity_conv t (v * 10 + d).
Proof.
  intros Hw Hv Hd. apply in_type_range in Hv. destruct t; try done; unfold ity_arith;
  try (rewrite ichk_ok by (unfold int_min, int_max; lia); eexists _, _; split; [done|];
       rewrite ichk_ok by (unfold int_min, int_max; lia); split; [done|]; done).
  - eexists _, _. split; [done|]. split; [done|]. apply conv_mod. simpl.
    rewrite Z.mod_mod by lia. by rewrite Zplus_mod_idemp_l.
  - eexists _, _. split; [done|]. split; [done|]. apply conv_mod. simpl.
    rewrite Z.mod_mod by lia. by rewrite Zplus_mod_idemp_l.
Qed.

Lemma fold_congr M ds : forall v w, v mod M = w mod M ->
  fold_left dstep ds v mod M = fold_left dstep ds w mod M.
Proof.
  induction ds as [|c ds IH]; intros v w H; simpl; [done|]. apply IH. unfold dstep.
  rewrite <- (Zplus_mod_idemp_l (v * 10)), <- (Zplus_mod_idemp_l (w * 10)).
  rewrite <- (Zmult_mod_idemp_l v), <- (Zmult_mod_idemp_l w). by rewrite H.
Qed.

Lemma parse_loop_wrap t m : wraps t = true -> forall k q pre post fuel v,
  at_ m q pre (k ++ post) -> (length k <= fuel)%nat -> Z.of_nat (length k) <= int_max -> in_type t v ->
  parse_loop fuel t m q (Z.of_nat (length k)) v = Ok (ity_conv t (fold_left dstep (take_while digit k) v)).
Proof.
  intros Hw. induction k as [|c k IH]; intros q pre post fuel v Ha Hf Hm Hv.
  - assert (E0 : isub (Z.of_nat (length (@nil Z))) 1 = Ok (-1)) by done.
    destruct fuel; cbn [parse_loop]; rewrite E0; simpl; by rewrite Hv.
  - destruct fuel as [|fuel]; simpl in Hf; [lia|]. cbn [parse_loop].
    assert (E0 : isub (Z.of_nat (length (c :: k))) 1 = Ok (Z.of_nat (length k))).
    { unfold isub. rewrite ichk_ok by (unfold int_min, int_max in *; simpl length in *; lia). f_equal. simpl. lia. }
    rewrite E0. cbn [bind].
    destruct (Z.ltb_spec 0 (Z.of_nat (length (c :: k)))); [|simpl in *; lia].
    rewrite (at_rd _ _ _ _ _ Ha). cbn [bind]. cbn [take_while].
    change (is_decimal c) with (digit c). destruct (digit c) eqn:E.
    + unfold digit in E. apply andb_prop in E as [E1%Z.leb_le E2%Z.leb_le].
      unfold isub at 1. rewrite ichk_ok by (unfold int_min, int_max; lia). cbn [bind].
      destruct (at_next _ _ _ _ _ Ha) as (q' & -> & Ha' & _). cbn [bind].
      destruct (arith_step t v (c - 48) Hw Hv ltac:(lia)) as (v10 & w & -> & HE & Hc). cbn [bind]. rewrite HE. cbn [bind].
      rewrite (IH q' _ post fuel _ Ha'); [|lia|simpl in Hm; lia|apply conv_in_type]. rewrite Hc.
      f_equal. apply conv_mod. simpl fold_left. apply fold_congr. apply conv_congr.
    + simpl. by rewrite Hv.
Qed.

(** the types which do not wrap *)
Definition smax (t : ity) : Z := ity_mod t / 2 - 1.
Lemma fold_ge ds : Forall (fun c => digit c = true) ds -> forall v, 0 <= v -> v <= fold_left dstep ds v.
Proof.
  induction 1 as [|c ds Hc H IH]; intros v Hv; simpl; [lia|].
  unfold digit in Hc. apply andb_prop in Hc as [E1%Z.leb_le E2%Z.leb_le].
  unfold dstep at 2. etrans; [|apply IH; lia]. lia.
Qed.
Lemma take_while_digits k : Forall (fun c => digit c = true) (take_while digit k).
Proof. induction k as [|c k IH]; simpl; [constructor|]. destruct (digit c) eqn:E; [by constructor|constructor]. Qed.

Lemma arith_signed t x : t = I32 \/ t = I64 -> 0 <= x -> ity_arith t x = if x <=? smax t then Ok x else UB.
Proof.
  intros [-> | ->] Hx; unfold ity_arith, ichk, chk, in_range, smax, int_min, int_max.
  - change (ity_mod I32 / 2 - 1) with 2147483647. zb; simpl; try lia; done.
  - change (ity_mod I64 / 2 - 1) with 9223372036854775807. zb; simpl; try lia; done.
Qed.
Lemma conv_signed t x : t = I32 \/ t = I64 -> - smax t - 1 <= x <= smax t -> ity_conv t x = x.
Proof.
  intros [-> | ->] Hx; unfold ity_conv; simpl; apply wrap_signed_id; try reflexivity; unfold smax in Hx; simpl in *; lia.
Qed.

Lemma parse_loop_signed t m : t = I32 \/ t = I64 -> forall k q pre post fuel v,
  at_ m q pre (k ++ post) -> (length k <= fuel)%nat -> Z.of_nat (length k) <= int_max -> 0 <= v <= smax t ->
  let r := fold_left dstep (take_while digit k) v in
  parse_loop fuel t m q (Z.of_nat (length k)) v = if r <=? smax t then Ok r else UB.
Proof.
  intros Ht. induction k as [|c k IH]; intros q pre post fuel v Ha Hf Hm Hv r.
  - subst r. assert (E0 : isub (Z.of_nat (length (@nil Z))) 1 = Ok (-1)) by done.
    destruct fuel; cbn [parse_loop]; rewrite E0; simpl; (destruct (Z.leb_spec v (smax t)); [done|lia]).
  - destruct fuel as [|fuel]; simpl in Hf; [lia|]. cbn [parse_loop].
    assert (E0 : isub (Z.of_nat (length (c :: k))) 1 = Ok (Z.of_nat (length k))).
    { unfold isub. rewrite ichk_ok by (unfold int_min, int_max in *; simpl length in *; lia). f_equal. simpl. lia. }
    rewrite E0. cbn [bind].
    destruct (Z.ltb_spec 0 (Z.of_nat (length (c :: k)))); [|simpl in *; lia].
    rewrite (at_rd _ _ _ _ _ Ha). cbn [bind].
    change (is_decimal c) with (digit c). subst r. cbn [take_while]. destruct (digit c) eqn:E.
    + unfold digit in E. apply andb_prop in E as [E1%Z.leb_le E2%Z.leb_le].
      unfold isub at 1. rewrite ichk_ok by (unfold int_min, int_max; lia). cbn [bind].
      destruct (at_next _ _ _ _ _ Ha) as (q' & -> & Ha' & _). cbn [bind]. simpl fold_left.
      pose proof (fold_ge _ (take_while_digits k) (dstep v c) ltac:(unfold dstep; lia)) as Hge.
      assert (Hdv : dstep v c = v * 10 + (c - 48)) by done.
      rewrite (arith_signed t (v * 10) Ht) by lia. destruct (Z.leb_spec (v * 10) (smax t)) as [H1|H1]; cbn [bind].
      * rewrite (arith_signed t (v * 10 + (c - 48)) Ht) by lia.
        destruct (Z.leb_spec (v * 10 + (c - 48)) (smax t)) as [H2|H2]; cbn [bind].
        -- rewrite (conv_signed t _ Ht) by lia. apply (IH q' _ post fuel (v * 10 + (c - 48)) Ha'); [lia|simpl in Hm; lia|lia].
        -- destruct (Z.leb_spec (fold_left dstep (take_while digit k) (dstep v c)) (smax t)); [lia|done].
      * destruct (Z.leb_spec (fold_left dstep (take_while digit k) (dstep v c)) (smax t)); [lia|done].
    + simpl. destruct (Z.leb_spec v (smax t)); [done|lia].
Qed.

Lemma uint_parser_ok t m b pre l post : wraps t = true -> in_type t 0 -> buf_at m b pre l post ->
  uint_parser t m b = Ok (ity_conv t (decimal_value (take_while digit l))).
Proof.
  intros Hw H0 Hb. unfold uint_parser, mu_bbuf_capacity, mu_bbuf_bytes_ro.
  pose proof (buf_at_cap _ _ _ _ _ Hb) as [-> Hc]. apply buf_at_at in Hb.
  rewrite (parse_loop_wrap t m Hw l (bytes b) pre post); [done|done|lia|lia|done].
Qed.

(** the two phases of the signed parser *)
Lemma int_parser_split t m b pre l post : buf_at m b pre l post ->
  exists q pre' k (neg : bool), at_ m q pre' (k ++ post) /\ (length k <= length l)%nat /\
    magnitude l = decimal_value (take_while digit k) /\
    signed_value l = (if neg then - magnitude l else magnitude l) /\
    int_parser t m b = (let* v := parse_loop (length k) t m q (Z.of_nat (length k)) 0 in
      if neg : bool then let* x := ity_arith t (- v) in Ok (ity_conv t x) else Ok v).
Proof.
  intros Hb. unfold int_parser, mu_bbuf_capacity, mu_bbuf_bytes_ro.
  pose proof (buf_at_cap _ _ _ _ _ Hb) as [-> Hc]. pose proof (buf_at_at _ _ _ _ _ Hb) as Ha.
  destruct l as [|c l].
  - exists (bytes b), pre, [], false. simpl. repeat split; try done. apply Ha. apply Ha.
  - destruct (Z.leb_spec 1 (Z.of_nat (length (c :: l)))); [|simpl in *; lia].
    rewrite (at_rd _ _ _ _ _ Ha). cbn [bind].
    unfold magnitude, signed_value. destruct (Z.eqb_spec c 45) as [->|Hne].
    + destruct (at_next _ _ _ _ _ Ha) as (q' & HE & Ha' & _).
      exists q', (pre ++ [45]), l, true. split; [done|]. split; [simpl; lia|]. split; [done|].
      split; [done|].
      rewrite HE. cbn [bind]. unfold isub. rewrite ichk_ok by (unfold int_min, int_max in *; lia). cbn [bind].
      replace (Z.of_nat (length (45 :: l)) - 1) with (Z.of_nat (length l)) by (simpl; lia). by rewrite Nat2Z.id.
    + exists (bytes b), pre, (c :: l), false. split; [done|]. split; [lia|]. split; [done|]. split; [unfold magnitude; destruct (Z.eqb_spec c 45); done|].
      cbn [bind]. by rewrite Nat2Z.id.
Qed.

Lemma fold_neg_congr M x y : 0 < M -> x mod M = y mod M -> (- x) mod M = (- y) mod M.
Proof.
  intros HM H. replace (- x) with (0 - x) by lia. replace (- y) with (0 - y) by lia.
  by rewrite Zminus_mod, H, <- Zminus_mod.
Qed.

Lemma int_parser_narrow t m b pre l post : t = I8 \/ t = I16 -> buf_at m b pre l post ->
  int_parser t m b = Ok (ity_conv t (signed_value l)).
Proof.
  intros Ht Hb. destruct (int_parser_split t m b pre l post Hb) as (q & pre' & k & neg & Ha & Hk & Hmag & Hsg & ->).
  assert (Hl : Z.of_nat (length l) <= int_max) by (by destruct Hb as (_ & _ & _ & ?)).
  assert (Hw : wraps t = true) by (by destruct Ht; subst).
  assert (H0 : in_type t 0) by (by destruct Ht; subst).
  rewrite (parse_loop_wrap t m Hw k q pre' post); [|done|lia|lia|done]. cbn [bind].
  fold (decimal_value (take_while digit k)).
  assert (E : fold_left dstep (take_while digit k) 0 = magnitude l) by (by rewrite Hmag).
  rewrite E. rewrite Hsg. destruct neg; [|done].
  pose proof (in_type_range t _ (conv_in_type t (magnitude l))) as Hr.
  assert (HA : ity_arith t (- ity_conv t (magnitude l)) = Ok (- ity_conv t (magnitude l))).
  { destruct Ht; subst; apply ichk_ok; unfold int_min, int_max; lia. }
  rewrite HA. cbn [bind]. f_equal. apply conv_mod. apply fold_neg_congr; [apply ity_mod_pos|]. apply conv_congr.
Qed.

Lemma magnitude_nonneg l : 0 <= magnitude l.
Proof.
  destruct l as [|c l]; [done|]. unfold magnitude. destruct (c =? 45);
  apply (fold_ge _ (take_while_digits _) 0); lia.
Qed.

Lemma int_parser_wide t m b pre l post : t = I32 \/ t = I64 -> buf_at m b pre l post ->
  int_parser t m b = if magnitude l <=? smax t then Ok (signed_value l) else UB.
Proof.
  intros Ht Hb. destruct (int_parser_split t m b pre l post Hb) as (q & pre' & k & neg & Ha & Hk & Hmag & Hsg & ->).
  assert (Hl : Z.of_nat (length l) <= int_max) by (by destruct Hb as (_ & _ & _ & ?)).
  assert (Hs0 : 0 <= smax t) by (destruct Ht; subst; vm_compute; congruence).
  rewrite (parse_loop_signed t m Ht k q pre' post); [|done|lia|lia|lia].
  assert (E : fold_left dstep (take_while digit k) 0 = magnitude l) by (by rewrite Hmag).
  rewrite E. destruct (Z.leb_spec (magnitude l) (smax t)) as [H|H]; [|done]. cbn [bind].
  rewrite Hsg. destruct neg; [|done].
  pose proof (magnitude_nonneg l).
  assert (HA : ity_arith t (- magnitude l) = Ok (- magnitude l)).
  { destruct Ht; subst; unfold ity_arith, ichk, chk, in_range, smax, int_min, int_max in *; simpl in *.
    - change (4294967296 / 2) with 2147483648 in *. zb; simpl; try lia; done.
    - change (18446744073709551616 / 2) with 9223372036854775808 in *. zb; simpl; try lia; done. }
  rewrite HA. cbn [bind]. f_equal. apply conv_signed; [done|lia].
Qed.

(** ** Hexadecimal *)
Definition hstep (v c : Z) : Z := v * 16 + match hex_value1 c with Some d => d | None => 0 end.
Lemma hfold_congr M ds : forall v w, v mod M = w mod M ->
  fold_left hstep ds v mod M = fold_left hstep ds w mod M.
Proof.
  induction ds as [|c ds IH]; intros v w H; simpl; [done|]. apply IH. unfold hstep.
  rewrite <- (Zplus_mod_idemp_l (v * 16)), <- (Zplus_mod_idemp_l (w * 16)).
  rewrite <- (Zmult_mod_idemp_l v), <- (Zmult_mod_idemp_l w). by rewrite H.
Qed.
Lemma char_cases (cs : bool) c (ch := if cs then wrap_signed 256 c else c) : is_byte c ->
  ch = c \/ (ch < 48 \/ 127 < ch) /\ 127 < c.
Proof.
  intros Hc. unfold is_byte in Hc. subst ch. destruct cs; [|by left].
  unfold wrap_signed. rewrite Z.mod_small by lia. change (256 / 2) with 128. zb; [by left|right; lia].
Qed.
Lemma hex_loop_ok cs m : forall k q pre post fuel v,
  at_ m q pre (k ++ post) -> Forall is_byte k -> (length k <= fuel)%nat -> Z.of_nat (length k) <= int_max ->
  0 <= v < 4294967296 ->
  hex_loop fuel cs m q (Z.of_nat (length k)) v = Ok (fold_left hstep (take_while hex_digit k) v mod 4294967296).
Proof.
  induction k as [|c k IH]; intros q pre post fuel v Ha Hby Hf Hm Hv.
  - assert (E0 : isub (Z.of_nat (length (@nil Z))) 1 = Ok (-1)) by done.
    destruct fuel; cbn [hex_loop]; rewrite E0; simpl; by rewrite Z.mod_small by lia.
  - destruct fuel as [|fuel]; simpl in Hf; [lia|]. cbn [hex_loop].
    assert (E0 : isub (Z.of_nat (length (c :: k))) 1 = Ok (Z.of_nat (length k))).
    { unfold isub. rewrite ichk_ok by (unfold int_min, int_max in *; simpl length in *; lia). f_equal. simpl. lia. }
    rewrite E0. cbn [bind].
    destruct (Z.ltb_spec 0 (Z.of_nat (length (c :: k)))); [|simpl in *; lia].
    rewrite (at_rd _ _ _ _ _ Ha). cbn [bind].
    destruct (at_next _ _ _ _ _ Ha) as (q' & -> & Ha' & _). cbn [bind].
    apply Forall_cons in Hby as [Hc Hby].
    set (ch := if cs then wrap_signed 256 c else c).
    assert (Hstep : forall d, hex_value1 c = Some d ->
      hex_loop fuel cs m q' (Z.of_nat (length k)) (((v * 16) mod 4294967296 + d) mod 4294967296) =
      Ok (fold_left hstep (take_while hex_digit (c :: k)) v mod 4294967296)).
    { intros d Hd. rewrite (IH q' _ post fuel _ Ha'); [|done|lia|simpl in Hm; lia|apply Z.mod_pos_bound; lia].
      f_equal. cbn [take_while]. unfold hex_digit at 2. rewrite Hd. simpl fold_left. apply hfold_congr.
      rewrite Z.mod_mod by lia. rewrite Zplus_mod_idemp_l. unfold hstep. by rewrite Hd. }
    assert (Hnone : hex_value1 c = None -> Ok v = Ok (fold_left hstep (take_while hex_digit (c :: k)) v mod 4294967296)).
    { intros Hd. cbn [take_while]. unfold hex_digit at 1. rewrite Hd. simpl. by rewrite Z.mod_small by lia. }
    destruct (char_cases cs c Hc) as [Hch|[Hch Hc2]]; fold ch in Hch.
    + rewrite Hch. destruct ((48 <=? c) && (c <=? 57)) eqn:E1.
      { apply Hstep. unfold hex_value1, digit. by rewrite E1. }
      destruct ((97 <=? c) && (c <=? 102)) eqn:E2.
      { apply Hstep. unfold hex_value1, digit. by rewrite E1, E2. }
      destruct ((65 <=? c) && (c <=? 70)) eqn:E3.
      { apply Hstep. unfold hex_value1, digit. by rewrite E1, E2, E3. }
      apply Hnone. unfold hex_value1, digit. by rewrite E1, E2, E3.
    + assert ((48 <=? ch) && (ch <=? 57) = false) as -> by (zb; simpl; try lia; done).
      assert ((97 <=? ch) && (ch <=? 102) = false) as -> by (zb; simpl; try lia; done).
      assert ((65 <=? ch) && (ch <=? 70) = false) as -> by (zb; simpl; try lia; done).
      apply Hnone. unfold hex_value1, digit. zb; simpl; try lia; done.
Qed.

(** ** Writing *)
Lemma at_wr m q pre x post v : at_ m q pre (x :: post) ->
  wr m q 0 v = Ok (<[blk q := pre ++ v :: post]> m).
Proof.
  intros [H1 H2]. unfold wr. rewrite H1, H2, Z.add_0_r. rewrite st_ok by (rewrite app_length; simpl; lia).
  cbn [bind]. rewrite Nat2Z.id. by rewrite insert_app_r_alt, Nat.sub_diag by lia.
Qed.
Lemma at_insert m q pre post new : m !! blk q = Some (pre ++ post) -> off q = Z.of_nat (length pre) ->
  at_ (<[blk q := pre ++ new]> m) q pre new.
Proof. intros H1 H2. split; [|done]. apply list_lookup_insert. by eapply lookup_lt_Some. Qed.

(** ** reverse *)
Lemma reverse_loop_ok n : forall mid A B m bk front back fuel,
  (length mid <= n)%nat -> (length mid <= fuel)%nat ->
  m !! bk = Some (A ++ mid ++ B) -> front = Ptr bk (Z.of_nat (length A)) ->
  back = Ptr bk (Z.of_nat (length A) + Z.of_nat (length mid) - 1) ->
  reverse_loop fuel m front back = Ok (<[bk := A ++ reverse mid ++ B]> m).
Proof.
  induction n as [|n IH]; intros mid A B m bk front back fuel Hn Hf Hm -> ->.
  { destruct mid; [|simpl in Hn; lia]. simpl length. change (reverse []) with (@nil Z).
    rewrite (list_insert_id _ _ _ Hm).
    destruct fuel; cbn [reverse_loop off]; zb; try lia; done. }
  destruct mid as [|x mid].
  { simpl length. change (reverse []) with (@nil Z). rewrite (list_insert_id _ _ _ Hm).
    destruct fuel; cbn [reverse_loop off]; zb; try lia; done. }
  destruct mid as [|y mid _] using rev_ind.
  { simpl length. change (reverse [x]) with [x]. rewrite (list_insert_id _ _ _ Hm).
    destruct fuel; cbn [reverse_loop off]; zb; try lia; done. }
  destruct fuel as [|fuel]; [simpl in Hf; lia|].
  change (length (x :: mid ++ [y])) with (S (length (mid ++ [y]))) in *. rewrite app_length in *. simpl length in *.
  set (fr := Ptr bk (Z.of_nat (length A))).
  set (bc := Ptr bk (Z.of_nat (length A) + Z.of_nat (S (length mid + 1)) - 1)).
  cbn [reverse_loop]. replace (off fr <? off bc) with true by (subst fr bc; simpl; symmetry; apply Z.ltb_lt; lia).
  assert (Hfr : at_ m fr A (x :: mid ++ [y] ++ B)).
  { split; [|done]. simpl. rewrite Hm. simpl. by rewrite <- app_assoc. }
  assert (Hbc : at_ m bc (A ++ x :: mid) (y :: B)).
  { split; simpl; [rewrite Hm; simpl; by rewrite <- !app_assoc|]. rewrite app_length. simpl. lia. }
  rewrite (at_rd _ _ _ _ _ Hfr), (at_rd _ _ _ _ _ Hbc). cbn [bind].
  rewrite (at_wr _ _ _ _ _ y Hfr). cbn [bind]. change (blk fr) with bk.
  set (m1 := <[bk := _]> m).
  assert (Hlt : (bk < length m)%nat) by (by eapply lookup_lt_Some).
  assert (Hfr1 : at_ m1 fr A (y :: mid ++ [y] ++ B)).
  { split; [|done]. subst m1. by apply list_lookup_insert. }
  destruct (at_next _ _ _ _ _ Hfr1) as (fr' & -> & _ & Hfb & Hfo). cbn [bind].
  assert (Hbc1 : at_ m1 bc (A ++ y :: mid) (y :: B)).
  { split; simpl.
    - subst m1. rewrite list_lookup_insert by done. f_equal. by rewrite <- app_assoc.
    - rewrite app_length. simpl. lia. }
  rewrite (at_wr _ _ _ _ _ x Hbc1). cbn [bind]. change (blk bc) with bk.
  set (m2 := <[bk := _]> m1).
  assert (Hlt1 : (bk < length m1)%nat) by (subst m1; by rewrite insert_length).
  assert (Hpb : padd m2 bc (-1) = Ok (Ptr bk (off bc - 1))).
  { unfold padd. simpl blk. subst m2. rewrite list_lookup_insert by done. subst bc. simpl off.
    rewrite !app_length. simpl length. zb; simpl; try lia; done. }
  rewrite Hpb. cbn [bind].
  rewrite (IH mid (A ++ [y]) ([x] ++ B) m2 bk fr' (Ptr bk (off bc - 1)) fuel).
  - f_equal. subst m2 m1. rewrite !list_insert_insert. f_equal.
    rewrite reverse_cons, reverse_app. simpl. by rewrite <- !app_assoc.
  - lia.
  - lia.
  - subst m2. rewrite list_lookup_insert by done. by rewrite <- !app_assoc.
  - destruct fr' as [fb fo]. simpl in *. subst. f_equal. rewrite app_length. simpl. lia.
  - f_equal. subst bc. simpl. rewrite app_length. simpl. lia.
Qed.

Lemma reverse_ok p m b pre l post : buf_at m b pre l post -> l <> [] ->
  mu_bbuf_reverse p m b = Ok (with_contents m b pre (reverse l) post).
Proof.
  intros Hb Hl. pose proof (buf_at_cap _ _ _ _ _ Hb) as [_ Hc]. pose proof (buf_at_at _ _ _ _ _ Hb) as Ha.
  unfold mu_bbuf_reverse.
  destruct (at_padd m (bytes b) pre [] (l ++ post) 0 Ha eq_refl) as (f & -> & _ & Hf1 & Hf2). cbn [bind].
  destruct Hb as (H1 & H2 & H3 & H4). rewrite H3.
  assert (Hln : (length l <> 0)%nat) by (destruct l; done).
  pose proof (size_mod_big p). rewrite to_size_id by (unfold int_max in *; lia).
  assert (Hp : padd m (bytes b) (Z.of_nat (length l) - 1) = Ok (Ptr (blk (bytes b)) (off (bytes b) + (Z.of_nat (length l) - 1)))).
  { unfold padd. rewrite H1, H2, !app_length. zb; simpl; try lia; done. }
  rewrite Hp. cbn [bind].
  apply (reverse_loop_ok (length l)); [lia|lia|done| |].
  - destruct f; simpl in *; subst. f_equal. lia.
  - f_equal. lia.
Qed.
