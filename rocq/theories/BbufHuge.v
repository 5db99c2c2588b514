(** * C103: byte buffers of more than INT_MAX bytes.

    The capacity of a buffer is a size_t, but most functions of mu_bbuf.c store it in an
    int.  [bytes_at p m b pre l post] (BvecProps) is a buffer of any size the platform
    can address. *)
From Verif Require Import CSem BbufModel BbufSpec BbufProofs BbufProofs2 BbufProofs3 BbufProps BbufProps2 BvecProps.

(** ** Functions which are right for every size *)
Theorem C103_clear : forall p m b pre l post, bytes_at p m b pre l post ->
  mu_bbuf_clear m b = Ok (with_contents m b pre (replicate (length l) 0) post).
Proof.
  intros p m b pre l post (H1 & H2 & H3 & H4). unfold mu_bbuf_clear. rewrite H3. by apply mset_ok.
Qed.
Print Assumptions C103_clear.

Theorem C103_rshift : forall p m b pre l post shift, bytes_at p m b pre l post -> int_min < shift <= int_max ->
  exists l', shifted l l' shift /\ mu_bbuf_rshift p m b shift = Ok (with_contents m b pre l' post).
Proof.
  intros p m b pre l post shift Hb Hsh. pose proof Hb as (H1 & H2 & H3 & H4).
  pose proof (size_mod_big p). unfold size_max in H4. set (n := length l) in *.
  unfold mu_bbuf_rshift. rewrite H3.
  set (sl := shift <? 0). set (a := Z.abs shift).
  assert (E : (if sl then let* s := ichk (- shift) in Ok (true, s) else Ok (false, shift)) = Ok (sl, a)).
  { subst sl a. destruct (Z.ltb_spec shift 0).
    - rewrite ichk_ok by (unfold int_min, int_max in *; lia). cbn [bind]. do 2 f_equal. lia.
    - do 2 f_equal. lia. }
  rewrite E. cbn [bind]. rewrite (to_size_id p a) by (unfold int_min, int_max in *; lia).
  destruct (Z.eqb_spec a 0) as [Ha0|Ha0].
  { exists l. split.
    - split; [done|]. intros i Hi. assert (shift = 0) as -> by lia. rewrite decide_True by lia. f_equal. lia.
    - unfold with_contents. by rewrite list_insert_id. }
  destruct (Z.leb_spec (Z.of_nat n) a) as [Hna|Hna].
  { exists (replicate n 0). split; [|by apply (C103_clear p m b pre l post)].
    split; [by rewrite replicate_length|]. intros i Hi. rewrite lookup_replicate_2 by done.
    destruct (decide _) as [Hd|Hd]; [|done]. lia. }
  assert (Hlt0 : (blk (bytes b) < length m)%nat) by (by eapply lookup_lt_Some).
  rewrite (to_size_id p (Z.of_nat n - a)) by (unfold int_max in *; lia).
  set (A := Z.to_nat a).
  assert (Hpa : padd m (bytes b) a = Ok (Ptr (blk (bytes b)) (off (bytes b) + a))).
  { unfold padd. rewrite H1, H2, !app_length. fold n. zb; simpl; try lia; done. }
  rewrite Hpa. cbn [bind].
  assert (Hpl : length (pre ++ l ++ post) = (length pre + (n + length post))%nat) by (by rewrite !app_length).
  destruct sl eqn:Esl; subst sl.
  - apply Z.ltb_lt in Esl.
    unfold mmove. simpl blk. rewrite Nat.eqb_refl, H1. simpl off. rewrite H2.
    rewrite memmove_ok by lia. cbn [bind].
    exists (drop A l ++ replicate A 0). split.
    + split; [rewrite app_length, drop_length, replicate_length; lia|]. intros i Hi.
      destruct (decide _) as [Hd|Hd].
      * rewrite lookup_app_l by (rewrite drop_length; lia). rewrite lookup_drop. f_equal. lia.
      * rewrite lookup_app_r by (rewrite drop_length; lia). rewrite drop_length, lookup_replicate_2; [done|lia].
    + assert (Hblk : take (Z.to_nat (Z.of_nat (length pre))) (pre ++ l ++ post) ++
         take (Z.to_nat (Z.of_nat n - a)) (drop (Z.to_nat (Z.of_nat (length pre) + a)) (pre ++ l ++ post)) ++
         drop (Z.to_nat (Z.of_nat (length pre) + (Z.of_nat n - a))) (pre ++ l ++ post) =
         (pre ++ drop A l) ++ drop (n - A) l ++ post).
      { rewrite Nat2Z.id, take_app. rewrite <- app_assoc. f_equal.
        replace (Z.to_nat (Z.of_nat (length pre) + a)) with (length pre + A)%nat by lia.
        rewrite drop_app_add'. 
        replace (Z.to_nat (Z.of_nat (length pre) + (Z.of_nat n - a))) with (length pre + (n - A))%nat by lia.
        rewrite drop_app_add'.
        rewrite (drop_app_le l post A) by lia. rewrite (drop_app_le l post (n - A)) by lia.
        replace (Z.to_nat (Z.of_nat n - a)) with (length (drop A l)) by (rewrite drop_length; lia).
        by rewrite take_app. }
      rewrite Hblk.
      set (m1 := <[_ := _]> m).
      assert (Hm1 : m1 !! blk (bytes b) = Some ((pre ++ drop A l) ++ drop (n - A) l ++ post)) by (by apply list_lookup_insert).
      assert (Hp2 : padd m1 (bytes b) (Z.of_nat n - a) = Ok (Ptr (blk (bytes b)) (off (bytes b) + (Z.of_nat n - a)))).
      { unfold padd. rewrite Hm1, H2, !app_length, !drop_length. fold n. zb; simpl; try lia; done. }
      rewrite Hp2. cbn [bind].
      assert (Hla : length (drop (n - A) l) = A) by (rewrite drop_length; fold n; lia).
      pose proof (mset_ok m1 (Ptr (blk (bytes b)) (off (bytes b) + (Z.of_nat n - a))) (pre ++ drop A l) (drop (n - A) l) post 0) as X.
      rewrite Hla in X. replace (Z.of_nat A) with a in X by lia. rewrite X; [|done|].
      * unfold with_contents. subst m1. simpl blk. rewrite list_insert_insert. by rewrite <- !app_assoc.
      * simpl. rewrite app_length, drop_length. fold n. lia.
  - apply Z.ltb_ge in Esl.
    unfold mmove. simpl blk. rewrite Nat.eqb_refl, H1. simpl off. rewrite H2.
    rewrite memmove_ok by lia. cbn [bind].
    exists (replicate A 0 ++ take (n - A) l). split.
    + split; [rewrite app_length, take_length, replicate_length; lia|]. intros i Hi.
      destruct (decide _) as [Hd|Hd].
      * rewrite lookup_app_r by (rewrite replicate_length; lia). rewrite replicate_length, lookup_take by lia. f_equal. lia.
      * rewrite lookup_app_l by (rewrite replicate_length; lia). rewrite lookup_replicate_2; [done|lia].
    + assert (Hblk : take (Z.to_nat (Z.of_nat (length pre) + a)) (pre ++ l ++ post) ++
         take (Z.to_nat (Z.of_nat n - a)) (drop (Z.to_nat (Z.of_nat (length pre))) (pre ++ l ++ post)) ++
         drop (Z.to_nat (Z.of_nat (length pre) + a + (Z.of_nat n - a))) (pre ++ l ++ post) =
         pre ++ take A l ++ (take (n - A) l ++ post)).
      { replace (Z.to_nat (Z.of_nat (length pre) + a)) with (length pre + A)%nat by lia.
        rewrite take_app_add'. rewrite <- app_assoc. f_equal.
        rewrite (take_app_le l post A) by lia. f_equal.
        rewrite Nat2Z.id, drop_app.
        rewrite take_app_le by lia. replace (Z.to_nat (Z.of_nat n - a)) with (n - A)%nat by lia. f_equal.
        replace (Z.to_nat (Z.of_nat (length pre) + a + (Z.of_nat n - a))) with (length (pre ++ l)) by (rewrite app_length; fold n; lia).
        rewrite app_assoc. by rewrite drop_app. }
      rewrite Hblk.
      set (m1 := <[_ := _]> m).
      assert (Hm1 : m1 !! blk (bytes b) = Some (pre ++ take A l ++ (take (n - A) l ++ post))) by (by apply list_lookup_insert).
      assert (Hla : length (take A l) = A) by (rewrite take_length; fold n; lia).
      pose proof (mset_ok m1 (bytes b) pre (take A l) (take (n - A) l ++ post) 0 Hm1 H2) as X.
      rewrite Hla in X. replace (Z.of_nat A) with a in X by lia. rewrite X.
      unfold with_contents. subst m1. rewrite list_insert_insert. by rewrite <- !app_assoc.
Qed.
Print Assumptions C103_rshift.

Theorem C103_reverse : forall p m b pre l post, bytes_at p m b pre l post -> l <> [] ->
  mu_bbuf_reverse p m b = Ok (with_contents m b pre (reverse l) post).
Proof.
  intros p m b pre l post Hb Hl. pose proof Hb as (H1 & H2 & H3 & H4).
  assert (Ha : at_ m (bytes b) pre (l ++ post)) by (by split).
  unfold mu_bbuf_reverse.
  destruct (at_padd m (bytes b) pre [] (l ++ post) 0 Ha eq_refl) as (f & -> & _ & Hf1 & Hf2). cbn [bind]. rewrite H3.
  assert (Hln : (length l <> 0)%nat) by (destruct l; done).
  unfold size_max in *. rewrite to_size_id by lia.
  assert (Hp : padd m (bytes b) (Z.of_nat (length l) - 1) = Ok (Ptr (blk (bytes b)) (off (bytes b) + (Z.of_nat (length l) - 1)))).
  { unfold padd. rewrite H1, H2, !app_length. zb; simpl; try lia; done. }
  rewrite Hp. cbn [bind].
  apply (reverse_loop_ok (length l)); [lia|lia|done| |].
  - destruct f; simpl in *; subst. f_equal. lia.
  - f_equal. lia.
Qed.
Print Assumptions C103_reverse.

Theorem C103_get_ref : forall p m b pre l post index, bytes_at p m b pre l post -> 0 <= index ->
  (index < capacity b ->
     exists x, l !! Z.to_nat index = Some x /\ mu_bbuf_get_byte m b index = Ok (true, Some x) /\
       exists q, mu_bbuf_ref m b index = Ok (Some q) /\ blk q = blk (bytes b) /\
         off q = Z.of_nat (length pre) + index /\ rd m q 0 = Ok x) /\
  (capacity b <= index -> mu_bbuf_get_byte m b index = Ok (false, None) /\ mu_bbuf_ref m b index = Ok None).
Proof.
  intros p m b pre l post index Hb Hi. unfold mu_bbuf_get_byte, mu_bbuf_ref.
  pose proof Hb as (H1 & H2 & H3 & H4). assert (Ha : at_ m (bytes b) pre (l ++ post)) by (by split). split; intros H.
  - destruct (lookup_lt_is_Some_2 l (Z.to_nat index)) as [x Hx]; [lia|]. exists x. split; [done|].
    destruct (Z.leb_spec (capacity b) index); [lia|]. destruct (Z.ltb_spec index (capacity b)); [|lia].
    split.
    + replace index with (Z.of_nat (Z.to_nat index)) at 1 by lia.
      rewrite (at_rdi m (bytes b) pre (l ++ post) _ x Ha) by (by apply lookup_app_l_Some). done.
    + rewrite <- (take_drop (Z.to_nat index) l), <- app_assoc in Ha.
      destruct (at_padd _ _ _ _ _ index Ha) as (q & -> & Ha' & Hq1 & Hq2); [rewrite take_length; lia|].
      exists q. split; [done|]. split; [done|]. split; [lia|].
      rewrite (drop_S _ _ _ Hx) in Ha'. by apply at_rd in Ha'.
  - destruct (Z.leb_spec (capacity b) index); [|lia]. destruct (Z.ltb_spec index (capacity b)); [lia|]. done.
Qed.
Print Assumptions C103_get_ref.
Theorem C103_put : forall p m b pre l post index byte, bytes_at p m b pre l post -> 0 <= index ->
  (index < capacity b ->
     let m' := with_contents m b pre (<[Z.to_nat index := byte]> l) post in
     mu_bbuf_put_byte m b index byte = Ok (true, m') /\
     bytes_at p m' b pre (<[Z.to_nat index := byte]> l) post /\
     mu_bbuf_get_byte m' b index = Ok (true, Some byte)) /\
  (capacity b <= index -> mu_bbuf_put_byte m b index byte = Ok (false, m)).
Proof.
  intros p m b pre l post index byte Hb Hi. unfold mu_bbuf_put_byte.
  pose proof Hb as (H1 & H2 & H3 & H4). split; intros H.
  - set (m' := with_contents m b pre (<[Z.to_nat index := byte]> l) post). destruct (Z.leb_spec (capacity b) index); [lia|].
    assert (Hb' : bytes_at p m' b pre (<[Z.to_nat index := byte]> l) post).
    { subst m'. repeat split; rewrite ?insert_length; try done. apply list_lookup_insert. by eapply lookup_lt_Some. }
    split; [|split; [done|]].
    + unfold wr. rewrite H1, H2. rewrite st_ok by (rewrite !app_length; lia). cbn [bind].
      subst m'. unfold with_contents. do 3 f_equal.
      rewrite insert_app_r_alt by lia. f_equal.
      replace (Z.to_nat (Z.of_nat (length pre) + index) - length pre)%nat with (Z.to_nat index) by lia.
      rewrite insert_app_l; [done|lia].
    + destruct (C103_get_ref p m' b pre _ post index Hb' Hi) as [X _]. destruct (X H) as (x & Hx & -> & _).
      rewrite list_lookup_insert in Hx by lia. congruence.
  - destruct (Z.leb_spec (capacity b) index); [|lia]. done.
Qed.
Print Assumptions C103_put.

(** ** mu_bbuf_find_byte counts with an int: right if the byte is among the first 2^31,
    else undefined for every buffer of more than INT_MAX bytes *)
Section find_byte.
Context (p : plat) (m : memory) (b : bbuf) (pre l post : list Z) (byte : Z).
Hypothesis Hb : bytes_at p m b pre l post.
Lemma fb_rd (i : nat) x : l !! i = Some x -> rd m (bytes b) (Z.of_nat i) = Ok x.
Proof using Hb.
  intros Hx. destruct Hb as (H1 & H2 & _). apply (at_rdi m (bytes b) pre (l ++ post)); [by split|]. by apply lookup_app_l_Some.
Qed.
Lemma fb_step fuel (i : nat) x : Z.of_nat i <= int_max -> l !! i = Some x ->
  find_byte_loop p (S fuel) m b byte (Z.of_nat i) =
  if x =? byte then Ok (Z.of_nat i)
  else let* i := iadd (Z.of_nat i) 1 in find_byte_loop p fuel m b byte i.
Proof using Hb.
  intros Hi Hx. cbn [find_byte_loop]. pose proof (size_mod_big p). rewrite to_size_id by (unfold int_max in *; lia).
  pose proof Hb as (_ & _ & -> & _). apply lookup_lt_Some in Hx as Hlt.
  destruct (Z.ltb_spec (Z.of_nat i) (Z.of_nat (length l))); [|lia]. by rewrite (fb_rd i x Hx).
Qed.
Lemma fb_found k : l !! k = Some byte -> Z.of_nat k <= int_max ->
  forall n i fuel, (i + n = k)%nat -> (n < fuel)%nat -> (forall j, (i <= j < k)%nat -> l !! j <> Some byte) ->
  find_byte_loop p fuel m b byte (Z.of_nat i) = Ok (Z.of_nat k).
Proof using Hb.
  intros Hk Hmax. induction n as [|n IH]; intros i fuel Hi Hf Hno; (destruct fuel as [|fuel]; [lia|]).
  - replace i with k by lia. rewrite (fb_step fuel k byte) by done. by rewrite Z.eqb_refl.
  - apply lookup_lt_Some in Hk as Hlt. destruct (lookup_lt_is_Some_2 l i) as [x Hx]; [lia|].
    rewrite (fb_step fuel i x) by (done || lia).
    destruct (Z.eqb_spec x byte) as [->|]; [by destruct (Hno i); [lia|]|].
    unfold iadd. rewrite ichk_ok by (unfold int_min; lia). cbn [bind].
    replace (Z.of_nat i + 1) with (Z.of_nat (S i)) by lia. apply IH; [lia|lia|]. intros j Hj. apply Hno. lia.
Qed.
Lemma fb_none : forall n i fuel, (length l - i = n)%nat -> (n <= fuel)%nat -> Z.of_nat i <= int_max -> (i <= length l)%nat ->
  (forall j, (i <= j)%nat -> Z.of_nat j <= int_max -> l !! j <> Some byte) ->
  find_byte_loop p fuel m b byte (Z.of_nat i) = if Z.of_nat (length l) <=? int_max then Ok MU_BBUF_NOT_FOUND else UB.
Proof using Hb.
  pose proof (size_mod_big p) as Hbig.
  induction n as [|n IH]; intros i fuel Hn Hf Hi Hle Hno.
  - assert (i = length l) as -> by lia. pose proof Hb as (_ & _ & H3 & _).
    destruct (Z.leb_spec (Z.of_nat (length l)) int_max); [|lia].
    destruct fuel; cbn [find_byte_loop]; rewrite to_size_id, H3 by (unfold int_max in *; lia);
    (destruct (Z.ltb_spec (Z.of_nat (length l)) (Z.of_nat (length l))); [lia|done]).
  - destruct fuel as [|fuel]; [lia|]. destruct (lookup_lt_is_Some_2 l i) as [x Hx]; [lia|].
    rewrite (fb_step fuel i x) by done.
    destruct (Z.eqb_spec x byte) as [->|]; [by destruct (Hno i); [lia|lia|]|].
    unfold iadd. destruct (decide (Z.of_nat i = int_max)) as [E|E].
    + rewrite ichk_ub by lia. destruct (Z.leb_spec (Z.of_nat (length l)) int_max); [lia|done].
    + rewrite ichk_ok by (unfold int_min; lia). cbn [bind].
      replace (Z.of_nat i + 1) with (Z.of_nat (S i)) by lia. apply IH; try lia. intros j Hj. apply Hno. lia.
Qed.
End find_byte.
Theorem C103_find_byte : forall p m b pre l post byte, bytes_at p m b pre l post ->
  (forall i, l !! i = Some byte -> (forall j, (j < i)%nat -> l !! j <> Some byte) -> Z.of_nat i <= int_max ->
     mu_bbuf_find_byte p m b byte = Ok (Z.of_nat i)) /\
  ((forall i, Z.of_nat i <= int_max -> l !! i <> Some byte) ->
     mu_bbuf_find_byte p m b byte = if Z.of_nat (length l) <=? int_max then Ok MU_BBUF_NOT_FOUND else UB).
Proof.
  intros p m b pre l post byte Hb. pose proof Hb as (_ & _ & H3 & _). unfold mu_bbuf_find_byte. rewrite H3, Nat2Z.id. split.
  - intros i Hi Hno Hmax. apply lookup_lt_Some in Hi as Hlt.
    apply (fb_found p m b pre l post byte Hb i Hi Hmax i 0 (length l)); try lia. intros j Hj. apply Hno. lia.
  - intros Hno. apply (fb_none p m b pre l post byte Hb (length l) 0 (length l)); try lia; [unfold int_max; lia|].
    intros j _. apply Hno.
Qed.
Print Assumptions C103_find_byte.

(** ** Functions which take the capacity as an int *)
(** the buffer of the first [capacity mod 2^32] bytes *)
Definition low_part (b : bbuf) : bbuf := MkBbuf (bytes b) (capacity b mod 2 ^ 32).

Lemma to_int_low b : to_int (capacity (low_part b)) = to_int (capacity b).
Proof. unfold low_part, to_int, wrap_signed. cbn [capacity]. change (2 ^ 32) with 4294967296. rewrite Zmod_mod. done. Qed.
Lemma to_int_pred p b : to_int (to_size p (capacity (low_part b) - 1)) = to_int (to_size p (capacity b - 1)).
Proof.
  unfold low_part, to_int, wrap_signed, to_size. cbn [capacity]. change (2 ^ 32) with 4294967296.
  assert (E : forall x, (x mod size_mod p) mod 4294967296 = x mod 4294967296).
  { intros x. destruct p; [apply Zmod_mod|]. unfold size_mod.
    symmetry. apply Znumtheory.Zmod_div_mod; try lia. exists 4294967296. lia. }
  rewrite !E. rewrite Zminus_mod_idemp_l. done.
Qed.

(** They do exactly what they do for that smaller buffer: what lies behind it is ignored. *)
Theorem C103_truncated : forall p m b b2 cstr byte pred skip t cs,
  let b' := low_part b in let b2' := low_part b2 in
  mu_bbuf_compare m b b2 = mu_bbuf_compare m b' b2' /\
  mu_bbuf_compare_cstr m b cstr = mu_bbuf_compare_cstr m b' cstr /\
  mu_bbuf_matches m b b2 = mu_bbuf_matches m b' b2' /\
  mu_bbuf_matches_cstr m b cstr = mu_bbuf_matches_cstr m b' cstr /\
  mu_bbuf_has_prefix m b b2 = mu_bbuf_has_prefix m b' b2' /\
  mu_bbuf_has_prefix_cstr m b cstr = mu_bbuf_has_prefix_cstr m b' cstr /\
  mu_bbuf_has_suffix m b b2 = mu_bbuf_has_suffix m b' b2' /\
  mu_bbuf_has_suffix_cstr m b cstr = mu_bbuf_has_suffix_cstr m b' cstr /\
  mu_bbuf_find_substr m b b2 skip = mu_bbuf_find_substr m b' b2' skip /\
  mu_bbuf_find_subcstr m b cstr skip = mu_bbuf_find_subcstr m b' cstr skip /\
  mu_bbuf_rfind_substr m b b2 skip = mu_bbuf_rfind_substr m b' b2' skip /\
  mu_bbuf_rfind_subcstr m b cstr skip = mu_bbuf_rfind_subcstr m b' cstr skip /\
  mu_bbuf_rfind_byte p m b byte = mu_bbuf_rfind_byte p m b' byte /\
  mu_bbuf_find_predicate m b pred = mu_bbuf_find_predicate m b' pred /\
  mu_bbuf_rfind_predicate m b pred = mu_bbuf_rfind_predicate m b' pred /\
  int_parser t m b = int_parser t m b' /\
  uint_parser t m b = uint_parser t m b' /\
  mu_bbuf_parse_hex cs m b = mu_bbuf_parse_hex cs m b'.
Proof.
  intros p m b b2 cstr byte pred skip t cs b' b2'.
  pose proof (to_int_low b) as E1. pose proof (to_int_low b2) as E2. pose proof (to_int_pred p b) as E3.
  fold b' in E1, E3. fold b2' in E2.
  assert (F1 : bytes b' = bytes b) by done. assert (F2 : bytes b2' = bytes b2) by done.
  clearbody b' b2'.
  split_and!;
  unfold mu_bbuf_compare, mu_bbuf_compare_cstr, mu_bbuf_matches, mu_bbuf_matches_cstr, mu_bbuf_has_prefix, mu_bbuf_has_prefix_cstr,
    mu_bbuf_has_suffix, mu_bbuf_has_suffix_cstr, mu_bbuf_find_substr, mu_bbuf_find_subcstr, mu_bbuf_rfind_substr, mu_bbuf_rfind_subcstr,
    mu_bbuf_find_predicate, mu_bbuf_rfind_predicate, int_parser, uint_parser, mu_bbuf_parse_hex, str_compare_aux, has_prefix, has_suffix,
    mu_bbuf_find_aux, mu_bbuf_rfind_aux, mu_bbuf_capacity, mu_bbuf_bytes_ro; rewrite ?E1, ?E2, ?F1, ?F2; try reflexivity.
  unfold mu_bbuf_rfind_byte. rewrite E3. generalize (to_int (to_size p (capacity b - 1))). intros i.
  generalize (S (Z.to_nat i)). intros fuel. revert i. induction fuel as [|fuel IH]; intros i; cbn [rfind_byte_loop]; [done|].
  rewrite F1. destruct (0 <=? i); [|done]. destruct (rd m (bytes b) i); cbn [bind]; try done. destruct (_ =? byte); [done|].
  destruct (isub i 1); cbn [bind]; done || apply IH.
Qed.
Print Assumptions C103_truncated.
(** The smaller buffer is an ordinary one if its size fits an int (so C21 to C30 say what
    the functions do with it). *)
Theorem C103_low_part : forall p m b pre l post, bytes_at p m b pre l post -> capacity b mod 2 ^ 32 <= int_max ->
  let n := Z.to_nat (capacity b mod 2 ^ 32) in buf_at m (low_part b) pre (take n l) (drop n l ++ post).
Proof.
  intros p m b pre l post (H1 & H2 & H3 & H4) Hle n.
  pose proof (Z.mod_pos_bound (capacity b) (2 ^ 32) ltac:(lia)) as Hm.
  assert (Hn : (n <= length l)%nat).
  { subst n. pose proof (Z.mod_le (capacity b) (2 ^ 32) ltac:(lia) ltac:(lia)). lia. }
  split; [|split; [done|]].
  - simpl. rewrite H1. f_equal. f_equal. rewrite app_assoc. by rewrite take_drop.
  - rewrite take_length. simpl. subst n. lia.
Qed.
Print Assumptions C103_low_part.

(** ** Sizes whose low 32 bits read as a negative int *)
Lemma to_int_neg c : 0 <= c -> int_max < c mod 2 ^ 32 -> to_int c = c mod 2 ^ 32 - 2 ^ 32 /\ int_min <= to_int c < 0.
Proof.
  intros Hc H. unfold to_int, wrap_signed. change (2 ^ 32) with 4294967296 in *.
  pose proof (Z.mod_pos_bound c 4294967296 ltac:(lia)). unfold int_max, int_min in *.
  destruct (Z.ltb_spec (c mod 4294967296) (4294967296 / 2)) as [H1|H1]; change (4294967296 / 2) with 2147483648 in H1; lia.
Qed.
(** The searches find nothing, the parsers see no digit, the tests fail - whatever the
    buffer holds - or the call is undefined; the buffer compares by the difference of the
    sizes as ints.  [k] is the negative size. *)
Theorem C103_negative : forall p m b pre l post b2 pre2 l2 post2 pred t cs skip, bytes_at p m b pre l post ->
  buf_at m b2 pre2 l2 post2 -> int_max < capacity b mod 2 ^ 32 ->
  let k := capacity b mod 2 ^ 32 - 2 ^ 32 in
  mu_bbuf_find_predicate m b pred = Ok MU_BBUF_NOT_FOUND /\
  mu_bbuf_rfind_predicate m b pred = (if Z.of_nat (length pre) + k <? 0 then UB else Ok MU_BBUF_NOT_FOUND) /\
  (capacity b mod 2 ^ 32 <> 2 ^ 31 -> forall byte, mu_bbuf_rfind_byte p m b byte = Ok MU_BBUF_NOT_FOUND) /\
  int_parser t m b = (if k =? int_min then UB else Ok 0) /\
  uint_parser t m b = (if k =? int_min then UB else Ok 0) /\
  mu_bbuf_parse_hex cs m b = (if k =? int_min then UB else Ok 0) /\
  mu_bbuf_compare m b b2 = (if k - Z.of_nat (length l2) <? int_min then UB else Ok (k - Z.of_nat (length l2))) /\
  mu_bbuf_has_prefix m b b2 = Ok (bool_decide (l2 = [])) /\
  mu_bbuf_has_suffix m b b2 = Ok (bool_decide (l2 = [])) /\
  (l2 <> [] -> mu_bbuf_find_substr m b b2 skip = (if k - Z.of_nat (length l2) <? int_min then UB else Ok MU_BBUF_NOT_FOUND) /\
               mu_bbuf_rfind_substr m b b2 skip = (if k - Z.of_nat (length l2) <? int_min then UB else Ok MU_BBUF_NOT_FOUND)).
Proof.
  intros p m b pre l post b2 pre2 l2 post2 pred t cs skip (H1 & H2 & H3 & H4) Hb2 Hneg k.
  destruct (to_int_neg (capacity b) ltac:(lia) Hneg) as [Hk Hr]. fold k in Hk.
  destruct (buf_at_cap _ _ _ _ _ Hb2) as [Hc2 Hl2].
  assert (Hk0 : Z.to_nat k = 0%nat) by lia. rewrite Hk in Hr.
  assert (Hsub : isub k (Z.of_nat (length l2)) = if k - Z.of_nat (length l2) <? int_min then UB else Ok (k - Z.of_nat (length l2))).
  { unfold isub. destruct (Z.ltb_spec (k - Z.of_nat (length l2)) int_min).
    - apply ichk_ub. lia.
    - apply ichk_ok. unfold int_min, int_max in *. lia. }
  assert (Hparse : forall q, parse_loop 0 t m q k 0 = if k =? int_min then UB else Ok 0).
  { intros q. cbn [parse_loop]. unfold isub. destruct (Z.eqb_spec k int_min).
    - rewrite ichk_ub; [done|unfold int_min in *; lia].
    - rewrite ichk_ok by (unfold int_min, int_max in *; lia). cbn [bind]. destruct (Z.ltb_spec 0 k); [lia|done]. }
  split_and!.
  - unfold mu_bbuf_find_predicate, mu_bbuf_capacity. rewrite Hk, Hk0. cbn [find_predicate_loop]. destruct (Z.ltb_spec 0 k); [lia|done].
  - unfold mu_bbuf_rfind_predicate, mu_bbuf_capacity, mu_bbuf_bytes_ro. rewrite Hk. unfold padd. rewrite H1, H2, Hk0.
    destruct (Z.ltb_spec (Z.of_nat (length pre) + k) 0).
    + destruct (Z.leb_spec 0 (Z.of_nat (length pre) + k)); [lia|done].
    + destruct (Z.leb_spec 0 (Z.of_nat (length pre) + k)); [|lia]. rewrite !app_length.
      destruct (Z.leb_spec (Z.of_nat (length pre) + k) (Z.of_nat (length pre + (length l + length post)))); [|lia].
      cbn [andb bind rfind_predicate_loop]. destruct (Z.ltb_spec 0 k); [lia|done].
  - intros Hne byte. unfold mu_bbuf_rfind_byte.
    rewrite <- to_int_pred. unfold low_part. cbn [capacity].
    rewrite to_size_id.
    2:{ pose proof (Z.mod_pos_bound (capacity b) (2 ^ 32) ltac:(lia)). pose proof (size_mod_big p). destruct p; unfold size_mod, int_max in *; lia. }
    assert (Hi : to_int (capacity b mod 2 ^ 32 - 1) < 0).
    { pose proof (Z.mod_pos_bound (capacity b) (2 ^ 32) ltac:(lia)).
      destruct (to_int_neg (capacity b mod 2 ^ 32 - 1)) as [? ?]; [unfold int_max in *; lia| |lia].
      rewrite Z.mod_small by (unfold int_max in *; lia). unfold int_max in *. lia. }
    generalize (S (Z.to_nat (to_int (capacity b mod 2 ^ 32 - 1)))). intros fuel.
    destruct fuel; cbn [rfind_byte_loop]; (destruct (Z.leb_spec 0 (to_int (capacity b mod 2 ^ 32 - 1))); [lia|done]).
  - unfold int_parser, mu_bbuf_capacity. rewrite Hk. destruct (Z.leb_spec 1 k); [lia|]. cbn [bind]. rewrite Hk0, Hparse.
    destruct (k =? int_min); done.
  - unfold uint_parser, mu_bbuf_capacity. rewrite Hk, Hk0. apply Hparse.
  - unfold mu_bbuf_parse_hex, mu_bbuf_capacity. rewrite Hk, Hk0. cbn [hex_loop]. unfold isub. destruct (Z.eqb_spec k int_min).
    + rewrite ichk_ub; [done|unfold int_min in *; lia].
    + rewrite ichk_ok by (unfold int_min, int_max in *; lia). cbn [bind]. destruct (Z.ltb_spec 0 k); [lia|done].
  - unfold mu_bbuf_compare, str_compare_aux, mu_bbuf_capacity. rewrite Hk, Hc2. destruct (Z.ltb_spec k (Z.of_nat (length l2))); [|lia].
    rewrite Hk0. cbn [compare_loop]. destruct (Z.ltb_spec 0 k); [lia|]. cbn [bind]. done.
  - unfold mu_bbuf_has_prefix, has_prefix, mu_bbuf_capacity. rewrite Hk, Hc2. destruct l2; [done|].
    destruct (Z.eqb_spec (Z.of_nat (length (z :: l2))) 0) as [E|]; [simpl in E; lia|].
    destruct (Z.ltb_spec k (Z.of_nat (length (z :: l2)))); [|lia]. done.
  - unfold mu_bbuf_has_suffix, has_suffix, mu_bbuf_capacity. rewrite Hk, Hc2. destruct l2; [done|].
    destruct (Z.eqb_spec (Z.of_nat (length (z :: l2))) 0) as [E|]; [simpl in E; lia|].
    destruct (Z.ltb_spec k (Z.of_nat (length (z :: l2)))); [|lia]. done.
  - intros Hne. assert (Hln : Z.of_nat (length l2) <> 0) by (destruct l2; simpl; [done|lia]). split.
    + unfold mu_bbuf_find_substr, mu_bbuf_find_aux, mu_bbuf_capacity. rewrite Hk, Hc2, Hk0.
      destruct (Z.eqb_spec (Z.of_nat (length l2)) 0); [lia|]. cbn [find_loop]. rewrite Hsub.
      destruct (Z.ltb_spec (k - Z.of_nat (length l2)) int_min); cbn [bind]; [done|].
      destruct (Z.leb_spec 0 (k - Z.of_nat (length l2))); [lia|done].
    + unfold mu_bbuf_rfind_substr, mu_bbuf_rfind_aux, mu_bbuf_capacity. rewrite Hk, Hc2, Hk0.
      destruct (Z.eqb_spec (Z.of_nat (length l2)) 0); [lia|]. rewrite Hsub.
      destruct (Z.ltb_spec (k - Z.of_nat (length l2)) int_min); cbn [bind]; [done|]. cbn [rfind_loop].
      destruct (Z.leb_spec 0 (k - Z.of_nat (length l2))); [lia|done].
Qed.
Print Assumptions C103_negative.

(** ** Slices of large buffers: right between two non-negative indexes (except the one that
    means "end") *)
Theorem C103_slice : forall p m e dst src b pre l post start end_, bytes_at p m b pre l post ->
  e !! src = Some b -> (dst < length e)%nat ->
  0 <= start <= end_ -> end_ < MU_BBUF_END -> end_ < Z.of_nat (length l) ->
  exists b', mu_bbuf_slice p m e dst src start end_ = Ok (<[dst := b']> e) /\
    bytes b' = Ptr (blk (bytes b)) (off (bytes b) + start) /\
    bytes_at p m b' (pre ++ take (Z.to_nat start) l) (slice_of l start end_) (drop (Z.to_nat end_) l ++ post).
Proof.
  intros p m e dst src b pre l post start end_ (H1 & H2 & H3 & H4) Hs Hd Hse Hend Hlen.
  pose proof (size_mod_big p) as Hbig. unfold MU_BBUF_END, int_max, size_max in *.
  unfold mu_bbuf_slice, sget. rewrite Hs. cbn [bind]. rewrite !(to_size_id p start), !(to_size_id p end_), H3 by lia.
  destruct (Z.ltb_spec start 0); [lia|]. destruct (Z.ltb_spec end_ 0); [lia|].
  destruct (Z.ltb_spec (Z.of_nat (length l)) start); [lia|]. destruct (Z.leb_spec (Z.of_nat (length l)) end_); [lia|].
  destruct (Z.eqb_spec start MU_BBUF_END); [unfold MU_BBUF_END, int_max in *; lia|].
  destruct (Z.eqb_spec end_ MU_BBUF_END); [unfold MU_BBUF_END, int_max in *; lia|]. cbn [orb].
  destruct (Z.ltb_spec end_ start); [lia|].
  unfold padd. rewrite H1, H2, !app_length.
  destruct (Z.leb_spec 0 (Z.of_nat (length pre) + start)); [|lia].
  destruct (Z.leb_spec (Z.of_nat (length pre) + start) (Z.of_nat (length pre + (length l + length post)))); [|lia]. cbn [andb bind].
  unfold isub. rewrite ichk_ok by (unfold int_min, int_max; lia). cbn [bind]. rewrite to_size_id by lia.
  unfold mu_bbuf_init_ro, sput. destruct (lookup_lt_is_Some_2 e dst Hd) as [x ->].
  eexists. split; [done|]. cbn [bytes]. split; [by rewrite <- H2|].
  assert (Hls : length (slice_of l start end_) = Z.to_nat (end_ - start)).
  { unfold slice_of. rewrite take_length, drop_length. lia. }
  unfold size_max. split_and!; cbn [bytes capacity blk off].
  - rewrite H1. f_equal. rewrite <- app_assoc. f_equal. rewrite app_assoc. rewrite app_assoc. f_equal.
    unfold slice_of. rewrite <- (take_drop (Z.to_nat start) l) at 1. rewrite <- app_assoc. f_equal.
    rewrite <- (take_drop (Z.to_nat (end_ - start)) (drop (Z.to_nat start) l)) at 1. f_equal.
    rewrite drop_drop. f_equal. lia.
  - rewrite app_length, take_length. lia.
  - rewrite Hls. lia.
  - rewrite Hls. unfold size_max. lia.
Qed.
Print Assumptions C103_slice.

(** ** mu_bbuf_rrotate of a buffer whose size is a multiple of 4 GiB never returns *)
Theorem C103_rrotate_hangs : forall p m b shift fuel, capacity b mod 2 ^ 32 = 0 -> 0 <= shift <= int_max ->
  mu_bbuf_rrotate p fuel m b shift = NoFuel.
Proof.
  intros p m b shift fuel Hc Hs. unfold mu_bbuf_rrotate.
  assert (E : to_int (capacity b) = 0). { rewrite <- to_int_low. unfold low_part. cbn [capacity]. by rewrite Hc. }
  rewrite E. assert (H : rot_dec fuel shift 0 = NoFuel); [|by rewrite H].
  induction fuel as [|fuel IH]; cbn [rot_dec]; (destruct (Z.leb_spec 0 shift); [|lia]); [done|].
  unfold isub. rewrite ichk_ok by (unfold int_min; lia). cbn [bind]. by rewrite Z.sub_0_r.
Qed.
Print Assumptions C103_rrotate_hangs.

(** Hypotheses are met: 4 GiB + 3 bytes "aaa..." match the 3 bytes "aaa"; a buffer of 2^31 + 1
    bytes is searched for a byte it does not contain: undefined. *)
Definition big (n : Z) : list Z := replicate (Z.to_nat n) 97.
Lemma big_at n : 0 <= n <= size_max P64 -> bytes_at P64 [big n; [97;97;97]] (MkBbuf (Ptr 0 0) n) [] (big n) [].
Proof. intros H. unfold big. split_and!; cbn [bytes capacity blk off]; [by rewrite app_nil_r|done| |]; rewrite replicate_length; lia. Qed.
Lemma big_take n : 3 <= n -> take (Z.to_nat 3) (big n) = [97;97;97].
Proof. intros H. unfold big. rewrite take_replicate, Nat.min_l; [reflexivity|lia]. Qed.
Lemma big_matches n : n mod 2 ^ 32 = 3 -> 3 <= n <= size_max P64 ->
  mu_bbuf_matches [big n; [97;97;97]] (MkBbuf (Ptr 0 0) n) (MkBbuf (Ptr 1 0) 3) = Ok true.
Proof.
  intros Hn Hr. pose proof (big_at n ltac:(lia)) as Hb. set (m := [big n; [97;97;97]]) in *.
  destruct (C103_truncated P64 m (MkBbuf (Ptr 0 0) n) (MkBbuf (Ptr 1 0) 3) (Ptr 0 0) 0 (fun _ => true) true I8 true)
    as (_ & _ & -> & _).
  apply C103_low_part in Hb; cbn [capacity] in *; rewrite Hn in *; [|done]. rewrite big_take in Hb by lia.
  assert (H2 : buf m (low_part (MkBbuf (Ptr 1 0) 3)) [97;97;97]) by (exists [], []; by split_and!).
  assert (Hm : mem_bytes m).
  { constructor; [|by repeat constructor]. apply Forall_forall. intros x Hx. unfold big in Hx. apply elem_of_replicate in Hx as [-> _]. unfold is_byte. lia. }
  destruct (C21_compare_lexicographic _ _ _ _ _ Hm (ex_intro _ _ (ex_intro _ _ Hb)) H2) as (r & _ & _ & _ & _ & H). exact H.
Qed.
Example C103_example_matches :
  mu_bbuf_matches [big 4294967299; [97;97;97]] (MkBbuf (Ptr 0 0) 4294967299) (MkBbuf (Ptr 1 0) 3) = Ok true.
Proof. apply big_matches; [reflexivity|unfold size_max, size_mod; lia]. Qed.
Lemma big_find n : int_max < n <= size_max P64 -> mu_bbuf_find_byte P64 [big n; [97;97;97]] (MkBbuf (Ptr 0 0) n) 98 = UB.
Proof.
  intros Hn. pose proof (big_at n ltac:(unfold int_max in *; lia)) as Hb.
  destruct (C103_find_byte _ _ _ _ _ _ 98 Hb) as [_ H]. rewrite H.
  - unfold big. rewrite replicate_length. destruct (Z.leb_spec (Z.of_nat (Z.to_nat n)) int_max); [unfold int_max in *; lia|reflexivity].
  - intros i _ Hi. unfold big in Hi. apply lookup_replicate in Hi as [? _]. discriminate.
Qed.
Example C103_example_find : mu_bbuf_find_byte P64 [big 2147483649; [97;97;97]] (MkBbuf (Ptr 0 0) 2147483649) 98 = UB.
Proof. apply big_find. unfold size_max, size_mod, int_max. lia. Qed.
