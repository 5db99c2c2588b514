(** * The C semantics kit, characterised.

    CSem.v and the byte memory of BbufModel.v fix the meaning of the C constructs that the
    models use.  Here each of them is shown to be defined exactly when C defines it, and to
    have exactly C's effect, element by element: an access is undefined iff it is out of
    the object, a conversion yields the one congruent value in range, and so on.  These are
    not properties of mulib; they pin down what "undefined" and "never out of bounds" mean
    in the theorems. *)
From Verif Require Import CSem BbufModel SpscModel.

(** ** conversions *)
(** to an unsigned type of [m] values: the value in range that is congruent modulo [m] *)
Theorem kit_to_size : forall p x y, to_size p x = y <-> 0 <= y < 2 ^ size_bits p /\ exists k, x = y + k * 2 ^ size_bits p.
Proof.
  intros p x y. assert (E : size_mod p = 2 ^ size_bits p) by (by destruct p). unfold to_size. rewrite E.
  pose proof (size_mod_pos p) as Hp. rewrite E in Hp. split.
  - intros <-. split; [by apply Z.mod_pos_bound|]. exists (x / 2 ^ size_bits p). rewrite (Z.div_mod x (2 ^ size_bits p)) at 1 by lia. lia.
  - intros [Hy [k ->]]. rewrite Z.mod_add by lia. by apply Z.mod_small.
Qed.
Theorem kit_to_u16 : forall x y, to_u16 x = y <-> 0 <= y < 65536 /\ exists k, x = y + k * 65536.
Proof.
  intros x y. unfold to_u16. split.
  - intros <-. split; [by apply Z.mod_pos_bound|]. exists (x / 65536). rewrite (Z.div_mod x 65536) at 1 by lia. lia.
  - intros [Hy [k ->]]. rewrite Z.mod_add by lia. by apply Z.mod_small.
Qed.
(** to a signed type of [2 * h] values *)
Theorem kit_wrap_signed : forall h x y, 0 < h ->
  wrap_signed (2 * h) x = y <-> - h <= y < h /\ exists k, x = y + k * (2 * h).
Proof.
  intros h x y Hh. unfold wrap_signed. replace (2 * h / 2) with h by (rewrite Z.mul_comm, Z.div_mul; lia).
  pose proof (Z.mod_pos_bound x (2 * h) ltac:(lia)) as Hb. pose proof (Z.div_mod x (2 * h) ltac:(lia)) as Hd. split.
  - intros <-. destruct (Z.ltb_spec (x mod (2 * h)) h).
    + split; [lia|]. exists (x / (2 * h)). lia.
    + split; [lia|]. exists (x / (2 * h) + 1). lia.
  - intros [Hy [k ->]]. rewrite Z.mod_add in * by lia. destruct (Z.ltb_spec (y mod (2 * h)) h) as [H|H].
    + destruct (Z.lt_ge_cases y 0); [|apply Z.mod_small; lia].
      exfalso. assert (y mod (2 * h) = y + 2 * h); [|lia]. symmetry. apply Z.mod_unique with (q := -1); lia.
    + destruct (Z.lt_ge_cases y 0); [|rewrite Z.mod_small in H; lia].
      assert (y mod (2 * h) = y + 2 * h); [|lia]. symmetry. apply Z.mod_unique with (q := -1); lia.
Qed.
Theorem kit_to_int : forall x y, to_int x = y <-> - 2 ^ 31 <= y < 2 ^ 31 /\ exists k, x = y + k * 2 ^ 32.
Proof. intros x y. apply (kit_wrap_signed (2 ^ 31) x y). lia. Qed.

(** ** checked arithmetic: the mathematical value, undefined iff out of range *)
Theorem kit_chk : forall lo hi x, (lo <= x <= hi -> chk lo hi x = Ok x) /\ (~ lo <= x <= hi -> chk lo hi x = UB).
Proof.
  intros lo hi x. unfold chk, in_range. destruct (Z.leb_spec lo x), (Z.leb_spec x hi); cbn [andb]; split; intros; try done; lia.
Qed.
Theorem kit_int : forall x y,
  iadd x y = chk (- 2 ^ 31) (2 ^ 31 - 1) (x + y) /\ isub x y = chk (- 2 ^ 31) (2 ^ 31 - 1) (x - y) /\
  imul x y = chk (- 2 ^ 31) (2 ^ 31 - 1) (x * y).
Proof. done. Qed.

(** ** one array object *)
Theorem kit_ld : forall A (l : list A) i,
  (0 <= i < Z.of_nat (length l) -> exists v, l !! Z.to_nat i = Some v /\ ld l i = Ok v) /\
  (~ 0 <= i < Z.of_nat (length l) -> ld l i = UB).
Proof.
  intros A l i. split; intros H.
  - by apply ld_ex.
  - apply ld_ub. lia.
Qed.
Theorem kit_st : forall A (l : list A) i v,
  (0 <= i < Z.of_nat (length l) -> exists l', st l i v = Ok l' /\ length l' = length l /\
     forall j, l' !! j = if decide (j = Z.to_nat i) then Some v else l !! j) /\
  (~ 0 <= i < Z.of_nat (length l) -> st l i v = UB).
Proof.
  intros A l i v. split; intros H.
  - rewrite st_ok by lia. eexists. split; [done|]. split; [by rewrite insert_length|]. intros j. destruct (decide (j = Z.to_nat i)) as [->|Hj].
    + apply list_lookup_insert. lia.
    + by apply list_lookup_insert_ne.
  - apply st_ub. lia.
Qed.

Lemma splice_lookup {A} (l new : list A) (d n : nat) : (d + n <= length l)%nat -> length new = n ->
  let l' := take d l ++ new ++ drop (d + n) l in
  length l' = length l /\ forall j, l' !! j = if decide (d <= j < d + n)%nat then new !! (j - d)%nat else l !! j.
Proof.
  intros Hd Hn l'. subst l'. split; [rewrite !app_length, take_length, drop_length; lia|].
  intros j. destruct (decide (d <= j < d + n)%nat) as [Hj|Hj].
  - rewrite lookup_app_r by (rewrite take_length; lia). rewrite take_length, Nat.min_l by lia.
    by rewrite lookup_app_l by lia.
  - destruct (decide (j < d)%nat).
    + rewrite lookup_app_l by (rewrite take_length; lia). by rewrite lookup_take by lia.
    + rewrite lookup_app_r by (rewrite take_length; lia). rewrite take_length, Nat.min_l by lia.
      rewrite lookup_app_r by lia. rewrite lookup_drop. f_equal. lia.
Qed.

(** memmove: both ranges inside the object; the overlap is handled *)
Theorem kit_memmove : forall A (l : list A) dst src n,
  let inside := 0 <= n /\ 0 <= dst /\ 0 <= src /\ dst + n <= Z.of_nat (length l) /\ src + n <= Z.of_nat (length l) in
  (inside -> exists l', memmove l dst src n = Ok l' /\ length l' = length l /\
     forall j : nat, l' !! j = if decide (dst <= Z.of_nat j < dst + n) then l !! Z.to_nat (src + (Z.of_nat j - dst)) else l !! j) /\
  (~ inside -> memmove l dst src n = UB).
Proof.
  intros A l dst src n inside. split; intros H.
  - destruct H as (H1 & H2 & H3 & H4 & H5). rewrite memmove_ok by lia. eexists. split; [done|].
    rewrite Z2Nat.inj_add by lia.
    destruct (splice_lookup l (take (Z.to_nat n) (drop (Z.to_nat src) l)) (Z.to_nat dst) (Z.to_nat n)) as [Hl Hj].
    { lia. } { rewrite take_length, drop_length. lia. }
    split; [exact Hl|]. intros j. rewrite Hj. destruct (decide _), (decide _); try done; try lia.
    rewrite lookup_take by lia. rewrite lookup_drop. f_equal. lia.
  - unfold memmove. destruct (_ && _) eqn:E; [|done]. exfalso. apply H.
    repeat match goal with E : (_ && _)%bool = true |- _ => apply andb_prop in E as [? ?] end.
    subst inside. lia.
Qed.

(** ** byte memory *)
(** an element of an object is accessed iff it exists; other objects are untouched *)
Theorem kit_rd : forall m p i, (exists v d, m !! blk p = Some d /\ 0 <= off p + i /\ d !! Z.to_nat (off p + i) = Some v /\ rd m p i = Ok v) \/
  (rd m p i = UB /\ ~ exists d, m !! blk p = Some d /\ 0 <= off p + i < Z.of_nat (length d)).
Proof.
  intros m p i. unfold rd. destruct (m !! blk p) as [d|] eqn:E; [|right; split; [done|intros (? & ? & _); discriminate]].
  destruct (decide (0 <= off p + i < Z.of_nat (length d))) as [H|H].
  - left. destruct (ld_ex d (off p + i) H) as (v & H1 & ->). exists v, d. split; [done|]. split; [lia|]. by split.
  - right. split; [apply ld_ub; lia|]. intros (d' & [= <-] & ?). lia.
Qed.
Theorem kit_wr : forall m p i v, (exists d d' m', m !! blk p = Some d /\ 0 <= off p + i < Z.of_nat (length d) /\
     wr m p i v = Ok m' /\ m' = <[blk p := d']> m /\ length d' = length d /\
     forall j, d' !! j = if decide (j = Z.to_nat (off p + i)) then Some v else d !! j) \/
  (wr m p i v = UB /\ ~ exists d, m !! blk p = Some d /\ 0 <= off p + i < Z.of_nat (length d)).
Proof.
  intros m p i v. unfold wr. destruct (m !! blk p) as [d|] eqn:E; [|right; split; [done|intros (? & ? & _); discriminate]].
  destruct (kit_st Z d (off p + i) v) as [H1 H2].
  destruct (decide (0 <= off p + i < Z.of_nat (length d))) as [H|H].
  - left. destruct (H1 H) as (d0 & -> & Hl & Hj). exists d, d0. eexists. split; [done|]. split; [lia|]. split; [done|]. by split_and!.
  - right. rewrite H2 by done. split; [done|]. intros (d' & [= <-] & ?). lia.
Qed.
(** a pointer may be formed up to one past the end of the object *)
Theorem kit_padd : forall m p i,
  (exists d, m !! blk p = Some d /\ 0 <= off p + i <= Z.of_nat (length d) /\ padd m p i = Ok (Ptr (blk p) (off p + i))) \/
  (padd m p i = UB /\ ~ exists d, m !! blk p = Some d /\ 0 <= off p + i <= Z.of_nat (length d)).
Proof.
  intros m p i. unfold padd. destruct (m !! blk p) as [d|] eqn:E; [|right; split; [done|intros (? & ? & _); discriminate]].
  destruct (Z.leb_spec 0 (off p + i)), (Z.leb_spec (off p + i) (Z.of_nat (length d))); cbn [andb].
  - left. by exists d.
  - right. split; [done|]. intros (d' & [= <-] & ?). lia.
  - right. split; [done|]. intros (d' & [= <-] & ?). lia.
  - right. split; [done|]. intros (d' & [= <-] & ?). lia.
Qed.
Theorem kit_mset : forall m p v n,
  let inside d := 0 <= off p /\ 0 <= n /\ off p + n <= Z.of_nat (length d) in
  (exists d d' m', m !! blk p = Some d /\ inside d /\ mset m p v n = Ok m' /\ m' = <[blk p := d']> m /\ length d' = length d /\
     forall j : nat, d' !! j = if decide (off p <= Z.of_nat j < off p + n) then Some v else d !! j) \/
  (mset m p v n = UB /\ ~ exists d, m !! blk p = Some d /\ inside d).
Proof.
  intros m p v n inside. unfold mset. destruct (m !! blk p) as [d|] eqn:E; [|right; split; [done|intros (? & ? & _); discriminate]].
  destruct (_ && _) eqn:Eb.
  - repeat match goal with E : (_ && _)%bool = true |- _ => apply andb_prop in E as [? ?] end.
    left. eexists d, _, _. split; [done|]. split; [subst inside; cbn beta; lia|]. split; [done|]. split; [done|].
    rewrite Z2Nat.inj_add by lia.
    destruct (splice_lookup d (replicate (Z.to_nat n) v) (Z.to_nat (off p)) (Z.to_nat n)) as [Hl Hj].
    { lia. } { apply replicate_length. }
    split; [exact Hl|]. intros j. rewrite Hj. destruct (decide _), (decide _); try done; try lia.
    apply lookup_replicate_2. lia.
  - right. split; [done|]. intros (d' & [= <-] & H1 & H2 & H3). apply Z.leb_le in H1, H2, H3. by rewrite H1, H2, H3 in Eb.
Qed.
(** strlen: the number of bytes before the first NUL, undefined iff there is none in the object *)
Theorem kit_strlen : forall m p d, m !! blk p = Some d -> 0 <= off p ->
  (exists k : nat, strlen m p = Ok (Z.of_nat k) /\ d !! (Z.to_nat (off p) + k)%nat = Some 0 /\
     forall j, (j < k)%nat -> exists c, d !! (Z.to_nat (off p) + j)%nat = Some c /\ c <> 0) \/
  (strlen m p = UB /\ forall j c, (Z.to_nat (off p) <= j)%nat -> d !! j = Some c -> c <> 0).
Proof.
  intros m p d Hd Ho. unfold strlen. rewrite Hd.
  assert (G : forall f (i : nat), (length d <= f + i)%nat ->
    (forall j, (j < i)%nat -> exists c, d !! (Z.to_nat (off p) + j)%nat = Some c /\ c <> 0) ->
    (exists k : nat, strlen_loop f m p (Z.of_nat i) = Ok (Z.of_nat k) /\ d !! (Z.to_nat (off p) + k)%nat = Some 0 /\
     forall j, (j < k)%nat -> exists c, d !! (Z.to_nat (off p) + j)%nat = Some c /\ c <> 0) \/
    (strlen_loop f m p (Z.of_nat i) = UB /\ forall j c, (Z.to_nat (off p) <= j)%nat -> d !! j = Some c -> c <> 0)).
  { assert (Hrd : forall i : nat, rd m p (Z.of_nat i) = match d !! (Z.to_nat (off p) + i)%nat with Some c => Ok c | None => UB end).
    { intros i. unfold rd. rewrite Hd. unfold ld. destruct (Z.ltb_spec (off p + Z.of_nat i) 0); [lia|].
      replace (Z.to_nat (off p + Z.of_nat i)) with (Z.to_nat (off p) + i)%nat by lia. done. }
    assert (Hend : forall i, d !! (Z.to_nat (off p) + i)%nat = None ->
       (forall j, (j < i)%nat -> exists c, d !! (Z.to_nat (off p) + j)%nat = Some c /\ c <> 0) ->
       forall j c, (Z.to_nat (off p) <= j)%nat -> d !! j = Some c -> c <> 0).
    { intros i Hn Hall j c Hj Hc. apply lookup_ge_None_1 in Hn. pose proof (lookup_lt_Some _ _ _ Hc) as Hlt.
      destruct (Hall (j - Z.to_nat (off p))%nat ltac:(lia)) as (c' & Hc' & Hne).
      replace (Z.to_nat (off p) + (j - Z.to_nat (off p)))%nat with j in Hc' by lia. congruence. }
    induction f as [|f IH]; intros i Hf Hall; cbn [strlen_loop]; rewrite Hrd.
    - destruct (d !! (Z.to_nat (off p) + i)%nat) as [c|] eqn:Ec; cbn [bind].
      + apply lookup_lt_Some in Ec. lia.
      + right. split; [done|]. by apply (Hend i).
    - destruct (d !! (Z.to_nat (off p) + i)%nat) as [c|] eqn:Ec; cbn [bind].
      2:{ right. split; [done|]. by apply (Hend i). }
      destruct (Z.eqb_spec c 0) as [->|Hc].
      + left. by exists i.
      + replace (Z.of_nat i + 1) with (Z.of_nat (S i)) by lia. apply IH; [lia|].
        intros j Hj. destruct (decide (j = i)) as [->|]; [eauto|]. apply Hall. lia. }
  apply (G (length d) 0%nat); [lia|]. intros j Hj. lia.
Qed.
