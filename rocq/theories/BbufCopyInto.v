(** * C101: mu_bbuf_copy_into, if the two variables it never initialises held values.

    By the C standard (C32, C80) every call that would copy something is undefined.  In a
    compiled program the variables hold whatever their registers or stack slots held.
    These theorems say what the code does then: it is right if src_avail and dst_avail
    start as the two capacities (so two initialisers repair it), and for other values it
    copies too little, reads past the source or writes past the destination. *)
From Verif Require Import CSem BbufModel BbufSpec BbufProofs BbufProps.

(** [l'] is [ld] with [ls] laid over it, displaced by [offset] *)
Definition laid_over (ld ls : list Z) (offset : Z) (l' : list Z) : Prop :=
  length l' = length ld /\
  forall i : nat, (i < length ld)%nat ->
    l' !! i = if decide (0 <= Z.of_nat i - offset < Z.of_nat (length ls)) then ls !! Z.to_nat (Z.of_nat i - offset) else ld !! i.
(** how many bytes that replaces *)
Definition covered (ld ls : list Z) (offset : Z) : Z :=
  Z.max 0 (Z.min (Z.of_nat (length ld)) (Z.of_nat (length ls) + offset) - Z.max 0 offset).
(** [d] with the bytes [x] written at index [i] *)
Definition written_at (i : nat) (x d : list Z) : list Z := take i d ++ x ++ drop (i + length x) d.

Section copy.
Context (p : plat) (m : memory) (dst src : ptr) (dd ds : list Z) (di si : Z) (n : nat).
Hypothesis Hd : m !! blk dst = Some dd.
Hypothesis Hs : m !! blk src = Some ds.
Hypothesis Hod : 0 <= off dst.
Hypothesis Hos : 0 <= off src.
Hypothesis Hdi : 0 <= di.
Hypothesis Hsi : 0 <= si.
Hypothesis Hdm : di + Z.of_nat n <= size_max p.
Hypothesis Hsm : si + Z.of_nat n <= size_max p.
Hypothesis Hn : Z.of_nat n <= int_max.
Let D := Z.to_nat (off dst + di).
Let S_ := Z.to_nat (off src + si).
Hypothesis Hsep : blk dst <> blk src \/ (D <= S_)%nat \/ (S_ + n <= D)%nat.

Lemma copy_loop_ok : forall k j fuel, (j + k = n)%nat -> (k <= fuel)%nat ->
  (D + n <= length dd)%nat -> (S_ + n <= length ds)%nat ->
  copy_loop p fuel (<[blk dst := written_at D (take j (drop S_ ds)) dd]> m) dst src di si (Z.of_nat j) (Z.of_nat n) =
  Ok (<[blk dst := written_at D (take n (drop S_ ds)) dd]> m).
Proof using All.
  induction k as [|k IH]; intros j fuel Hj Hf HD HS.
  - replace j with n by lia. destruct fuel; cbn [copy_loop]; zb; try lia; done.
  - destruct fuel as [|fuel]; [lia|]. cbn [copy_loop]. destruct (Z.ltb_spec (Z.of_nat j) (Z.of_nat n)); [|lia].
    unfold size_max in *. rewrite !to_size_id by lia.
    assert (Hlt : (S_ + j < length ds)%nat) by lia.
    destruct (lookup_lt_is_Some_2 ds (S_ + j)%nat Hlt) as [x Hx].
    assert (Hlx : length (take j (drop S_ ds)) = j) by (rewrite take_length, drop_length; lia).
    assert (Hl1 : (blk dst < length m)%nat) by (by eapply lookup_lt_Some).
    assert (Hr : rd (<[blk dst := written_at D (take j (drop S_ ds)) dd]> m) src (si + Z.of_nat j) = Ok x).
    { unfold rd. destruct (decide (blk dst = blk src)) as [E|E].
      - destruct Hsep as [?|Hpos]; [done|]. rewrite <- E, list_lookup_insert by done.
        rewrite <- E, Hd in Hs. injection Hs as <-.
        apply ld_okZ; [lia|]. replace (Z.to_nat (off src + (si + Z.of_nat j))) with (S_ + j)%nat by (unfold S_; lia).
        unfold written_at. destruct Hpos as [Hle|Hle].
        + rewrite lookup_app_r by (rewrite take_length; lia). rewrite take_length, Nat.min_l by lia.
          rewrite lookup_app_r by lia. rewrite Hlx, lookup_drop, <- Hx. f_equal. lia.
        + rewrite lookup_app_l by (rewrite take_length; lia). by rewrite lookup_take by lia.
      - rewrite list_lookup_insert_ne, Hs by done. apply ld_okZ; [lia|]. rewrite <- Hx. f_equal. unfold S_. lia. }
    rewrite Hr. cbn [bind]. unfold wr. rewrite list_lookup_insert by done.
    rewrite st_ok.
    2:{ unfold written_at. rewrite !app_length, take_length, drop_length, Hlx. unfold D in *. lia. }
    cbn [bind]. rewrite list_insert_insert.
    unfold iadd. rewrite ichk_ok by (unfold int_min, int_max in *; lia). cbn [bind].
    replace (Z.of_nat j + 1) with (Z.of_nat (Datatypes.S j)) by lia.
    rewrite <- IH with (j := Datatypes.S j) (fuel := fuel) by lia. f_equal. f_equal.
    replace (Z.to_nat (off dst + (di + Z.of_nat j))) with (D + j)%nat by (unfold D; lia).
    unfold written_at. assert (Hlx' : length (take (Datatypes.S j) (drop S_ ds)) = Datatypes.S j) by (rewrite take_length, drop_length; lia).
    rewrite Hlx, Hlx'. rewrite insert_app_r_alt by (rewrite take_length; lia). f_equal.
    rewrite take_length, Nat.min_l by lia. rewrite insert_app_r_alt by lia. rewrite Hlx.
    rewrite (take_S_r _ j x) by (by rewrite lookup_drop). rewrite <- app_assoc. f_equal.
    replace (D + j - D - j)%nat with 0%nat by lia.
    destruct (lookup_lt_is_Some_2 dd (D + j)%nat) as [y Hy]; [lia|]. rewrite (drop_S _ _ _ Hy). simpl.
    replace (D + Datatypes.S j)%nat with (Datatypes.S (D + j)) by lia. done.
Qed.
End copy.

(** ** What the code does for every initial value of the two variables *)
Theorem C101_values : forall p m dst pred ld postd src pres ls posts offset gd gs,
  buf_at m dst pred ld postd -> buf_at m src pres ls posts ->
  int_min < offset <= int_max -> 0 <= gd <= size_max p -> 0 <= gs <= size_max p ->
  offset < capacity dst -> - offset < capacity src ->
  let da := if decide (0 < offset) then capacity dst - offset else gd in
  let sa := if decide (offset < 0) then capacity src + offset else gs in
  let di := Z.to_nat (Z.max 0 offset) in
  let si := Z.to_nat (Z.max 0 (- offset)) in
  let n := Z.to_nat (Z.min da sa) in
  Z.min da sa <= int_max -> (di + n <= length (ld ++ postd))%nat -> (si + n <= length (ls ++ posts))%nat ->
  (di + n <= Z.to_nat (size_max p))%nat -> (si + n <= Z.to_nat (size_max p))%nat ->
  blk (bytes dst) <> blk (bytes src) \/ off (bytes dst) + offset <= off (bytes src) ->
  copy_into_from p m dst src offset (Some gd) (Some gs) =
  Ok (Z.min da sa,
      <[blk (bytes dst) := pred ++ written_at di (take n (drop si (ls ++ posts))) (ld ++ postd)]> m).
Proof.
  intros p m dst pred ld postd src pres ls posts offset gd gs (D1 & D2 & D3 & D4) (S1 & S2 & S3 & S4) Ho Hgd Hgs Hod Hos da sa di si n Hn Hdi Hsi Hdm Hsm Hsep.
  assert (HT : copy_into_from p m dst src offset (Some gd) (Some gs) =
               copy_tail p m dst src (Z.max 0 offset) (Z.max 0 (- offset)) (Some da) (Some sa)).
  { unfold copy_into_from, mu_bbuf_capacity. pose proof (size_mod_big p). unfold int_min, int_max, size_max in *. subst da sa.
    destruct (Z.ltb_spec 0 offset).
    - rewrite decide_True by lia. rewrite decide_False by lia. rewrite !to_size_id by lia. destruct (Z.leb_spec (capacity dst) offset); [lia|].
      replace (Z.max 0 offset) with offset by lia. replace (Z.max 0 (- offset)) with 0 by lia. done.
    - rewrite (decide_False (P := 0 < offset)) by lia. destruct (Z.ltb_spec offset 0).
      + rewrite decide_True by lia. rewrite ichk_ok by (unfold int_min, int_max; lia). cbn [bind]. rewrite !to_size_id by lia.
        destruct (Z.leb_spec (capacity src) (- offset)); [lia|]. replace (Z.max 0 offset) with 0 by lia. replace (Z.max 0 (- offset)) with (- offset) by lia.
        replace (capacity src - - offset) with (capacity src + offset) by lia. done.
      + rewrite decide_False by lia. replace (Z.max 0 offset) with 0 by lia. replace (Z.max 0 (- offset)) with 0 by lia. done. }
  rewrite HT. unfold copy_tail. cbn [rdvar bind].
  assert (Hda : 0 <= da) by (unfold da; case_decide; lia).
  assert (Hsa : 0 <= sa) by (unfold sa; case_decide; lia).
  assert (Hdst : <[blk (bytes dst) := pred ++ written_at di (take 0 (drop si (ls ++ posts))) (ld ++ postd)]> m = m).
  { unfold written_at. rewrite take_0, Nat.add_0_r, app_nil_l, take_drop. by apply list_insert_id. }
  assert (Hzero : Z.min da sa = 0 -> Ok (0, m) = Ok (Z.min da sa, <[blk (bytes dst) := pred ++ written_at di (take n (drop si (ls ++ posts))) (ld ++ postd)]> m)).
  { intros E. unfold n. rewrite E. change (Z.to_nat 0) with 0%nat. by rewrite Hdst. }
  destruct (Z.eqb_spec sa 0) as [E|E]; cbn [bind]; [apply Hzero; lia|].
  destruct (Z.eqb_spec da 0) as [E'|E']; cbn [bind negb]; [apply Hzero; lia|].
  set (c := if sa <? da then sa else da). assert (c = Z.of_nat n) as -> by (subst c n; zb; lia).
  rewrite to_int_id by (unfold int_min in *; lia). rewrite Nat2Z.id.
  assert (HA : pred ++ written_at di (take n (drop si (ls ++ posts))) (ld ++ postd) =
               written_at (Z.to_nat (off (bytes dst) + Z.max 0 offset)) (take n (drop (Z.to_nat (off (bytes src) + Z.max 0 (- offset))) (pres ++ ls ++ posts))) (pred ++ ld ++ postd)).
  { replace (Z.to_nat (off (bytes dst) + Z.max 0 offset)) with (length pred + di)%nat by (subst di; lia).
    replace (Z.to_nat (off (bytes src) + Z.max 0 (- offset))) with (length pres + si)%nat by (subst si; lia).
    rewrite <- (drop_drop (pres ++ _)). rewrite drop_app. unfold written_at.
    rewrite take_add_app by done. rewrite <- !app_assoc. f_equal. f_equal. f_equal.
    rewrite <- Nat.add_assoc. rewrite <- (drop_drop (pred ++ _)), drop_app. done. }
  pose proof (copy_loop_ok p m (bytes dst) (bytes src) (pred ++ ld ++ postd) (pres ++ ls ++ posts)
    (Z.max 0 offset) (Z.max 0 (- offset)) n) as HL.
  rewrite <- HA in HL. specialize (HL D1 S1 ltac:(lia) ltac:(lia) ltac:(lia) ltac:(lia)).
  assert (HL2 := HL ltac:(subst di; lia) ltac:(subst si; lia) ltac:(lia)). clear HL.
  assert (HL3 : blk (bytes dst) <> blk (bytes src) \/
     (Z.to_nat (off (bytes dst) + Z.max 0 offset) <= Z.to_nat (off (bytes src) + Z.max 0 (- offset)))%nat \/
     (Z.to_nat (off (bytes src) + Z.max 0 (- offset)) + n <= Z.to_nat (off (bytes dst) + Z.max 0 offset))%nat).
  { destruct Hsep as [?|?]; [by left|right; left; lia]. }
  specialize (HL2 HL3 n 0%nat n ltac:(lia) ltac:(lia)).
  rewrite !app_length in *.
  specialize (HL2 ltac:(subst di; lia) ltac:(subst si; lia)).
  replace (<[blk (bytes dst):=written_at (Z.to_nat (off (bytes dst) + Z.max 0 offset)) (take 0 (drop (Z.to_nat (off (bytes src) + Z.max 0 (- offset))) (pres ++ ls ++ posts))) (pred ++ ld ++ postd)]> m) with m in HL2.
  2:{ unfold written_at. rewrite take_0, Nat.add_0_r, app_nil_l, take_drop. symmetry. by apply list_insert_id. }
  change (Z.of_nat 0) with 0 in HL2. rewrite HL2. cbn [bind]. do 2 f_equal. lia.
Qed.
Print Assumptions C101_values.

Lemma written_at_laid_over ld ls offset : offset < Z.of_nat (length ld) -> - offset < Z.of_nat (length ls) ->
  forall n, n = Z.to_nat (covered ld ls offset) -> forall posts postd,
  exists l', laid_over ld ls offset l' /\
    written_at (Z.to_nat (Z.max 0 offset)) (take n (drop (Z.to_nat (Z.max 0 (- offset))) (ls ++ posts))) (ld ++ postd) = l' ++ postd.
Proof.
  intros Hd Hs n Hn posts postd. unfold covered in Hn.
  set (di := Z.to_nat (Z.max 0 offset)). set (si := Z.to_nat (Z.max 0 (- offset))).
  assert (Hdn : (di + n <= length ld)%nat) by (subst di; lia).
  assert (Hsn : (si + n <= length ls)%nat) by (subst si; lia).
  assert (Hx : take n (drop si (ls ++ posts)) = take n (drop si ls)).
  { rewrite drop_app_le by lia. rewrite take_app_le by (rewrite drop_length; lia). done. }
  rewrite Hx. assert (Hlx : length (take n (drop si ls)) = n) by (rewrite take_length, drop_length; lia).
  exists (written_at di (take n (drop si ls)) ld). unfold written_at. rewrite Hlx. split.
  - split; [rewrite !app_length, Hlx, take_length, drop_length; lia|].
    intros i Hi. destruct (Nat.lt_ge_cases i di) as [H1|H1].
    + rewrite lookup_app_l by (rewrite take_length; lia). rewrite lookup_take by lia. rewrite decide_False by (subst di; lia). done.
    + rewrite lookup_app_r by (rewrite take_length; lia). rewrite take_length, Nat.min_l by lia.
      destruct (Nat.lt_ge_cases i (di + n)) as [H2|H2].
      * rewrite lookup_app_l by lia. rewrite lookup_take by lia. rewrite lookup_drop, decide_True by (subst di si; lia).
        f_equal. subst di si. lia.
      * rewrite lookup_app_r by lia. rewrite Hlx, lookup_drop, decide_False by (subst di si; lia). f_equal. lia.
  - rewrite take_app_le by lia. rewrite drop_app_le by lia. by rewrite <- !app_assoc.
Qed.

(** Initialised to the two capacities, the code is right: for every offset it lays the
    source over the destination and returns the number of bytes replaced; source and
    destination may share an object if the bytes move down. *)
Theorem C101_initialised : forall p m dst pred ld postd src pres ls posts offset,
  buf_at m dst pred ld postd -> buf_at m src pres ls posts -> int_min < offset <= int_max ->
  blk (bytes dst) <> blk (bytes src) \/ off (bytes dst) + offset <= off (bytes src) ->
  exists l', laid_over ld ls offset l' /\
    copy_into_from p m dst src offset (Some (capacity dst)) (Some (capacity src)) =
    Ok (covered ld ls offset, with_contents m dst pred l' postd).
Proof.
  intros p m dst pred ld postd src pres ls posts offset Hd Hs Ho Hsep.
  pose proof Hd as (D1 & D2 & D3 & D4). pose proof Hs as (S1 & S2 & S3 & S4). pose proof (size_mod_big p) as Hbig.
  destruct (decide (offset < capacity dst /\ - offset < capacity src)) as [[Hod Hos]|Hno].
  - destruct (written_at_laid_over ld ls offset ltac:(lia) ltac:(lia) _ eq_refl posts postd) as (l' & Hl & He).
    exists l'. split; [done|].
    rewrite (C101_values p m dst pred ld postd src pres ls posts offset (capacity dst) (capacity src)); try done.
    + assert (Hmin : Z.min (if decide (0 < offset) then capacity dst - offset else capacity dst)
                        (if decide (offset < 0) then capacity src + offset else capacity src) = covered ld ls offset).
      { unfold covered. repeat case_decide; lia. }
      rewrite Hmin, He. done.
    + unfold size_max, int_max in *. lia.
    + unfold size_max, int_max in *. lia.
    + repeat case_decide; lia.
    + rewrite app_length. repeat case_decide; lia.
    + rewrite app_length. repeat case_decide; lia.
    + unfold size_max, int_max in *. repeat case_decide; lia.
    + unfold size_max, int_max in *. repeat case_decide; lia.
  - exists ld. split.
    + split; [done|]. intros i Hi. rewrite decide_False by lia. done.
    + assert (Hc : covered ld ls offset = 0) by (unfold covered; lia). rewrite Hc.
      replace (with_contents m dst pred ld postd) with m by (unfold with_contents; by rewrite list_insert_id).
      unfold copy_into_from, mu_bbuf_capacity, size_max, int_min, int_max in *.
      destruct (Z.ltb_spec 0 offset).
      * rewrite to_size_id by lia. destruct (Z.leb_spec (capacity dst) offset); [done|].
        lia.
      * destruct (Z.ltb_spec offset 0).
        -- rewrite ichk_ok by (unfold int_min, int_max; lia). cbn [bind]. rewrite to_size_id by lia.
           destruct (Z.leb_spec (capacity src) (- offset)); [done|lia].
        -- unfold copy_tail. cbn [rdvar bind].
           destruct (Z.eqb_spec (capacity src) 0); cbn [bind]; [done|].
           destruct (Z.eqb_spec (capacity dst) 0); cbn [bind negb]; [done|lia].
Qed.
Print Assumptions C101_initialised.

(** With a positive offset and a stack value above the source's size, the code reads past
    the source: undefined as soon as its object has no such byte. *)
Lemma copy_loop_ub p (m : memory) dst src ds n : m !! blk src = Some ds -> blk dst <> blk src -> 0 <= off src ->
  Z.of_nat (length ds) < off src + n -> n <= int_max -> 0 <= off dst ->
  forall fuel m' di i, m' !! blk src = Some ds -> (Z.to_nat (n - i) <= fuel)%nat -> 0 <= i -> off src + i <= Z.of_nat (length ds) ->
  copy_loop p fuel m' dst src di 0 i n = UB.
Proof.
  intros Hs Hne Ho Hlen Hn Hod. pose proof (size_mod_big p).
  induction fuel as [|fuel IH]; intros m' di i Hm Hf Hi Hle; cbn [copy_loop]; (destruct (Z.ltb_spec i n); [|lia]); [lia|].
  rewrite (to_size_id p (0 + i)) by (unfold int_max in *; lia). rewrite Z.add_0_l. unfold rd at 1. rewrite Hm.
  destruct (Z.eqb_spec (off src + i) (Z.of_nat (length ds))) as [E|E].
  - rewrite ld_ub by lia. done.
  - destruct (lookup_lt_is_Some_2 ds (Z.to_nat (off src + i))) as [x Hx]; [lia|].
    rewrite (ld_okZ ds (off src + i) x) by (done || lia). cbn [bind]. unfold wr.
    destruct (m' !! blk dst) as [dd|]; [|done]. unfold st. destruct (_ && _); [|done]. cbn [bind].
    unfold iadd. rewrite ichk_ok by (unfold int_min, int_max in *; lia). cbn [bind].
    apply IH; try lia. by rewrite list_lookup_insert_ne.
Qed.
Theorem C101_overread : forall p m dst pred ld postd src pres ls posts offset gd gs,
  buf_at m dst pred ld postd -> buf_at m src pres ls posts -> blk (bytes dst) <> blk (bytes src) ->
  0 < offset < capacity dst -> 0 <= gs <= size_max p ->
  Z.of_nat (length (ls ++ posts)) < gs -> Z.of_nat (length (ls ++ posts)) < capacity dst - offset ->
  copy_into_from p m dst src offset gd (Some gs) = UB.
Proof.
  intros p m dst pred ld postd src pres ls posts offset gd gs (D1 & D2 & D3 & D4) (S1 & S2 & S3 & S4) Hne Ho Hg H1 H2.
  pose proof (size_mod_big p). unfold copy_into_from, mu_bbuf_capacity, size_max in *.
  destruct (Z.ltb_spec 0 offset); [|lia]. rewrite !to_size_id by (unfold int_max in *; lia).
  destruct (Z.leb_spec (capacity dst) offset); [lia|]. unfold copy_tail. cbn [rdvar bind].
  destruct (Z.eqb_spec gs 0); [lia|]. cbn [bind]. destruct (Z.eqb_spec (capacity dst - offset) 0); [lia|]. cbn [negb bind].
  set (c := if gs <? capacity dst - offset then gs else capacity dst - offset).
  assert (Hc : Z.of_nat (length (ls ++ posts)) < c <= int_max) by (subst c; zb; lia).
  rewrite to_int_id by (unfold int_min in *; lia).
  rewrite (copy_loop_ub p m (bytes dst) (bytes src) _ c S1); try done; rewrite ?app_length in *; lia.
Qed.
Print Assumptions C101_overread.

(** Hypotheses are met: "hello" in an object of 7 bytes, "help" in another; offsets 2 and -1
    with initialised variables, and offset 1 with the stack values 2 and 100. *)
Example C101_example :
  copy_into_from P64 ex_mem ex_hello ex_help 2 (Some 5) (Some 4) = Ok (3, [[120;104;101;104;101;108;120]; [104;101;108;112]; [104;101;0]]) /\
  copy_into_from P64 ex_mem ex_hello ex_help (-1) (Some 5) (Some 4) = Ok (3, [[120;101;108;112;108;111;120]; [104;101;108;112]; [104;101;0]]) /\
  copy_into_from P64 ex_mem ex_hello ex_help 1 None (Some 2) = Ok (2, [[120;104;104;101;108;111;120]; [104;101;108;112]; [104;101;0]]) /\
  copy_into_from P64 ex_mem ex_help ex_hello (-1) (Some 100) None = Ok (4, [[120;104;101;108;108;111;120]; [101;108;108;111]; [104;101;0]]) /\
  copy_into_from P64 ex_mem ex_hello (MkBbuf (Ptr 2 0) 2) 1 None (Some 100) = UB.
Proof. vm_compute. done. Qed.
