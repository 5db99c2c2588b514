(** * Property C116: the C text of mu_bbuf.c and mu_bvec.c (SrcBvec.v), run by CLang.v, against the
    specification of byte buffers (BbufSpec.v) and of byte streams (BvecSpec.v).

    The setting of every theorem: [mrep base M m] - the caller's byte objects [m] lie at the objects
    base, base+1, ... of the C memory M, each cell a byte; [isb base M s b] - object s holds a mu_bbuf_t
    with the pointer and the capacity [b]; [buf m b l] (BbufSpec) - that buffer's contents are [l]. *)
From Verif Require Import BbufModel BvecModel.
From Verif Require Import CSym SrcBvec BbufSrc BbufSrc2 BbufSrc3 BbufSrc4 BbufSrc5 BbufSrc6 BbufSrc7 BbufSrc8 BbufSrc9.
From Verif Require Import BbufSpec BbufProofs BbufProps BbufProps2 BbufExact BbufExact2 BvecSpec BvecProps.
Open Scope string_scope. Open Scope Z_scope.
Notation length := List.length.
Notation TB := (Tptr (Tstruct "mu_bbuf_t")).
Notation bytep := (Tptr (Tint false W8)).

(** running a function of the text; [pr f a c]: what the user's predicate f answers for the argument a and the byte c *)
Definition crun (p : plat) (fuel : nat) (pr : val -> val -> Z -> bool) (d : nat) (x : string) (vs : list val) (M : mem) : res (val * ty * mem) :=
  CLang.call p bvec_prog fuel (libc p) (user_pred pr) (S (S (S (S d)))) x vs M.

Section common.
Context (p : plat) (fuel base : nat).
Implicit Types (M : mem) (m : memory).
Lemma mrep_bytes M m : mrep base M m -> mem_bytes m.
Proof. intros H. unfold mem_bytes. rewrite Forall_lookup. intros i x Hi. exact (proj2 (H _ _ Hi)). Qed.
Lemma buf_fits m b l : buf m b l -> (length l + 2 < fuel)%nat -> fits p fuel b.
Proof. intros (pre & post & _ & _ & H1 & H2) Hf. pose proof (size_mod_big p). ints. split; rewrite H1; lia. Qed.
Lemma buf_cap m b l : buf m b l -> 0 <= capacity b < size_mod p.
Proof. intros (pre & post & _ & _ & H1 & H2). pose proof (size_mod_big p). ints. rewrite H1. lia. Qed.
End common.

(** ** comparisons and searches *)
Theorem C116_source_search : forall p fuel base pr d M m s1 b1 l1 s2 b2 l2 skip,
  mrep base M m -> isb base M s1 b1 -> isb base M s2 b2 -> buf m b1 l1 -> buf m b2 l2 ->
  (length l1 + 2 < fuel)%nat -> (length l2 + 2 < fuel)%nat ->
  exists r f g,
    crun p fuel pr d "mu_bbuf_compare" [VP s1 0; VP s2 0] M = Ok (VI r, int, M) /\
    (r < 0 <-> lex_lt l1 l2) /\ (r = 0 <-> l1 = l2) /\ (0 < r <-> lex_lt l2 l1) /\
    crun p fuel pr d "mu_bbuf_matches" [VP s1 0; VP s2 0] M = Ok (truth (bool_decide (l1 = l2)), Tbool, M) /\
    (exists t, crun p fuel pr d "mu_bbuf_has_prefix" [VP s1 0; VP s2 0] M = Ok (truth t, Tbool, M) /\ (t = true <-> exists rest, l1 = (l2 ++ rest)%list)) /\
    (exists t, crun p fuel pr d "mu_bbuf_has_suffix" [VP s1 0; VP s2 0] M = Ok (truth t, Tbool, M) /\ (t = true <-> exists rest, l1 = (rest ++ l2)%list)) /\
    crun p fuel pr d "mu_bbuf_find_substr" [VP s1 0; VP s2 0; truth skip] M = Ok (VI f, int, M) /\ found l2 l1 skip Z.le f /\
    crun p fuel pr d "mu_bbuf_rfind_substr" [VP s1 0; VP s2 0; truth skip] M = Ok (VI g, int, M) /\ found l2 l1 skip Z.ge g.
Proof.
  intros p fuel base pr d M m s1 b1 l1 s2 b2 l2 skip Hm Hs1 Hs2 Hb1 Hb2 Hf1 Hf2. unfold crun.
  pose proof (buf_fits p fuel m b1 l1 Hb1 Hf1) as F1. pose proof (buf_fits p fuel m b2 l2 Hb2 Hf2) as F2.
  destruct (C21_compare_lexicographic m b1 l1 b2 l2 (mrep_bytes _ _ _ Hm) Hb1 Hb2) as (r & Hr & A & B & G & Hma).
  destruct (C22_prefix_suffix m b1 l1 b2 l2 Hb1 Hb2) as (t1 & t2 & Ht1 & Ht2 & Hp1 & Hp2).
  destruct (C23_find_substr m b1 l1 b2 l2 skip Hb1 Hb2) as (f & Hf & Hff). destruct (C23_rfind_substr m b1 l1 b2 l2 skip Hb1 Hb2) as (g & Hg & Hgg).
  exists r, f, g. split; [exact (proj1 (src_compare p fuel base pr _ M m s1 s2 b1 b2 r Hm Hs1 Hs2 F1 F2 Hr))|]. split; [done|]. split; [done|]. split; [done|].
  split; [exact (src_matches p fuel base pr _ M m s1 s2 b1 b2 _ Hm Hs1 Hs2 F1 F2 Hma)|].
  split; [exists t1; split; [exact (src_has_prefix p fuel base pr _ M m s1 s2 b1 b2 _ Hm Hs1 Hs2 F1 F2 Ht1)|done]|].
  split; [exists t2; split; [exact (src_has_suffix p fuel base pr _ M m s1 s2 b1 b2 _ Hm Hs1 Hs2 F1 F2 Ht2)|done]|].
  split; [exact (src_find_substr p fuel base pr _ M m s1 s2 b1 b2 skip _ Hm Hs1 Hs2 F1 F2 Hf)|]. split; [done|].
  split; [exact (src_rfind_substr p fuel base pr _ M m s1 s2 b1 b2 skip _ Hm Hs1 Hs2 F1 F2 Hg)|done].
Qed.
(** the same with a C string for the second argument; q is where it starts *)
Theorem C116_source_search_cstr : forall p fuel base pr d M m s1 b1 l1 q s skip,
  mrep base M m -> isb base M s1 b1 -> buf m b1 l1 -> cstr_at m q s -> (length l1 + 2 < fuel)%nat -> (length s + 2 < fuel)%nat ->
  let a := VP (base + blk q) (off q) in
  exists r f g,
    crun p fuel pr d "mu_bbuf_compare_cstr" [VP s1 0; a] M = Ok (VI r, int, M) /\
    (r < 0 <-> lex_lt l1 s) /\ (r = 0 <-> l1 = s) /\ (0 < r <-> lex_lt s l1) /\
    crun p fuel pr d "mu_bbuf_matches_cstr" [VP s1 0; a] M = Ok (truth (bool_decide (l1 = s)), Tbool, M) /\
    (exists t, crun p fuel pr d "mu_bbuf_has_prefix_cstr" [VP s1 0; a] M = Ok (truth t, Tbool, M) /\ (t = true <-> exists rest, l1 = (s ++ rest)%list)) /\
    (exists t, crun p fuel pr d "mu_bbuf_has_suffix_cstr" [VP s1 0; a] M = Ok (truth t, Tbool, M) /\ (t = true <-> exists rest, l1 = (rest ++ s)%list)) /\
    crun p fuel pr d "mu_bbuf_find_subcstr" [VP s1 0; a; truth skip] M = Ok (VI f, int, M) /\ found s l1 skip Z.le f /\
    crun p fuel pr d "mu_bbuf_rfind_subcstr" [VP s1 0; a; truth skip] M = Ok (VI g, int, M) /\ found s l1 skip Z.ge g.
Proof.
  intros p fuel base pr d M m s1 b1 l1 q s skip Hm Hs1 Hb1 Hq Hf1 Hf2 a. unfold crun, a.
  pose proof (buf_fits p fuel m b1 l1 Hb1 Hf1) as F1. pose proof (strlen_ok m q s Hq) as Hsl.
  assert (Hz : (Z.to_nat (to_int (Z.of_nat (length s))) < fuel)%nat) by (destruct Hq as (?&?&_&_&_&?); rewrite cstr_cap by done; lia).
  destruct (C21_compare_cstr m b1 l1 q s (mrep_bytes _ _ _ Hm) Hb1 Hq) as (r & Hr & A & B & G & Hma).
  destruct (C22_prefix_suffix_cstr m b1 l1 q s Hb1 Hq) as (t1 & t2 & Ht1 & Ht2 & Hp1 & Hp2).
  destruct (C23_find_subcstr m b1 l1 q s skip Hb1 Hq) as (f & Hf & Hff). destruct (C23_rfind_subcstr m b1 l1 q s skip Hb1 Hq) as (g & Hg & Hgg).
  exists r, f, g. split; [exact (proj1 (src_compare_cstr p fuel base pr _ M m s1 b1 q r Hm Hs1 F1 Hr))|]. split; [done|]. split; [done|]. split; [done|].
  split; [exact (src_matches_cstr p fuel base pr _ M m s1 b1 q _ Hm Hs1 F1 Hma)|].
  split; [exists t1; split; [exact (src_has_prefix_cstr p fuel base pr _ M m s1 b1 q _ Hm Hs1 F1 Ht1)|done]|].
  split; [exists t2; split; [exact (src_has_suffix_cstr p fuel base pr _ M m s1 b1 q _ Hm Hs1 F1 Ht2)|done]|].
  split; [exact (src_find_subcstr p fuel base pr _ M m s1 b1 q _ skip _ Hm Hs1 F1 Hsl Hz Hf)|]. split; [done|].
  split; [exact (src_rfind_subcstr p fuel base pr _ M m s1 b1 q _ skip _ Hm Hs1 F1 Hsl Hz Hg)|done].
Qed.
(** single bytes and predicates; the predicate is the function fb called with the byte and the user's pointer a *)
Theorem C116_source_find : forall p fuel base pr d M m s b l byte fb a,
  mrep base M m -> isb base M s b -> buf m b l -> (length l + 2 < fuel)%nat -> 0 <= byte < 256 -> (a = VI 0 \/ exists k o, a = VP k o) ->
  let pred := pr (VP fb 0) a in
  exists r1 r2 r3 r4,
    crun p fuel pr d "mu_bbuf_find_byte" [VP s 0; VI byte] M = Ok (VI r1, int, M) /\ first_index (fun x => x = byte) l r1 /\
    crun p fuel pr d "mu_bbuf_rfind_byte" [VP s 0; VI byte] M = Ok (VI r2, int, M) /\ last_index (fun x => x = byte) l r2 /\
    crun p fuel pr d "mu_bbuf_find_predicate" [VP s 0; VP fb 0; a] M = Ok (VI r3, int, M) /\ first_index (fun x => pred x = false) l r3 /\
    crun p fuel pr d "mu_bbuf_rfind_predicate" [VP s 0; VP fb 0; a] M = Ok (VI r4, int, M) /\ last_index (fun x => pred x = false) l r4.
Proof.
  intros p fuel base pr d M m s b l byte fb a Hm Hs Hb Hf Hby Ha pred. unfold crun, pred. pose proof (buf_fits p fuel m b l Hb Hf) as F.
  destruct (C24_find_byte p m b l byte Hb) as (r1 & r2 & H1 & S1 & H2 & S2). destruct (C24_find_predicate m b l (pr (VP fb 0) a) Hb) as (r3 & r4 & H3 & S3 & H4 & S4).
  exists r1, r2, r3, r4. split; [exact (src_find_byte p fuel base pr _ M m s b byte r1 Hm Hs F Hby H1)|]. split; [done|].
  split; [exact (src_rfind_byte p fuel base pr _ M m s b byte r2 Hm Hs F Hby H2)|]. split; [done|].
  split; [exact (proj1 (src_find_predicate p fuel base pr _ M m s b fb a r3 Hm Hs F Ha H3))|]. split; [done|].
  split; [exact (proj1 (src_rfind_predicate p fuel base pr _ M m s b fb a r4 Hm Hs F Ha H4))|done].
Qed.
(** ** the parsers *)
Theorem C116_source_parse : forall p fuel base pr d M m s b l,
  mrep base M m -> isb base M s b -> buf m b l -> (length l + 2 < fuel)%nat ->
  let run x := crun p fuel pr d x [VP s 0] M in
  let v := decimal_value (take_while digit l) in
  run "mu_bbuf_parse_uint8" = Ok (VI (v mod 2 ^ 8), Tint false W8, M) /\
  run "mu_bbuf_parse_uint16" = Ok (VI (v mod 2 ^ 16), Tint false W16, M) /\
  run "mu_bbuf_parse_uint32" = Ok (VI (v mod 2 ^ 32), Tint false W32, M) /\
  run "mu_bbuf_parse_unsigned_int" = Ok (VI (v mod 2 ^ 32), Tint false W32, M) /\
  run "mu_bbuf_parse_uint64" = Ok (VI (v mod 2 ^ 64), Tint false W64, M) /\
  (exists r, run "mu_bbuf_parse_int8" = Ok (VI r, Tint true W8, M) /\ truncated 8 (signed_value l) r) /\
  (exists r, run "mu_bbuf_parse_int16" = Ok (VI r, Tint true W16, M) /\ truncated 16 (signed_value l) r) /\
  (magnitude l < 2 ^ 31 -> run "mu_bbuf_parse_int" = Ok (VI (signed_value l), int, M) /\ run "mu_bbuf_parse_int32" = Ok (VI (signed_value l), int, M)) /\
  (magnitude l < 2 ^ 63 -> run "mu_bbuf_parse_int64" = Ok (VI (signed_value l), Tint true W64, M)) /\
  run "mu_bbuf_parse_hex" = Ok (VI (hex_value (take_while BbufSpec.hex_digit l) mod 2 ^ 32), Tint false W32, M).
Proof.
  intros p fuel base pr d M m s b l Hm Hs Hb Hf run v. unfold run, crun, v. pose proof (buf_fits p fuel m b l Hb Hf) as F.
  destruct (C28_parse_unsigned m b l Hb) as (U1 & U2 & U3 & U4 & U5). destruct (C79_parse_signed_exact m b l Hb) as ((r8 & I1 & T1) & (r16 & I2 & T2) & _).
  destruct (C29_parse_wide_partial m b l Hb) as [I3 I4]. pose proof (C30_parse_hex true m b l (mrep_bytes _ _ _ Hm) Hb) as H1.
  split; [exact (src_parse_uint8 p fuel base pr _ M m s b _ Hm Hs F U1)|]. split; [exact (src_parse_uint16 p fuel base pr _ M m s b _ Hm Hs F U2)|].
  split; [exact (src_parse_uint32 p fuel base pr _ M m s b _ Hm Hs F U3)|]. split; [exact (src_parse_unsigned_int p fuel base pr _ M m s b _ Hm Hs F U4)|].
  split; [exact (src_parse_uint64 p fuel base pr _ M m s b _ Hm Hs F U5)|].
  split; [exists r8; split; [exact (src_parse_int8 p fuel base pr _ M m s b _ Hm Hs F I1)|done]|].
  split; [exists r16; split; [exact (src_parse_int16 p fuel base pr _ M m s b _ Hm Hs F I2)|done]|].
  split; [intros Hl; destruct (I3 Hl) as [J1 J2]; split; [exact (src_parse_int p fuel base pr _ M m s b _ Hm Hs F J1)|exact (src_parse_int32 p fuel base pr _ M m s b _ Hm Hs F J2)]|].
  split; [intros Hl; exact (src_parse_int64 p fuel base pr _ M m s b _ Hm Hs F (I4 Hl))|].
  exact (src_parse_hex p fuel base pr _ M m s b _ Hm Hs F H1).
Qed.
(** ** one byte *)
Theorem C116_source_bytes : forall p fuel base pr d M m s b pre l post index byte o x0 xs,
  mrep base M m -> isb base M s b -> buf_at m b pre l post -> 0 <= index < size_mod p -> 0 <= byte < 256 -> heap M !! o = Some (x0 :: xs) ->
  match l !! Z.to_nat index with
  | Some x =>
    crun p fuel pr d "mu_bbuf_get_byte" [VP s 0; VI index; VP o 0] M = Ok (VI 1, Tbool, MkMem (<[o := VI x :: xs]> (heap M)) (next M)) /\
    (forall f, f = "mu_bbuf_ref_ro" \/ f = "mu_bbuf_ref_rw" -> crun p fuel pr d f [VP s 0; VI index] M = Ok (VP (base + blk (bytes b)) (off (bytes b) + index), bytep, M)) /\
    exists M', crun p fuel pr d "mu_bbuf_put_byte" [VP s 0; VI index; VI byte] M = Ok (VI 1, Tbool, M') /\
      mrep base M' (with_contents m b pre (<[Z.to_nat index := byte]> l) post) /\
      forall k, (k < next M)%nat -> (forall j, (j < length m)%nat -> k <> (base + j)%nat) -> heap M' !! k = heap M !! k
  | None =>
    crun p fuel pr d "mu_bbuf_get_byte" [VP s 0; VI index; VP o 0] M = Ok (VI 0, Tbool, M) /\
    (forall f, f = "mu_bbuf_ref_ro" \/ f = "mu_bbuf_ref_rw" -> crun p fuel pr d f [VP s 0; VI index] M = Ok (VI 0, bytep, M)) /\
    exists M', crun p fuel pr d "mu_bbuf_put_byte" [VP s 0; VI index; VI byte] M = Ok (VI 0, Tbool, M') /\ mrep base M' m /\
      forall k, (k < next M)%nat -> (forall j, (j < length m)%nat -> k <> (base + j)%nat) -> heap M' !! k = heap M !! k
  end.
Proof.
  intros p fuel base pr d M m s b pre l post index byte o x0 xs Hm Hs Hb Hi Hby Ho. unfold crun.
  assert (Hc : 0 <= capacity b < size_mod p) by (eapply buf_cap; by exists pre, post).
  destruct (C31_get_ref m b pre l post index Hb ltac:(lia)) as [Hin Hout]. destruct (C31_put m b pre l post index byte Hb ltac:(lia)) as [Pin Pout]. cbv zeta in Pin.
  pose proof Hb as (_ & Ho1 & Hcap & _).
  destruct (l !! Z.to_nat index) as [x|] eqn:El.
  - assert (Hlt : index < capacity b) by (apply lookup_lt_Some in El; lia). destruct (Hin Hlt) as (x' & E1 & Hg & q & Hq & Hq1 & Hq2 & _). assert (x' = x) as -> by congruence. destruct (Pin Hlt) as (Hp & _).
    destruct (src_put_byte p fuel base pr (S (S (S d))) M m s b index byte true _ Hm Hs Hc Hi Hby Hp) as (M' & H1 & H2 & _ & H3).
    destruct (src_ref p fuel base pr (S (S (S d))) M m s b index _ Hm Hs Hc Hi Hq) as [R1 R2]. rewrite <- Ho1 in Hq2. unfold ptrval in R1, R2. rewrite Hq1, Hq2 in R1, R2.
    split; [exact (src_get_byte p fuel base pr _ M m s b index o x0 xs _ Hm Hs Hc Hi Ho Hg)|]. split; [intros f [-> | ->]; assumption|]. exists M'. done.
  - assert (Hge : capacity b <= index) by (apply lookup_ge_None in El; lia). destruct (Hout Hge) as [Hg Hq]. pose proof (Pout Hge) as Hp.
    destruct (src_put_byte p fuel base pr (S (S (S d))) M m s b index byte false _ Hm Hs Hc Hi Hby Hp) as (M' & H1 & H2 & _ & H3).
    destruct (src_ref p fuel base pr (S (S (S d))) M m s b index _ Hm Hs Hc Hi Hq) as [R1 R2].
    split; [exact (src_get_byte p fuel base pr _ M m s b index o x0 xs _ Hm Hs Hc Hi Ho Hg)|]. split; [intros f [-> | ->]; assumption|]. exists M'. done.
Qed.
(** ** views: a struct s1 written from the struct s2 (which may be the same).  [written]: only the struct s1
    has changed, it now holds [b'], and the byte objects are untouched. *)
Definition written (base : nat) (M M' : mem) (m : memory) (s1 : nat) (b' : bbuf) : Prop :=
  isb base M' s1 b' /\ mrep base M' m /\ next M' = next M /\ forall k, k <> s1 -> heap M' !! k = heap M !! k.
Lemma written_sset base M m s1 b' : mrep base M m -> slot M s1 -> (forall k, (k < length m)%nat -> s1 <> (base + k)%nat) -> written base M (sset base M s1 b') m s1 b'.
Proof. intros Hm Hs Hne. split; [by apply sset_isb|]. split; [by apply sset_mrep|]. split; [apply sset_next|]. intros k Hk. by apply sset_ne. Qed.
Theorem C116_source_init : forall p fuel base pr d M m s1 s2 b q cap s,
  mrep base M m -> slot M s1 -> (forall k, (k < length m)%nat -> s1 <> (base + k)%nat) -> 0 <= cap < size_mod p ->
  let run x vs b' := exists M', crun p fuel pr d x vs M = Ok (VP s1 0, TB, M') /\ written base M M' m s1 b' in
  run "mu_bbuf_init_ro" [VP s1 0; VP (base + blk q) (off q); VI cap] (MkBbuf q cap) /\
  run "mu_bbuf_init_rw" [VP s1 0; VP (base + blk q) (off q); VI cap] (MkBbuf q cap) /\
  (cstr_at m q s -> run "mu_bbuf_init_cstr" [VP s1 0; VP (base + blk q) (off q)] (MkBbuf q (Z.of_nat (length s)))) /\
  (isb base M s2 b -> 0 <= capacity b < size_mod p -> run "mu_bbuf_copy" [VP s1 0; VP s2 0] b /\
    crun p fuel pr d "mu_bbuf_capacity" [VP s2 0] M = Ok (VI (capacity b), Tsize, M) /\
    crun p fuel pr d "mu_bbuf_bytes_ro" [VP s2 0] M = Ok (VP (base + blk (bytes b)) (off (bytes b)), bytep, M) /\
    crun p fuel pr d "mu_bbuf_bytes_rw" [VP s2 0] M = Ok (VP (base + blk (bytes b)) (off (bytes b)), bytep, M)).
Proof.
  intros p fuel base pr d M m s1 s2 b q cap s Hm Hs1 Hne Hc run. unfold run, crun.
  split; [eexists; split; [exact (src_init_ro p fuel base pr _ M s1 q cap Hs1 Hc)|by apply written_sset]|].
  split; [eexists; split; [exact (src_init_rw p fuel base pr _ M s1 q cap Hs1 Hc)|by apply written_sset]|].
  split.
  - intros Hq. pose proof (strlen_ok m q s Hq) as Hsl. assert (Hl : 0 <= Z.of_nat (length s) < size_mod p) by (destruct Hq as (?&?&_&_&_&?); pose proof (size_mod_big p); ints; lia).
    eexists. split; [exact (src_init_cstr p fuel base pr _ M m s1 q _ Hm Hs1 Hne Hsl Hl)|by apply written_sset].
  - intros Hs2 Hc2. split; [eexists; split; [exact (src_copy p fuel base pr _ M s1 s2 b Hs1 Hs2 Hc2)|by apply written_sset]|].
    split; [exact (src_capacity p fuel base pr _ M s2 b Hs2 Hc2)|]. split; [exact (src_bytes_ro p fuel base pr _ M s2 b Hs2)|exact (src_bytes_rw p fuel base pr _ M s2 b Hs2)].
Qed.
Theorem C116_source_slice : forall p fuel base pr d M m s1 s2 b pre l post start end_,
  mrep base M m -> slot M s1 -> (forall k, (k < length m)%nat -> s1 <> (base + k)%nat) -> isb base M s2 b -> buf_at m b pre l post ->
  int_min <= start <= int_max -> int_min <= end_ <= int_max ->
  let whole := (pre ++ l ++ post)%list in
  let n := Z.of_nat (length l) in
  let s := norm_index n start in
  let t := Z.max s (norm_index n end_) in
  let s' := Z.of_nat (length pre) + s in
  let t' := Z.of_nat (length pre) + t in
  0 <= s' -> t - s <= int_max ->
  exists b' M', crun p fuel pr d "mu_bbuf_slice" [VP s1 0; VP s2 0; VI start; VI end_] M = Ok (VP s1 0, TB, M') /\ written base M M' m s1 b' /\
    blk (bytes b') = blk (bytes b) /\ buf_at m b' (take (Z.to_nat s') whole) (slice_of whole s' t') (drop (Z.to_nat t') whole).
Proof.
  intros p fuel base pr d M m s1 s2 b pre l post start end_ Hm Hs1 Hne Hs2 Hb Hst Hen whole n s t s' t' H1 H2. unfold crun.
  assert (Hc : 0 <= capacity b < size_mod p) by (eapply buf_cap; by exists pre, post).
  pose proof (C65_slice_exact p m [b] 0%nat 0%nat b pre l post start end_ eq_refl ltac:(by eexists) Hb Hst Hen) as H. cbv zeta in H. fold whole n s t s' t' in H. rewrite decide_True in H by done.
  destruct H as (b' & Hr & Hbl & Hat). destruct (src_slice p fuel base pr (S (S d)) M m [b] _ 0%nat 0%nat s1 s2 b start end_ Hm Hs1 Hs2 Hc Hst Hen eq_refl Hr) as (b2 & E & Hcall & _).
  injection E as <-. exists b', (sset base M s1 b'). split; [exact Hcall|]. split; [by apply written_sset|done].
Qed.
(** trims; [l1], [l2] are what is cut off the front and the end.  rtrim and trim also drop the last byte that should stay *)
Theorem C116_source_trim : forall p fuel base pr d M m s1 s2 b pre l post fb a,
  mrep base M m -> slot M s1 -> (forall k, (k < length m)%nat -> s1 <> (base + k)%nat) -> isb base M s2 b -> buf_at m b pre l post -> (length l + 2 < fuel)%nat ->
  (a = VI 0 \/ exists k o, a = VP k o) ->
  let pred := pr (VP fb 0) a in
  let run x l1 l' l2 := l = (l1 ++ l' ++ l2)%list /\
    exists b' M', crun p fuel pr d x [VP s1 0; VP s2 0; VP fb 0; a] M = Ok (VP s1 0, TB, M') /\ written base M M' m s1 b' /\ part_of m b pre post b' l1 l' l2 in
  exists l1 ll lr l2 t1 lt t2,
    run "mu_bbuf_ltrim" l1 ll [] /\ (keeps_some pred l -> ll = drop_while pred l) /\ (~ keeps_some pred l -> ll = l) /\
    run "mu_bbuf_rtrim" [] lr l2 /\ (keeps_some pred l -> exists x, pred x = false /\ (lr ++ [x])%list = drop_while_end pred l) /\ (~ keeps_some pred l -> lr = l) /\
    run "mu_bbuf_trim" t1 lt t2 /\ (keeps_some pred l -> exists x, pred x = false /\ (lt ++ [x])%list = drop_while_end pred (drop_while pred l)) /\ (~ keeps_some pred l -> lt = l).
Proof.
  intros p fuel base pr d M m s1 s2 b pre l post fb a Hm Hs1 Hne Hs2 Hb Hf Ha pred run. unfold run, crun.
  assert (F : fits p fuel b) by (eapply buf_fits; [by exists pre, post|done]).
  destruct (C66_trim_exact p m [b] 0%nat 0%nat b pre l post pred eq_refl ltac:(by eexists) Hb) as (bl & l1 & ll & br & lr & l2 & bt & t1 & lt & t2 & H1 & P1 & E1 & K1 & N1 & H2 & P2 & E2 & K2 & N2 & H3 & P3 & E3 & K3 & N3).
  destruct (src_ltrim p fuel base pr (S d) M m [b] _ 0%nat 0%nat s1 s2 b fb a Hm Hs1 Hs2 F Ha eq_refl H1) as (x1 & X1 & C1 & _). injection X1 as <-.
  destruct (src_rtrim p fuel base pr (S d) M m [b] _ 0%nat 0%nat s1 s2 b fb a Hm Hs1 Hs2 F Ha eq_refl H2) as (x2 & X2 & C2 & _). injection X2 as <-.
  destruct (src_trim p fuel base pr d M m [b] _ 0%nat 0%nat s1 s2 b fb a Hm Hs1 Hne Hs2 F Ha eq_refl H3) as (x3 & X3 & C3 & _). injection X3 as <-.
  exists l1, ll, lr, l2, t1, lt, t2. split; [split; [by rewrite app_nil_r|]; eexists _, _; split; [exact C1|]; split; [by apply written_sset|done]|]. split; [done|]. split; [done|].
  split; [split; [done|]; eexists _, _; split; [exact C2|]; split; [by apply written_sset|done]|]. split; [done|]. split; [done|].
  split; [split; [done|]; eexists _, _; split; [exact C3|]; split; [by apply written_sset|done]|]. done.
Qed.
(** bisect; either destination may be NULL, and any of the three structs may coincide except that the right one is written last *)
Theorem C116_source_bisect : forall p fuel base pr d M m sl sr s b pre l post index,
  mrep base M m -> slot M sl -> slot M sr -> (forall k, (k < length m)%nat -> sl <> (base + k)%nat /\ sr <> (base + k)%nat) -> isb base M s b -> buf_at m b pre l post -> (length l + 2 < fuel)%nat ->
  int_min < index <= int_max ->
  let n := Z.of_nat (length l) in
  let k := norm_index n index in
  let bl := MkBbuf (bytes b) (k mod size_mod p) in
  let br := MkBbuf (Ptr (blk (bytes b)) (Z.of_nat (length pre) + k)) (n - k) in
  (exists M', crun p fuel pr d "mu_bbuf_bisect" [VP sl 0; VI 0; VP s 0; VI index] M = Ok (VP s 0, TB, M') /\ written base M M' m sl bl) /\
  (0 <= Z.of_nat (length pre) + k ->
    (exists M', crun p fuel pr d "mu_bbuf_bisect" [VI 0; VP sr 0; VP s 0; VI index] M = Ok (VP s 0, TB, M') /\ written base M M' m sr br) /\
    (exists M1 M', crun p fuel pr d "mu_bbuf_bisect" [VP sl 0; VP sr 0; VP s 0; VI index] M = Ok (VP s 0, TB, M') /\ written base M M1 m sl bl /\ written base M1 M' m sr br)).
Proof.
  intros p fuel base pr d M m sl sr s b pre l post index Hm Hsl Hsr Hne Hs Hb Hf Hi n k bl br. unfold crun.
  assert (F : fits p fuel b) by (eapply buf_fits; [by exists pre, post|done]). assert (Hi' : int_min <= index <= int_max) by lia.
  assert (Hn1 : forall k, (k < length m)%nat -> sl <> (base + k)%nat) by (intros; by apply Hne). assert (Hn2 : forall k, (k < length m)%nat -> sr <> (base + k)%nat) by (intros; by apply Hne).
  set (al := fun i : nat => sl). set (ar := fun i : nat => sr).
  assert (HX : forall left right, (left = None \/ left = Some 1%nat) -> (right = None \/ right = Some 2%nat) ->
     mu_bbuf_bisect p m [b; b; b] left right 0%nat index = match right with None => Ok (upd [b; b; b] left bl) | Some _ => if decide (0 <= Z.of_nat (length pre) + k /\ int_min < index) then Ok (upd (upd [b; b; b] left bl) right br) else UB end).
  { intros left right Hl Hr. apply (C78_bisect_exact p m [b; b; b] left right 0%nat b pre l post index eq_refl Hb); [| |done].
    - intros x ->. destruct Hl as [|[= ->]]; [done|]. by eexists. - intros x ->. destruct Hr as [|[= ->]]; [done|]. by eexists. }
  assert (HY : forall left right e', (left = None \/ left = Some 1%nat) -> (right = None \/ right = Some 2%nat) -> mu_bbuf_bisect p m [b; b; b] left right 0%nat index = Ok e' ->
     exists b1 b2, e' = oput (oput [b; b; b] left b1) right b2 /\
       CLang.call p bvec_prog fuel (libc p) (user_pred pr) (S (S (S (S d)))) "mu_bbuf_bisect" [oaddr (al <$> left); oaddr (ar <$> right); VP s 0; VI index] M = Ok (VP s 0, TB, oset base (oset base M (al <$> left) b1) (ar <$> right) b2)).
  { intros left right e' Hl Hr He. destruct (src_bisect p fuel base pr (S (S d)) M m [b; b; b] e' 0%nat left right al ar s b index Hm Hs F Hi' ltac:(done) ltac:(done) ltac:(done) eq_refl He) as (b1 & b2 & E & Hcall & _). exists b1, b2. done. }
  split.
  - pose proof (HX (Some 1%nat) None ltac:(by right) ltac:(by left)) as E. cbv iota in E. destruct (HY (Some 1%nat) None _ ltac:(by right) ltac:(by left) E) as (b1 & b2 & E2 & Hcall). cbn in E2. injection E2 as <-.
    eexists. split; [exact Hcall|]. by apply written_sset.
  - intros H0. split.
    + pose proof (HX None (Some 2%nat) ltac:(by left) ltac:(by right)) as E. cbv iota in E. rewrite decide_True in E by (split; [exact H0|lia]). destruct (HY None (Some 2%nat) _ ltac:(by left) ltac:(by right) E) as (b1 & b2 & E2 & Hcall). cbn in E2. injection E2 as <-.
      eexists. split; [exact Hcall|]. by apply written_sset.
    + pose proof (HX (Some 1%nat) (Some 2%nat) ltac:(by right) ltac:(by right)) as E. cbv iota in E. rewrite decide_True in E by (split; [exact H0|lia]). destruct (HY (Some 1%nat) (Some 2%nat) _ ltac:(by right) ltac:(by right) E) as (b1 & b2 & E2 & Hcall). cbn in E2. injection E2 as <- <-.
      exists (sset base M sl bl). eexists. split; [exact Hcall|]. split; [by apply written_sset|]. apply written_sset; [by apply sset_mrep|by apply sset_slot|done].
Qed.
(** ** the functions which write the contents.  [rewritten]: the byte objects are now [m'], nothing else of the caller's has changed *)
Definition rewritten (base : nat) (M M' : mem) (m m' : memory) : Prop :=
  mrep base M' m' /\ (next M <= next M')%nat /\ forall k, (k < next M)%nat -> (forall j, (j < length m)%nat -> k <> (base + j)%nat) -> heap M' !! k = heap M !! k.
Theorem C116_source_mutate : forall p base pr d M m s b pre l post shift,
  mrep base M m -> isb base M s b -> buf_at m b pre l post -> Z.of_nat (length (pre ++ l ++ post)) < size_max p ->
  (base + length m <= next M)%nat -> (s < next M)%nat -> int_min <= shift <= int_max ->
  exists N, forall fuel, (N < fuel)%nat ->
  let run x vs l' := exists M', crun p fuel pr d x vs M = Ok (VP s 0, TB, M') /\ rewritten base M M' m (with_contents m b pre l' post) in
  run "mu_bbuf_clear" [VP s 0] (replicate (length l) 0) /\
  (l <> [] -> run "mu_bbuf_reverse" [VP s 0] (reverse l)) /\
  (shift <> int_min -> exists l', shifted l l' shift /\ run "mu_bbuf_rshift" [VP s 0; VI shift] l') /\
  (l <> [] -> exists l', rotated l l' shift /\ run "mu_bbuf_rrotate" [VP s 0; VI shift] l').
Proof.
  intros p base pr d M m s b pre l post shift Hm Hs Hb Hsz Hnx Hsn Hsh.
  destruct (C81_mutators_exact p m b pre l post shift Hb Hsz Hsh) as (H1 & H2 & H3 & H4).
  assert (Hc : 0 <= capacity b < size_mod p) by (eapply buf_cap; by exists pre, post).
  assert (HR : exists N, l <> [] -> exists l', rotated l l' shift /\ forall fuel, (N <= fuel)%nat -> mu_bbuf_rrotate p fuel m b shift = Ok (with_contents m b pre l' post)).
  { destruct (decide (l = [])) as [Hnil|Hnil]; [by exists 0%nat|]. destruct H3 as (l' & N & Hr & HN). exists N. intros _. by exists l'. }
  destruct HR as [N HR]. exists (N + length l + 2)%nat. intros fuel Hfuel run. unfold run, crun.
  assert (F : fits p fuel b) by (eapply buf_fits; [by exists pre, post|lia]).
  assert (W : forall M' m', mrep base M' m' -> frame base M M' m -> rewritten base M M' m m') by (intros M' m' A [B C]; done).
  split; [destruct (src_clear p fuel base pr (S (S (S d))) M m s b _ Hm Hs Hc H1) as (M' & E & A & B); exists M'; split; [exact E|by apply W]|].
  split; [intros Hnil; rewrite decide_False in H2 by done; destruct (src_reverse p fuel base pr (S (S (S d))) M m s b _ Hm Hs F H2) as (M' & E & A & B & _); exists M'; split; [exact E|by apply W]|].
  split.
  - intros Hmin. rewrite decide_False in H4 by done. destruct H4 as (l' & Hl' & Hr). exists l'. split; [done|].
    destruct (src_rshift p fuel base pr (S (S d)) M m s b shift _ Hm Hs Hc Hsh Hr) as (M' & E & A & B & _). exists M'. split; [exact E|by apply W].
  - intros Hnil. destruct (HR Hnil) as (l' & Hl' & Hr). exists l'. split; [done|].
    destruct (src_rrotate p fuel base pr (S d) M m s b N shift _ Hm Hs F Hnx Hsn Hsh ltac:(lia) (Hr N (Nat.le_refl N))) as (M' & E & A & B & _). exists M'. split; [exact E|by apply W].
Qed.
(** copy_into reads two uninitialised variables: undefined for every offset but those with nothing to copy *)
Theorem C116_source_copy_into : forall p fuel base pr d M s1 s2 b1 b2 offset,
  isb base M s1 b1 -> isb base M s2 b2 -> 0 <= capacity b1 <= size_max p -> 0 <= capacity b2 <= size_max p -> int_min < offset <= int_max ->
  crun p fuel pr d "mu_bbuf_copy_into" [VP s1 0; VP s2 0; VI offset] M =
    if decide ((0 < offset /\ capacity b1 <= offset) \/ (offset < 0 /\ capacity b2 <= - offset)) then Ok (VI 0, int, M) else UB.
Proof.
  intros p fuel base pr d M s1 s2 b1 b2 offset Hs1 Hs2 Hc1 Hc2 Ho. unfold crun.
  rewrite (src_copy_into p fuel base pr (S (S d)) M [] s1 s2 b1 b2 offset Hs1 Hs2) by (unfold size_max in *; lia || done).
  rewrite (C80_copy_into_exact p [] b1 b2 offset) by (done || lia).
  destruct (decide (_ \/ _)) as [E|E]; destruct (decide (_ \/ _)) as [E'|E']; try done; exfalso; [apply E'|apply E]; (destruct E as [?|?] || destruct E' as [?|?]); [by left|right; lia|by left|right; lia].
Qed.
(** ** mu_bvec: any history of calls on the text is a byte stream.  The out-pointer of mu_bvec_read_byte is the
    object o; it is made uninitialised before every read, so that a byte seen there was stored by the call. *)
Section stream.
Context (p : plat) (fuel : nat) (pr : val -> val -> Z -> bool) (d : nat).
Definition fresh_out (M : mem) (o : nat) : mem := MkMem (<[o := [VU]]> (heap M)) (next M).
Definition flag (v : val) : bool := match v with VI z => negb (z =? 0) | _ => false end.
Definition num_of (v : val) : Z := match v with VI z => z | _ => -1 end.
Definition cstream_step (s o : nat) (op : vop) (M : mem) : res (vobs * mem) :=
  match op with
  | VRead => let* '(r, _, M) := crun p fuel pr d "mu_bvec_read_byte" [VP s 0; VP o 0] (fresh_out M o) in
             Ok (VByte (flag r) (match heap M !! o with Some [VI x] => Some x | _ => None end), M)
  | VWrite x => let* '(r, _, M) := crun p fuel pr d "mu_bvec_write_byte" [VP s 0; VI x] M in Ok (VBool (flag r), M)
  | VReset => let* '(r, _, M) := crun p fuel pr d "mu_bvec_reset" [VP s 0] M in Ok (VUnit, M)
  | VSetCount n => let* '(r, _, M) := crun p fuel pr d "mu_bvec_set_count" [VP s 0; VI n] M in Ok (VUnit, M)
  | VCount => let* '(r, _, M) := crun p fuel pr d "mu_bvec_get_count" [VP s 0] M in Ok (VNum (num_of r), M)
  | VCapacity => let* '(r, _, M) := crun p fuel pr d "mu_bvec_get_capacity" [VP s 0] M in Ok (VNum (num_of r), M)
  | VAvailable => let* '(r, _, M) := crun p fuel pr d "mu_bvec_get_available" [VP s 0] M in Ok (VNum (num_of r), M)
  end.
Fixpoint cstream_run (s o : nat) (ops : list vop) (M : mem) : res (list vobs * mem) :=
  match ops with
  | [] => Ok ([], M)
  | op :: ops => let* '(b, M) := cstream_step s o op M in let* '(bs, M) := cstream_run s o ops M in Ok (b :: bs, M)
  end.
Context (base : nat).
(** the setting: the struct s holds the buffer and the cursor, o is another object, neither is among the byte objects *)
Record streams (M : mem) (m : memory) (s o : nat) (v : bvec) : Prop := {
  st_mem : mrep base M m;
  st_vec : isv base M s v;
  st_out : exists x, heap M !! o = Some [x];
  st_so : o <> s;
  st_apart : forall k, (k < length m)%nat -> s <> (base + k)%nat /\ o <> (base + k)%nat;
  st_next : (s < next M)%nat /\ (o < next M)%nat }.
Definition only (M M' : mem) (m : memory) (s o : nat) : Prop :=
  (next M <= next M')%nat /\ forall k, (k < next M)%nat -> k <> s -> k <> o -> (forall j, (j < length m)%nat -> k <> (base + j)%nat) -> heap M' !! k = heap M !! k.
Definition byte_op (op : vop) : Prop := match op with VWrite x => 0 <= x < 256 | VSetCount n => 0 <= n < size_mod p | _ => True end.
Lemma vstep_source M m s o v op ob m' v' : streams M m s o v -> 0 <= capacity (vbuf v) < size_mod p -> 0 <= vcount v < size_mod p -> byte_op op ->
  vstep p m v op = Ok (ob, m', v') -> exists M', cstream_step s o op M = Ok (ob, M') /\ streams M' m' s o v' /\ only M M' m s o /\ length m' = length m.
Proof.
  intros [Hm Hv [x0 Ho] Hso Hap [Hns Hno]] Hc Hn Hop Hr.
  assert (Hs1 : forall k, (k < length m)%nat -> s <> (base + k)%nat) by (intros; by apply Hap).
  assert (only0 : only M M m s o) by done.
  assert (Hput : forall w, let M' := vput base M s w in streams M' m s o w /\ only M M' m s o).
  { intros w. cbv zeta. pose proof (isv_vslot _ _ _ _ Hv) as Hsl. split; [|split; [done|intros; by rewrite vput_ne]].
    split; [by apply vput_mrep|by apply vput_isv|exists x0; by rewrite vput_ne|done|done|done]. }
  destruct op as [|x| |n| | |]; cbn [vstep cstream_step byte_op] in *; unfold crun.
  - destruct (mu_bvec_read_byte p m v) as [[[f y] v1]| |] eqn:E; try discriminate Hr. cbn [bind] in Hr. injection Hr as <- <- <-.
    set (M0 := fresh_out M o). assert (Hv0 : isv base M0 s v) by (destruct Hv as [r Hv]; exists r; unfold M0, fresh_out; cbn [heap]; rewrite lookup_insert_ne by done; exact Hv).
    assert (Hm0 : mrep base M0 m) by (intros k dd Hk; unfold M0, fresh_out; cbn [heap]; rewrite lookup_insert_ne; [by apply Hm|]; apply Hap; eapply lookup_lt_Some; exact Hk).
    assert (Ho0 : heap M0 !! o = Some [VU]) by (unfold M0, fresh_out; cbn [heap]; apply lookup_insert).
    rewrite (src_bvec_read_byte p fuel base pr (S d) M0 m s v o f y v1 Hm0 Hv0 Hc Hn Hs1 Hso ltac:(by eexists _, _) E). cbn [bind].
    assert (Hf : flag (truth f) = f) by by destruct f. rewrite Hf.
    assert (Hin : streams (vput base M0 s v1) m s o v1).
    { pose proof (isv_vslot _ _ _ _ Hv0) as Hsl. split; [by apply vput_mrep|by apply vput_isv|exists VU; by rewrite vput_ne|done|done|done]. }
    assert (Hon : forall k, k <> s -> k <> o -> heap (vput base M0 s v1) !! k = heap M !! k) by (intros k Hk1 Hk2; rewrite vput_ne by done; unfold M0, fresh_out; cbn [heap]; by rewrite lookup_insert_ne by done).
    assert (Hoo : heap (vput base M0 s v1) !! o = Some [VU]) by (rewrite vput_ne by done; exact Ho0).
    destruct y as [y|].
    + unfold oset0. rewrite Hoo. cbn [heap]. rewrite lookup_insert. eexists. split; [reflexivity|]. destruct Hin as [I1 [r I2] I3 I4 I5 I6]. split; [split|split; [split|done]]; cbn [heap next].
      * intros k dd Hk. cbn [heap]. rewrite lookup_insert_ne; [by apply I1|]. apply Hap. eapply lookup_lt_Some. exact Hk.
      * exists r. cbn [heap]. rewrite lookup_insert_ne by done. exact I2.
      * exists (VI y). by rewrite lookup_insert.
      * done. * done. * done. * done.
      * intros k Hk1 Hk2 Hk3 _. rewrite lookup_insert_ne by done. by apply Hon.
    + rewrite Hoo. eexists. split; [reflexivity|]. split; [done|]. split; [|done]. split; [done|]. intros. by apply Hon.
  - destruct (mu_bvec_write_byte p m v x) as [[[f v1] m1]| |] eqn:E; try discriminate Hr. cbn [bind] in Hr. injection Hr as <- <- <-.
    destruct (src_bvec_write_byte p fuel base pr (S d) M m s v x f v1 m1 Hm Hv Hc Hn Hs1 Hop E) as (M' & Hcall & Hm' & Hv' & Hfr). rewrite Hcall. cbn [bind].
    assert (Hf : flag (truth f) = f) by by destruct f. rewrite Hf. eexists. split; [reflexivity|].
    assert (Hlen : length m1 = length m).
    { revert E. unfold mu_bvec_write_byte, count_post_inc. destruct (mu_bvec_ref _ _ _) as [[q|]| |]; try done; cbn [bind]; [|by intros [= _ _ <-]]. destruct (wr m q 0 x) as [m2| |] eqn:Ew; try done. cbn [bind]. intros [= _ _ <-]. by apply wr_len in Ew as [_ ?]. }
    destruct Hfr as [Hf1 Hf2]. assert (Hnx : next (vput base M s v1) = next M) by done. rewrite Hnx in Hf1, Hf2. split; [split|split; [split|]]; try done.
    + exists x0. rewrite Hf2; [by rewrite vput_ne by done|lia|]. intros j Hj. by apply Hap.
    + intros k Hk. apply Hap. by rewrite <- Hlen.
    + lia.
    + intros k Hk H1 H2 H3. rewrite Hf2 by done. by rewrite vput_ne by done.
  - injection Hr as <- <- <-. rewrite (src_bvec_reset p fuel base pr _ M s v Hv). cbn [bind]. eexists. split; [reflexivity|]. destruct (Hput (mu_bvec_reset v)) as [A B]. done.
  - injection Hr as <- <- <-. rewrite (src_bvec_set_count p fuel base pr _ M s v n Hv Hop). cbn [bind]. eexists. split; [reflexivity|]. destruct (Hput (mu_bvec_set_count v n)) as [A B]. done.
  - injection Hr as <- <- <-. destruct (src_bvec_get p fuel base pr (S (S d)) M s v Hv Hc Hn) as (_ & _ & G & _). rewrite G. cbn [bind num_of]. eexists. split; [reflexivity|]. split; [|done]. split; try done. by exists x0.
  - injection Hr as <- <- <-. destruct (src_bvec_get p fuel base pr (S (S d)) M s v Hv Hc Hn) as (_ & G & _ & _). rewrite G. cbn [bind num_of]. eexists. split; [reflexivity|]. split; [|done]. split; try done. by exists x0.
  - injection Hr as <- <- <-. destruct (src_bvec_get p fuel base pr (S (S d)) M s v Hv Hc Hn) as (_ & _ & _ & G). rewrite G. cbn [bind num_of]. eexists. split; [reflexivity|]. split; [|done]. split; try done. by exists x0.
Qed.
End stream.
Theorem C116_source_stream : forall p fuel base pr d ops M m s o b pre l post c os l' c',
  streams base M m s o (MkBvec b c) ->
  m !! blk (bytes b) = Some (pre ++ l ++ post)%list -> off (bytes b) = Z.of_nat (length pre) -> capacity b = Z.of_nat (length l) ->
  Z.of_nat (length l) <= size_max p -> 0 <= c <= size_max p -> Forall (byte_op p) ops ->
  stream_run (size_mod p) l c ops = (os, l', c') ->
  exists M', cstream_run p fuel pr d s o ops M = Ok (os, M') /\
    streams base M' (with_contents m b pre l' post) s o (MkBvec b c') /\ only base M M' m s o.
Proof.
  intros p fuel base pr d ops M m s o b pre l post c os l' c' Hst B1 B2 B3 B4 Hc Hops E.
  assert (Hok : Forall (vop_ok (size_mod p)) ops) by (eapply Forall_impl; [exact Hops|]; intros [ | | | | | | ] ?; done).
  pose proof (C36_bvec_history p m b pre l post c ops os l' c' (conj B1 (conj B2 (conj B3 B4))) Hc Hok E) as Hrun.
  assert (Hcap : 0 <= capacity b < size_mod p) by (unfold size_max in *; lia). clear B1 B2 B3 B4 E Hok.
  assert (Hcc : 0 <= vcount (MkBvec b c) < size_mod p) by (cbn [vcount]; unfold size_max in *; lia). clear Hc.
  assert (Hbb : vbuf (MkBvec b c) = b) by done.
  remember (with_contents m b pre l' post) as m' eqn:Em. clear Em. revert M m os Hst Hrun Hcc Hbb. generalize (MkBvec b c) as v.
  induction ops as [|op ops IH]; intros v M m os Hst Hrun Hcc Hbb; cbn [vrun cstream_run] in *.
  - injection Hrun as <- <- <-. exists M. done.
  - destruct (vstep p m v op) as [[[ob m1] v1]| |] eqn:E1; try discriminate Hrun. cbn [bind] in Hrun.
    destruct (vrun p m1 v1 ops) as [[[os1 m2] v2]| |] eqn:E2; try discriminate Hrun. cbn [bind] in Hrun. injection Hrun as <- <- ->.
    apply Forall_cons in Hops as [Hop Hops'].
    destruct (vstep_source p fuel pr d base M m s o v op ob m1 v1 Hst ltac:(rewrite Hbb; exact Hcap) Hcc Hop E1) as (M1 & -> & Hst1 & [On1 On2] & Hlen). cbn [bind].
    assert (Hv1 : vbuf v1 = vbuf v /\ 0 <= vcount v1 < size_mod p).
    { pose proof (to_size_range p (vcount v + 1)) as Hts. pose proof (size_mod_big p). destruct op; cbn [vstep] in E1.
      - revert E1. unfold mu_bvec_read_byte, count_post_inc. destruct (mu_bvec_ref _ _ _) as [[q|]| |]; try done; cbn [bind]; [destruct (rd m q 0); try done; cbn [bind]|]; by intros [= _ _ <-].
      - revert E1. unfold mu_bvec_write_byte, count_post_inc. destruct (mu_bvec_ref _ _ _) as [[q|]| |]; try done; cbn [bind]; [destruct (wr m q 0 _); try done; cbn [bind]|]; by intros [= _ _ <-].
      - injection E1 as _ _ <-. cbn. split; [done|lia]. - injection E1 as _ _ <-. done. - by injection E1 as _ _ <-. - by injection E1 as _ _ <-. - by injection E1 as _ _ <-. }
    destruct Hv1 as [Hv1 Hv2]. destruct (IH Hops' v1 M1 m1 os1 Hst1 E2 Hv2 (eq_trans Hv1 Hbb)) as (M' & -> & Hst' & [On3 On4]). cbn [bind].
    exists M'. split; [done|]. split; [done|]. split; [lia|]. intros k Hk K1 K2 K3. rewrite On4; [by apply On2|lia|done|done|by rewrite Hlen].
Qed.
(** the three initialisers give the stream with cursor 0 *)
Theorem C116_source_stream_init : forall p fuel base pr d M s s2 b,
  (exists x y z rest, heap M !! s = Some (x :: y :: z :: rest)) -> isb base M s2 b -> 0 <= capacity b < size_mod p ->
  let run x vs := exists M', crun p fuel pr d x vs M = Ok (VP s 0, Tptr (Tstruct "mu_bvec_t"), M') /\ isv base M' s (MkBvec b 0) /\ next M' = next M /\ forall k, k <> s -> heap M' !! k = heap M !! k in
  run "mu_bvec_init" [VP s 0; VP s2 0] /\
  run "mu_bvec_init_ro" [VP s 0; VP (base + blk (bytes b)) (off (bytes b)); VI (capacity b)] /\
  run "mu_bvec_init_rw" [VP s 0; VP (base + blk (bytes b)) (off (bytes b)); VI (capacity b)].
Proof.
  intros p fuel base pr d M s s2 b Hs Hs2 Hc run. unfold run, crun. set (v := MkBvec b 0).
  destruct (C36_init v b) as (E1 & E2 & E3). destruct (src_bvec_init_ro p fuel base pr (S (S d)) M s v (bytes b) (capacity b) Hs Hc) as [H2 H3]. pose proof (src_bvec_init p fuel base pr (S (S d)) M s s2 v b Hs Hs2 Hc) as H1.
  rewrite E1 in H1. rewrite E2 in H2. rewrite E3 in H3.
  assert (W : isv base (vput base M s (MkBvec b 0)) s (MkBvec b 0) /\ next (vput base M s (MkBvec b 0)) = next M /\ forall k, k <> s -> heap (vput base M s (MkBvec b 0)) !! k = heap M !! k).
  { split; [by apply vput_isv|]. split; [done|]. intros. by apply vput_ne. }
  split; [|split]; eexists; (split; [eassumption|exact W]).
Qed.

(** ** a concrete case: objects 0 "xhello-12" and 1 "l"; structs 2 (the bytes "hello-12"), 3 ("l"), 4 (a mu_bvec_t on "hello-12"), 5 out *)
Definition ex_m : memory := [[120; 104; 101; 108; 108; 111; 45; 49; 50]; [108; 0]].
Definition ex_M : mem :=
  MkMem (list_to_map [(0%nat, VI <$> [120; 104; 101; 108; 108; 111; 45; 49; 50]); (1%nat, VI <$> [108; 0]);
    (2%nat, [VP 0 1; VI 8]); (3%nat, [VP 1 0; VI 1]); (4%nat, [VP 0 1; VI 8; VI 7]); (5%nat, [VU])]) 6.
Definition ex_b : bbuf := MkBbuf (Ptr 0 1) 8.
Definition ex_pr : val -> val -> Z -> bool := fun _ _ c => 97 <=? c.
Example C116_ex_hyps : mrep 0 ex_M ex_m /\ isb 0 ex_M 2 ex_b /\ isb 0 ex_M 3 (MkBbuf (Ptr 1 0) 1) /\
  buf_at ex_m ex_b [120] [104; 101; 108; 108; 111; 45; 49; 50] [] /\ buf_at ex_m (MkBbuf (Ptr 1 0) 1) [] [108] [0] /\ cstr_at ex_m (Ptr 1 0) [108] /\
  streams 0 ex_M ex_m 4 5 (MkBvec ex_b 7).
Proof.
  assert (Hm : mrep 0 ex_M ex_m).
  { intros k dd Hk. destruct k as [|[|k]]; [injection Hk as <-; split; [reflexivity|repeat (apply Forall_cons_2; [lia|]); by apply Forall_nil]|injection Hk as <-; split; [reflexivity|repeat (apply Forall_cons_2; [lia|]); by apply Forall_nil]|discriminate Hk]. }
  split; [exact Hm|]. split; [by exists []|]. split; [by exists []|]. split; [repeat split; vm_compute; done|]. split; [repeat split; vm_compute; done|].
  split; [exists [], []; repeat split; [apply Forall_cons_2; [lia|by apply Forall_nil]|vm_compute; done]|].
  split; [exact Hm|by exists []|by eexists|done|cbn; intros [|[|k]]; lia|cbn; lia].
Qed.
Definition out1 (r : res (val * ty * mem)) : res val := let* '(v, _, _) := r in Ok v.
Example C116_ex_run :
  let run x vs := out1 (crun P64 20 ex_pr 6 x vs ex_M) in
  (let* a := run "mu_bbuf_compare" [VP 2 0; VP 3 0] in let* b := run "mu_bbuf_find_substr" [VP 2 0; VP 3 0; VI 1] in let* c := run "mu_bbuf_rfind_byte" [VP 2 0; VI 108] in
   let* e := run "mu_bbuf_find_predicate" [VP 2 0; VP 9 0; VI 0] in let* f := run "mu_bbuf_has_prefix_cstr" [VP 2 0; VP 1 0] in Ok [a; b; c; e; f]) = Ok [VI (-4); VI 3; VI 3; VI 5; VI 0] /\
  (let* '(_, _, M) := crun P64 20 ex_pr 6 "mu_bbuf_rrotate" [VP 2 0; VI 3] ex_M in Ok (heap M !! 0%nat)) = Ok (Some (VI <$> [120; 45; 49; 50; 104; 101; 108; 108; 111])) /\
  (let* '(_, _, M) := crun P64 20 ex_pr 6 "mu_bbuf_slice" [VP 3 0; VP 2 0; VI (-3); VI 100] ex_M in out1 (crun P64 20 ex_pr 6 "mu_bbuf_parse_int8" [VP 3 0] M)) = Ok (VI (-12)) /\
  (let* '(os, _) := cstream_run P64 20 ex_pr 6 4 5 [VRead; VRead; VReset; VWrite 72; VAvailable; VReset; VRead] ex_M in Ok os) =
    Ok [VByte true (Some 50); VByte false None; VUnit; VBool true; VNum 7; VUnit; VByte true (Some 72)].
Proof. vm_compute. done. Qed.
Print Assumptions C116_source_search.
Print Assumptions C116_source_search_cstr.
Print Assumptions C116_source_find.
Print Assumptions C116_source_parse.
Print Assumptions C116_source_bytes.
Print Assumptions C116_source_init.
Print Assumptions C116_source_slice.
Print Assumptions C116_source_trim.
Print Assumptions C116_source_bisect.
Print Assumptions C116_source_mutate.
Print Assumptions C116_source_copy_into.
Print Assumptions C116_source_stream.
Print Assumptions C116_source_stream_init.
