(** * Property C118: where the text of mu_bbuf.c is undefined, or does not return; the theorems *)
From Verif Require Import BbufModel BbufSpec BbufProofs BbufExact BbufExact2 BbufProps.
From Verif Require Import CSym SrcBvec BbufSrc BbufSrc2 BbufSrc3 BbufSrc4 BbufSrc5 BbufSrc6 BbufSrcProps BbufSrcUB BbufSrcUB2.
Open Scope string_scope. Open Scope Z_scope.
Notation length := List.length.

(** mu_bbuf_slice for every pair of indices: the slice when its pointer stays in the object and its length fits an int,
    undefined otherwise *)
Theorem C118_source_slice : forall p fuel base pr d M m s1 s2 b pre l post start end_,
  mrep base M m -> slot M s1 -> (forall k, (k < length m)%nat -> s1 <> (base + k)%nat) -> isb base M s2 b -> buf_at m b pre l post ->
  int_min <= start <= int_max -> int_min <= end_ <= int_max ->
  let whole := (pre ++ l ++ post)%list in
  let n := Z.of_nat (length l) in
  let s := norm_index n start in
  let t := Z.max s (norm_index n end_) in
  let s' := Z.of_nat (length pre) + s in
  let t' := Z.of_nat (length pre) + t in
  let r := crun p fuel pr d "mu_bbuf_slice" [VP s1 0; VP s2 0; VI start; VI end_] M in
  if decide (0 <= s' /\ t - s <= int_max) then
    exists b' M', r = Ok (VP s1 0, TB, M') /\ written base M M' m s1 b' /\
      blk (bytes b') = blk (bytes b) /\ buf_at m b' (take (Z.to_nat s') whole) (slice_of whole s' t') (drop (Z.to_nat t') whole)
  else r = UB.
Proof.
  intros p fuel base pr d M m s1 s2 b pre l post start end_ Hm Hs1 Hne Hs2 Hb Hst Hen whole n s t s' t' r.
  pose proof (C116_source_slice p fuel base pr d M m s1 s2 b pre l post start end_ Hm Hs1 Hne Hs2 Hb Hst Hen) as H. cbv zeta in H. fold whole n s t s' t' r in H.
  pose proof (C65_slice_exact p m [b] 0%nat 0%nat b pre l post start end_ eq_refl ltac:(by eexists) Hb Hst Hen) as H2. cbv zeta in H2. fold whole n s t s' t' in H2.
  destruct (decide _) as [ [A B]|A]; [by apply H|].
  apply (slice_ub p fuel base pr (S (S d)) M m s1 s2 b whole start end_); try assumption; [eapply buf_cap; by exists pre, post|apply Hb].
Qed.
(** the parsers of the wide signed types: the number if it fits, undefined otherwise *)
Theorem C118_source_parse : forall p fuel base pr d M m s b l,
  mrep base M m -> isb base M s b -> buf m b l -> (length l + 2 < fuel)%nat ->
  let run x := crun p fuel pr d x [VP s 0] M in
  run "mu_bbuf_parse_int" = (if magnitude l <? 2 ^ 31 then Ok (VI (signed_value l), int, M) else UB) /\
  run "mu_bbuf_parse_int32" = (if magnitude l <? 2 ^ 31 then Ok (VI (signed_value l), int, M) else UB) /\
  run "mu_bbuf_parse_int64" = (if magnitude l <? 2 ^ 63 then Ok (VI (signed_value l), Tint true W64, M) else UB).
Proof.
  intros p fuel base pr d M m s b l Hm Hs Hb Hf run. pose proof (buf_fits p fuel m b l Hb Hf) as F.
  destruct (C116_source_parse p fuel base pr d M m s b l Hm Hs Hb Hf) as (_ & _ & _ & _ & _ & _ & _ & A & B & _). fold run in A, B.
  destruct (C79_parse_signed_exact m b l Hb) as (_ & _ & U1 & U2 & U3).
  destruct (Z.ltb_spec (magnitude l) (2 ^ 31)) as [H|H].
  - destruct (A H) as [A1 A2]. split; [exact A1|]. split; [exact A2|]. destruct (Z.ltb_spec (magnitude l) (2 ^ 63)) as [H6|H6]; [by apply B|assert (2 ^ 31 < 2 ^ 63) by reflexivity; lia].
  - split; [eapply parse_ub; [by left|exact Hm|exact Hs|exact Hb|exact Hf|exact F|exact U1]|].
    split; [eapply parse_ub; [by right; left|exact Hm|exact Hs|exact Hb|exact Hf|exact F|exact U2]|].
    destruct (Z.ltb_spec (magnitude l) (2 ^ 63)) as [H6|H6]; [by apply B|]. eapply parse_ub; [by right; right|exact Hm|exact Hs|exact Hb|exact Hf|exact F|exact U3].
Qed.
(** the mutators on an empty buffer, and the shift by INT_MIN on any buffer: undefined, and for mu_bbuf_rrotate: it runs out
    of any number of loop iterations, that is, it never returns *)
Theorem C118_source_mutate : forall p fuel base pr d M m s b pre l post shift,
  mrep base M m -> isb base M s b -> buf_at m b pre l post -> Z.of_nat (length (pre ++ l ++ post)) < size_max p -> (s < next M)%nat ->
  int_min <= shift <= int_max ->
  crun p fuel pr d "mu_bbuf_rshift" [VP s 0; VI int_min] M = UB /\
  (l = [] -> crun p fuel pr d "mu_bbuf_reverse" [VP s 0] M = UB /\ crun p fuel pr d "mu_bbuf_rrotate" [VP s 0; VI shift] M = NoFuel).
Proof.
  intros p fuel base pr d M m s b pre l post shift Hm Hs Hb Hsz Hsn Hsh. unfold crun.
  assert (Hc : 0 <= capacity b < size_mod p) by (eapply buf_cap; by exists pre, post).
  split; [by apply rshift_min with base b|]. intros ->. destruct Hb as (B1 & B2 & B3 & _). cbn [length] in B3. change (Z.of_nat 0) with 0 in B3.
  split; [|by apply rrotate_empty with base b]. apply reverse_empty with base b (pre ++ [] ++ post)%list; try assumption; [by apply Hm|]. rewrite B2, !app_length. lia.
Qed.
(** non-vacuity: a buffer of the twelve bytes of "-99999999999", and the same buffer empty *)
Definition twelve : list Z := [45; 57; 57; 57; 57; 57; 57; 57; 57; 57; 57; 57].
Definition memory_of (n : Z) : mem := MkMem (list_to_map [(0%nat, [VP 1 0; VI n]); (1%nat, VI <$> twelve)]) 2.
Theorem C118_example :
  mrep 1 (memory_of 12) [twelve] /\ isb 1 (memory_of 12) 0 (MkBbuf (Ptr 0 0) 12) /\ buf [twelve] (MkBbuf (Ptr 0 0) 12) twelve /\ 2 ^ 31 <= magnitude twelve < 2 ^ 63 /\
  crun P32 20 (fun _ _ _ => false) 0 "mu_bbuf_parse_int" [VP 0 0] (memory_of 12) = UB /\
  isb 1 (memory_of 0) 0 (MkBbuf (Ptr 0 0) 0) /\ buf_at [twelve] (MkBbuf (Ptr 0 0) 0) [] [] twelve /\
  crun P32 20 (fun _ _ _ => false) 0 "mu_bbuf_reverse" [VP 0 0] (memory_of 0) = UB.
Proof.
  assert (Hm : forall n, mrep 1 (memory_of n) [twelve]).
  { intros n [|k] x Hk; [|destruct k; discriminate Hk]. injection Hk as <-. split; [reflexivity|]. unfold twelve. repeat (apply Forall_cons; split; [lia|]). by apply Forall_nil. }
  split; [apply Hm|]. split; [by exists []|]. split; [exists [], []; split_and!; (reflexivity || (cbn; ints; lia))|]. split; [split; [by vm_compute|by vm_compute]|].
  split; [vm_compute; reflexivity|]. split; [by exists []|]. split; [split_and!; (reflexivity || (cbn; ints; lia))|]. vm_compute; reflexivity.
Qed.
