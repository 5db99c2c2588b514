(** * Property C116, continued: the pointers mu_bvec gives out *)
From Verif Require Import BbufModel BbufSpec BbufProofs BvecModel.
From Verif Require Import CSym SrcBvec BbufSrc BbufSrc2 BbufSrc3 BbufSrc4 BbufSrc5 BbufSrc7 BbufSrc9 BbufSrcProps.
Open Scope string_scope. Open Scope Z_scope.
Notation length := List.length.
(** mu_bvec_ref_ro and mu_bvec_ref_rw give a pointer to byte [i] of the stream's buffer, NULL for every [i] outside it,
    whatever the cursor; what the pointer reads is that byte; mu_bvec_get_bbuf gives the stream's own buffer (the struct's
    first member). None of them writes anything. *)
Theorem C116_source_stream_refs : forall p fuel base pr d M m s b pre l post c i,
  mrep base M m -> isv base M s (MkBvec b c) -> buf_at m b pre l post -> 0 <= c <= size_max p -> 0 <= i <= size_max p ->
  let run x vs := crun p fuel pr d x vs M in
  let want := if decide (i < Z.of_nat (length l)) then VP (base + blk (bytes b)) (off (bytes b) + i) else VI 0 in
  run "mu_bvec_ref_ro" [VP s 0; VI i] = Ok (want, Tptr (Tint false W8), M) /\
  run "mu_bvec_ref_rw" [VP s 0; VI i] = Ok (want, Tptr (Tint false W8), M) /\
  run "mu_bvec_get_bbuf" [VP s 0] = Ok (VP s 0, TB, M) /\
  (forall x, l !! Z.to_nat i = Some x -> exists cells, heap M !! (base + blk (bytes b))%nat = Some cells /\ cells !! Z.to_nat (off (bytes b) + i) = Some (VI x)).
Proof.
  intros p fuel base pr d M m s b pre l post c i Hm Hv Hb Hc Hi run want. unfold run, crun, size_max in *.
  assert (Hcap : 0 <= capacity b < size_mod p) by (eapply buf_cap; by exists pre, post).
  destruct Hb as (B1 & B2 & B3 & _).
  assert (Hr : mu_bvec_ref m (MkBvec b c) i = Ok (if decide (i < Z.of_nat (length l)) then Some (Ptr (blk (bytes b)) (off (bytes b) + i)) else None)).
  { unfold mu_bvec_ref. cbn [vbuf]. unfold mu_bbuf_ref. rewrite B3. destruct (decide _) as [E|E].
    - destruct (Z.ltb_spec i (Z.of_nat (length l))); [|lia]. unfold padd. rewrite B1, !app_length. destruct (Z.leb_spec 0 (off (bytes b) + i)); [|lia].
      destruct (Z.leb_spec (off (bytes b) + i) (Z.of_nat (length pre + (length l + length post)))); [|lia]. reflexivity.
    - destruct (Z.ltb_spec i (Z.of_nat (length l))); [lia|]. reflexivity. }
  destruct (src_bvec_ref p fuel base pr (S (S d)) M m s (MkBvec b c) i _ Hm Hv Hcap ltac:(lia) Hr) as [R1 R2].
  destruct (src_bvec_get p fuel base pr (S (S d)) M s (MkBvec b c) Hv Hcap ltac:(cbn [vcount]; lia)) as [R3 _].
  split; [rewrite R1; unfold want; by destruct (decide _)|]. split; [rewrite R2; unfold want; by destruct (decide _)|]. split; [exact R3|].
  intros x Hx. destruct (Hm _ _ B1) as [Hh _]. eexists. split; [exact Hh|]. rewrite list_lookup_fmap.
  replace (Z.to_nat (off (bytes b) + i)) with (length pre + Z.to_nat i)%nat by lia. rewrite lookup_app_r by lia. replace (length pre + Z.to_nat i - length pre)%nat with (Z.to_nat i) by lia.
  rewrite lookup_app_l by (eapply lookup_lt_Some; exact Hx). by rewrite Hx.
Qed.
