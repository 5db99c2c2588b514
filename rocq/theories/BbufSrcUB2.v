(** * Property C118, continued: the parsers of int, int32_t and int64_t when the number does not fit *)
From Verif Require Import BbufModel BbufSpec.
From Verif Require Import CSym SrcBvec BbufSrc BbufSrc2 BbufSrc3 BbufSrc4 BbufSrc5 BbufSrc7.
Open Scope string_scope. Open Scope Z_scope.
Notation length := List.length.
Section ub.
Context (p : plat) (fuel : nat) (base : nat) (pr : val -> val -> Z -> bool).
Notation call d := (CLang.call p bvec_prog fuel (libc p) (user_pred pr) d).
Notation U8 := (Tint false W8).
Notation T := (Tptr (Tstruct "mu_bbuf_t")).
Implicit Types (M : mem) (m : memory).
Notation isb := (isb base).
Notation mrep := (mrep base).
Notation fits := (fits p fuel).
Notation env_parse := (env_parse base).
Notation env_int := (env_int base).
Notation lp d n c st bd := (loop n (CLang.test p bvec_prog (call d) (user_pred pr) c) (CLang.exec p bvec_prog (call d) (user_pred pr) fuel bd) (CLang.exec p bvec_prog (call d) (user_pred pr) fuel st)).
Notation parse_cond := (EAnd (EBin Gt (EPost Sub (EVar "len")) (EInt 0)) (CLang.ECall "is_decimal" [EDeref (EVar "buf")])).
Notation parse_body := (SExpr (EAssign (EVar "v") (EBin Add (EBin Mul (EVar "v") (EInt 10)) (EBin Sub (EDeref (EPost Add (EVar "buf"))) (EInt 48))))).
Ltac csw := repeat first [rewrite st_1 | rewrite st_2 | hstep | cti | cstep | progress change (Z.opp 1) with (-1)].
Ltac call_hook ::= first [erewrite src_capacity by eassumption | erewrite src_bytes_ro by eassumption | erewrite src_bytes_rw by eassumption | erewrite src_is_decimal by lia].
Definition wide t := t = I32 \/ t = I64.
Lemma chk_not lo hi x : ~ (lo <= x <= hi) -> chk lo hi x = UB.
Proof. intros H. unfold chk, in_range. destruct (Z.leb_spec lo x), (Z.leb_spec x hi); try lia; done. Qed.
Lemma chk_ub lo hi x : chk lo hi x = UB -> ~ (lo <= x <= hi).
Proof. intros H H2. rewrite chk_ok in H by done. done. Qed.
Lemma step_ub t d s tl M m q len v x cv : wide t -> mrep M m -> heap M !! (base + blk q)%nat = Some (VI <$> x) -> ld x (off q) = Ok cv -> 0 <= off q < Z.of_nat (length x) -> 0 <= off q + 1 <= Z.of_nat (length x) -> 0 <= cv < 256 -> ity_conv t v = v ->
  ity_arith t (v * 10) = UB \/ (exists v10, ity_arith t (v * 10) = Ok v10 /\ ity_arith t (v10 + (cv - 48)) = UB) ->
  exec p bvec_prog (call (S d)) (user_pred pr) fuel parse_body (env_parse t s q len v tl, M) = UB.
Proof.
  intros Ht Hm H H0 H1 Hq1 H2 Hv E. pose proof (ity_range t v Hv) as Hvr. clear Hv Hm. ints. unfold BbufSrc7.env_parse. cbn [blk off]. assert (int_min <= cv - 48 <= int_max) by lia.
  destruct Ht as [-> | ->]; cbn [ct ity_arith ity_conv ity_signed ity_mod] in *.
  - assert (int_min <= v <= int_max) by lia. destruct E as [E|(v10 & E1 & E)].
    + csw. rewrite ?E. reflexivity.
    + apply ichk_inv in E1 as [-> E1]. csw. rewrite ?E. reflexivity.
  - assert (W1 : wrap_signed 18446744073709551616 v = v) by (apply wrap_signed_id; [done|done|change (18446744073709551616 / 2) with 9223372036854775808; lia]).
    assert (W4 : wrap_signed 18446744073709551616 (cv - 48) = cv - 48) by (apply wrap_signed_id; [done|done|change (18446744073709551616 / 2) with 9223372036854775808; lia]).
    destruct E as [E|(v10 & E1 & E)].
    + apply chk_ub in E. csw. rewrite W1. change (wrap_signed 18446744073709551616 10) with 10. change (18446744073709551616 / 2) with 9223372036854775808. rewrite chk_not by lia. reflexivity.
    + apply chk_inv in E1 as [-> E1]. apply chk_ub in E. assert (W3 : wrap_signed 18446744073709551616 (v * 10) = v * 10) by (apply wrap_signed_id; [done|done|change (18446744073709551616 / 2) with 9223372036854775808; lia]).
      csw. rewrite W1. change (wrap_signed 18446744073709551616 10) with 10. change (18446744073709551616 / 2) with 9223372036854775808. rewrite chk_ok by lia.
      csw. rewrite W3, W4. change (18446744073709551616 / 2) with 9223372036854775808. rewrite chk_not by lia. reflexivity.
Qed.
Lemma is_decimal_r c : is_decimal c = true -> 48 <= c <= 57.
Proof. unfold is_decimal. lia. Qed.
Lemma loop_ub t d s tl c : assoc "is_decimal" tl = None -> wide t -> forall k n M m q len v, (k < n)%nat -> mrep M m -> m !! blk q = Some c -> 0 <= off q -> off q + len <= Z.of_nat (length c) ->
  0 <= len <= int_max -> ity_conv t v = v -> parse_loop k t m q len v = UB ->
  lp (S d) n parse_cond SSkip parse_body (env_parse t s q len v tl, M) = UB.
Proof.
  intros Htl Ht. induction k as [|k IH]; intros n M m q len v Hn Hm Hc Ho Hlc Hl Hv Hr; (destruct n as [|n]; [lia|]); cbn [parse_loop] in Hr;
    assert (Hl1 : isub len 1 = Ok (len - 1)) by (apply ichk_ok; ints; lia); rewrite Hl1 in Hr; cbn [bind] in Hr; destruct (Z.ltb_spec 0 len) as [E|E]; try discriminate Hr.
  assert (Hlr : int_min <= len <= int_max) by (ints; lia). assert (Hlr1 : int_min <= len - 1 <= int_max) by (ints; lia).
  destruct (parse_test p fuel base pr t d s tl M m q len v Htl Hm Hlr Hlr1) as [_ Ht2].
  destruct (Hm _ _ Hc) as [Hh Hby]. assert (exists cv, ld c (off q) = Ok cv /\ 0 <= cv < 256) as (cv & Hcv & Hcr).
  { unfold ld. destruct (Z.ltb_spec (off q) 0); [lia|]. destruct (c !! Z.to_nat (off q)) as [y|] eqn:Ey; [|apply lookup_ge_None in Ey; lia]. exists y. split; [done|]. rewrite Forall_lookup in Hby. by eapply Hby. }
  assert (Hrd : rd m q 0 = Ok cv) by (unfold rd; rewrite Hc, Z.add_0_r; done). rewrite Hrd in Hr. cbn [bind] in Hr.
  assert (E' : (0 <? len) = true) by (apply Z.ltb_lt; lia). rewrite loop_S, (Ht2 c cv E' Hh Hcv ltac:(lia) Hcr). destruct (is_decimal cv) eqn:Ed; [|discriminate Hr]. apply is_decimal_r in Ed.
  assert (H48 : isub cv 48 = Ok (cv - 48)) by (apply ichk_ok; ints; lia). rewrite H48 in Hr. cbn [bind] in Hr.
  assert (Hpa : padd m q 1 = Ok (Ptr (blk q) (off q + 1))). { unfold padd. rewrite Hc. destruct (Z.leb_spec 0 (off q + 1)); [|lia]. destruct (Z.leb_spec (off q + 1) (Z.of_nat (length c))); [done|lia]. }
  rewrite Hpa in Hr. cbn [bind] in Hr |- *.
  destruct (ity_arith t (v * 10)) as [v10| |] eqn:E10; cbn [bind] in Hr.
  3: { destruct Ht as [-> | ->]; cbn in E10; unfold ichk, chk in E10; by destruct (in_range _ _ _). }
  2: { rewrite (step_ub t d s tl M m q (len - 1) v c cv) by first [assumption|lia|by left]. reflexivity. }
  destruct (ity_arith t (v10 + (cv - 48))) as [w| |] eqn:Ew; cbn [bind] in Hr.
  3: { destruct Ht as [-> | ->]; cbn in Ew; unfold ichk, chk in Ew; by destruct (in_range _ _ _). }
  2: { rewrite (step_ub t d s tl M m q (len - 1) v c cv) by first [assumption|lia|right; by exists v10]. reflexivity. }
  rewrite (parse_step p fuel base pr t d s tl M m q (len - 1) v c cv v10 w) by first [assumption|lia]. cbn [bind]. 
  eapply IH; [ | |exact Hc| | | |apply ity_idem|exact Hr]; cbn [blk off]; try assumption; lia.
Qed.
Lemma body_ub t d s M m b l : wide t -> mrep M m -> isb M s b -> buf m b l -> (length l + 2 < fuel)%nat -> fits b -> int_parser t m b = UB ->
  exec p bvec_prog (call (S (S d))) (user_pred pr) fuel (fbody src_mu_bbuf_parse_int) ([("bbuf", BReg T (VP s 0)); ("buf", BReg (Tptr U8) VU); ("len", BReg int VU); ("v", BReg (ct t) VU); ("is_negative", BReg Tbool VU)], M) = UB.
Proof.
  intros Ht Hm Hs Hb Hfu [Hc Hf] Hr. ints. destruct Hb as (pre & post & Hb).
  assert (Hat : m !! blk (bytes b) = Some (pre ++ l ++ post)%list /\ off (bytes b) = Z.of_nat (length pre) /\ capacity b = Z.of_nat (length l) /\ capacity b <= int_max) by (destruct Hb as (A & B & C & D); split_and!; [exact A|exact B|exact C|lia]).
  destruct Hat as (Hcc & Hoff & Hcap & Hmax). set (c := (pre ++ l ++ post)%list) in *. assert (Hlc : Z.of_nat (length c) >= off (bytes b) + capacity b) by (unfold c; rewrite !app_length; lia). clearbody c.
  assert (Hti : to_int (capacity b) = capacity b) by (apply to_int_id; lia).
  assert (Hst : exists neg q len, int_start m b = Ok (neg, q, len) /\ blk q = blk (bytes b) /\ 0 <= off q /\ 0 <= len /\ off q + len <= Z.of_nat (length c) /\
     (let* v := parse_loop (Z.to_nat len) t m q len 0 in if neg : bool then let* x := ity_arith t (- v) in Ok (ity_conv t x) else Ok v) = UB).
  { revert Hr. unfold int_parser, int_start, mu_bbuf_capacity, mu_bbuf_bytes_ro. rewrite Hti. destruct (Z.leb_spec 1 (capacity b)) as [E|E].
    - destruct (Hm _ _ Hcc) as [_ Hby]. assert (exists cv, rd m (bytes b) 0 = Ok cv) as (cv & ->).
      { unfold rd, ld. rewrite Hcc, Z.add_0_r. destruct (Z.ltb_spec (off (bytes b)) 0); [lia|]. destruct (c !! Z.to_nat (off (bytes b))) as [y|] eqn:Ey; [by eexists|apply lookup_ge_None in Ey; lia]. }
      cbn [bind]. destruct (cv =? 45).
      + assert (Hpa : padd m (bytes b) 1 = Ok (Ptr (blk (bytes b)) (off (bytes b) + 1))). { unfold padd. rewrite Hcc. destruct (Z.leb_spec 0 (off (bytes b) + 1)); [|lia]. destruct (Z.leb_spec (off (bytes b) + 1) (Z.of_nat (length c))); [done|lia]. }
        assert (Hl1 : isub (capacity b) 1 = Ok (capacity b - 1)) by (apply ichk_ok; lia). rewrite Hpa, Hl1. cbn [bind]. intros Hr. eexists _, _, _. split; [reflexivity|]. cbn [blk off]. split_and!; [done|lia..|exact Hr].
      + intros Hr. eexists _, _, _. split; [reflexivity|]. split_and!; [done|lia..|exact Hr].
    - cbn [bind]. intros Hr. eexists _, _, _. split; [reflexivity|]. split_and!; [done|lia..|exact Hr]. }
  destruct Hst as (neg & q & len & Hst & Hbk & Hoq & Hl0 & Hlq & Hv). destruct (int_start_src p fuel base pr t (S (S d)) s M m b neg q len Hm Hc Hst) as (Hex & Hl & Hl2). clear Hr Hst.
  assert (Hv0 : ity_conv t 0 = 0) by (by destruct t). assert (Hcv : conv p (ct t) (VI 0) = Ok (VI 0)) by (by destruct t).
  destruct (parse_loop _ _ _ _ _ _) as [v| |] eqn:Ep; try discriminate Hv; cbn [bind] in Hv.
  - destruct (parse_loop_src p fuel base pr t (S d) s [("is_negative", BReg Tbool (truth neg))] eq_refl (Z.to_nat len) fuel M m q len 0 v ltac:(lia) Hm Hl Hv0 Ep) as (q' & len' & Ho & Hv').
    destruct neg; [|discriminate Hv]. pose proof (ity_range t v Hv') as Hvr. pose proof (to_int_r (capacity b)) as Hl3.
    destruct (ity_arith t (- v)) as [x| |] eqn:Ex; try discriminate Hv. unfold BbufSrc7.env_int, BbufSrc7.env_parse in *. cbn [truth] in *.
    destruct Ht as [-> | ->]; cbn [fbody src_mu_bbuf_parse_int ct ity_arith ity_mod] in *; clear Hl3 Hv' Hm Hti Hcap Hmax Hcc Hoff Hlc Hlq Hbk.
    + assert (int_min <= v <= int_max) by lia. csw. rewrite exec_SLoop, Ho. csw. rewrite ?Ex. reflexivity.
    + assert (W1 : wrap_signed 18446744073709551616 v = v) by (apply wrap_signed_id; [done|done|change (18446744073709551616 / 2) with 9223372036854775808; lia]).
      csw. rewrite exec_SLoop, Ho. csw. rewrite ?W1. change (18446744073709551616 / 2) with 9223372036854775808. apply chk_ub in Ex. rewrite chk_not by lia. reflexivity.
  - pose proof (loop_ub t (S d) s [("is_negative", BReg Tbool (truth neg))] c eq_refl Ht (Z.to_nat len) fuel M m q len 0 ltac:(lia) Hm ltac:(by rewrite Hbk) Hoq Hlq ltac:(lia) Hv0 Ep) as Ho. pose proof (to_int_r (capacity b)) as Hl3.
    unfold BbufSrc7.env_int, BbufSrc7.env_parse in *. cbn [truth] in Hex.
    destruct Ht as [-> | ->]; cbn [fbody src_mu_bbuf_parse_int ct] in *; clear Hm Hti Hcap Hmax Hcc Hoff Hlc Hlq Hbk; csw; rewrite exec_SLoop, Ho; reflexivity.
Qed.
Lemma parse_ub name f t d M m s b l : (name = "mu_bbuf_parse_int" /\ f = src_mu_bbuf_parse_int /\ t = I32 \/ name = "mu_bbuf_parse_int32" /\ f = src_mu_bbuf_parse_int32 /\ t = I32 \/ name = "mu_bbuf_parse_int64" /\ f = src_mu_bbuf_parse_int64 /\ t = I64) ->
  mrep M m -> isb M s b -> buf m b l -> (length l + 2 < fuel)%nat -> fits b -> int_parser t m b = UB -> call (S (S (S d))) name [VP s 0] M = UB.
Proof.
  intros Hn Hm Hs Hb Hfu Hf Hr. assert (wide t) as Ht by (unfold wide; destruct Hn as [(_ & _ & ->)|[(_ & _ & ->)|(_ & _ & ->)] ]; auto).
  pose proof (body_ub t d s M m b l Ht Hm Hs Hb Hfu Hf Hr) as E.
  destruct Hn as [(-> & -> & ->)|[(-> & -> & ->)|(-> & -> & ->)] ]; erewrite call_S by reflexivity; unfold run_fun;
    [change (fparams src_mu_bbuf_parse_int) with [("bbuf", T)]|change (fparams src_mu_bbuf_parse_int32) with [("bbuf", T)]|change (fparams src_mu_bbuf_parse_int64) with [("bbuf", T)] ];
    cbn [alloc bind_params]; change (conv p T (VP s 0)) with (Ok (VP s 0)); cbn [bind].
  1: change (fbody src_mu_bbuf_parse_int) with (fbody src_mu_bbuf_parse_int).
  all: cbn [ct] in E; cbn [fbody src_mu_bbuf_parse_int src_mu_bbuf_parse_int32 src_mu_bbuf_parse_int64 flocals fmem fret alloc app map fst snd] in *; rewrite E; reflexivity.
Qed.
End ub.
