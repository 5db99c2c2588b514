(** * mu_bbuf, continued: copy_into, ref, the parsers; mu_bvec *)
From Verif Require Import BbufModel BvecModel.
From Verif Require Import CSym SrcBvec BbufSrc BbufSrc2 BbufSrc3.
Open Scope string_scope. Open Scope Z_scope.
Notation length := List.length.
Section bbuf.
Context (p : plat) (fuel : nat) (base : nat) (pr : val -> val -> Z -> bool).
Notation call d := (CLang.call p bvec_prog fuel (libc p) (user_pred pr) d).
Notation pv := (ptrval base).
Notation mrep := (mrep base).
Notation isb := (isb base).
Notation fits := (fits p fuel).
Notation T := (Tptr (Tstruct "mu_bbuf_t")).
Notation U8 := (Tint false W8).
Implicit Types (M : mem) (m : memory).
Notation lp d n c st bd := (loop n (CLang.test p bvec_prog (call d) (user_pred pr) c) (CLang.exec p bvec_prog (call d) (user_pred pr) fuel bd) (CLang.exec p bvec_prog (call d) (user_pred pr) fuel st)).
Ltac csw := repeat first [hstep | cti | cstep | progress change (Z.opp 1) with (-1)].
Ltac call_hook ::= first [erewrite src_capacity by eassumption | erewrite src_bytes_ro by eassumption | erewrite src_bytes_rw by eassumption | erewrite src_is_decimal by eassumption].

(** *** copy_into: two of its variables are read before they are assigned; the text is undefined exactly where the model is *)
Lemma src_copy_into d M m s1 s2 b1 b2 off0 : isb M s1 b1 -> isb M s2 b2 -> 0 <= capacity b1 < size_mod p -> 0 <= capacity b2 < size_mod p -> int_min < off0 <= int_max ->
  call (S (S d)) "mu_bbuf_copy_into" [VP s1 0; VP s2 0; VI off0] M = match mu_bbuf_copy_into p m b1 b2 off0 with Ok (r, _) => Ok (VI r, int, M) | UB => UB | NoFuel => NoFuel end.
Proof.
  intros Hs1 Hs2 Hc1 Hc2 Ho. ints. pose proof (size_mod_big p). unfold mu_bbuf_copy_into, copy_into_from, mu_bbuf_capacity, copy_tail, rdvar.
  assert (Ho' : int_min <= off0 <= int_max) by lia. assert (Ho2 : int_min <= - off0 <= int_max) by lia.
  destruct (0 <? off0) eqn:E.
  - apply Z.ltb_lt in E as E'. rewrite (to_size_id p off0) by lia. destruct (capacity b1 <=? off0) eqn:E1; cbn [bind].
    + erewrite call_S by reflexivity. csw. reflexivity.
    + apply Z.leb_gt in E1 as E1'. erewrite call_S by reflexivity. csw. reflexivity.
  - destruct (off0 <? 0) eqn:E2.
    + apply Z.ltb_lt in E2 as E2'. rewrite ichk_ok by lia. cbn [bind]. rewrite (to_size_id p (- off0)) by lia. destruct (capacity b2 <=? - off0) eqn:E3; cbn [bind].
      * erewrite call_S by reflexivity. csw. reflexivity.
      * apply Z.leb_gt in E3 as E3'. rewrite (to_size_id p (capacity b2 - - off0)) by lia. assert (E4 : (capacity b2 - - off0 =? 0) = false) by (apply Z.eqb_neq; lia). rewrite E4. cbn [bind].
        assert (Hz : to_size p (capacity b2 - - off0) = capacity b2 - - off0) by (apply to_size_id; lia).
        erewrite call_S by reflexivity. csw. rewrite ?Hz. csw. rewrite ?E4. csw. reflexivity.
    + cbn [bind]. erewrite call_S by reflexivity. csw. reflexivity.
Qed.
(** *** references *)
Lemma src_ref d M m s b index r : mrep M m -> isb M s b -> 0 <= capacity b < size_mod p -> 0 <= index < size_mod p -> mu_bbuf_ref m b index = Ok r ->
  call (S d) "mu_bbuf_ref_ro" [VP s 0; VI index] M = Ok (match r with Some q => pv q | None => VI 0 end, Tptr U8, M) /\
  call (S d) "mu_bbuf_ref_rw" [VP s 0; VI index] M = Ok (match r with Some q => pv q | None => VI 0 end, Tptr U8, M).
Proof.
  intros Hm [rest Hs] Hc Hi Hr. unfold ptrval in Hs. unfold mu_bbuf_ref in Hr. destruct (index <? capacity b) eqn:E.
  - destruct (padd m (bytes b) index) as [q| |] eqn:Eq; try discriminate Hr. injection Hr as <-. apply (padd_inv _ _ _ _ _ _ Hm) in Eq as (c & Hh & -> & Hq).
    split; erewrite call_S by reflexivity; csw; reflexivity.
  - injection Hr as <-. split; erewrite call_S by reflexivity; csw; reflexivity.
Qed.
(** *** the ten decimal parsers *)
Definition ct (t : ity) : ty :=
  match t with I8 => Tint true W8 | I16 => Tint true W16 | I32 => int | I64 => Tint true W64 | BbufModel.U8 => Tint false W8 | U16 => Tint false W16 | U32 => Tint false W32 | U64 => Tint false W64 end.
Lemma ity_range t v : ity_conv t v = v ->
  match t with
  | I8 => -128 <= v <= 127 | I16 => -32768 <= v <= 32767 | I32 => -2147483648 <= v <= 2147483647 | I64 => -9223372036854775808 <= v <= 9223372036854775807
  | BbufModel.U8 => 0 <= v < 256 | U16 => 0 <= v < 65536 | U32 => 0 <= v < 4294967296 | U64 => 0 <= v < 18446744073709551616
  end.
Proof.
  unfold ity_conv. intros <-. destruct t; cbn [ity_signed ity_mod]; try (apply Z.mod_pos_bound; lia);
  match goal with |- context [wrap_signed ?m ?x] => pose proof (wrap_signed_range m x eq_refl eq_refl) as H; set (y := wrap_signed m x) in *; clearbody y; let h := eval vm_compute in (m / 2) in change (m / 2) with h in H; lia end.
Qed.
Lemma ity_idem t v : ity_conv t (ity_conv t v) = ity_conv t v.
Proof.
  unfold ity_conv. destruct t; cbn [ity_signed ity_mod]; try (apply Z.mod_mod; lia); (apply wrap_signed_id; [done|done|by apply wrap_signed_range]).
Qed.
Lemma chk_inv lo hi x y : chk lo hi x = Ok y -> y = x /\ lo <= x <= hi.
Proof. unfold chk, in_range. destruct (Z.leb_spec lo x), (Z.leb_spec x hi); cbn [andb]; try discriminate. intros [= <-]. lia. Qed.
Lemma chk_ok lo hi x : lo <= x <= hi -> chk lo hi x = Ok x.
Proof. intros H. unfold chk, in_range. destruct (Z.leb_spec lo x), (Z.leb_spec x hi); try lia. done. Qed.
Lemma conv_ct t r : ity_conv t r = r -> conv p (ct t) (VI r) = Ok (VI r).
Proof. intros H. rewrite <- H at 2. by destruct t. Qed.
Lemma umod (a b k : Z) : 0 < k -> (((((a mod k) mod k + b mod k) mod k)) mod k) = ((a mod k + b) mod k) mod k.
Proof. intros H. rewrite !Z.mod_mod by lia. rewrite Z.add_mod_idemp_r by lia. done. Qed.
Definition env_parse (t : ity) (s : nat) (q : ptr) (len v : Z) (tl : env) : env :=
  (("bbuf", BReg T (VP s 0)) :: ("buf", BReg (Tptr U8) (VP (base + blk q) (off q))) :: ("len", BReg int (VI len)) :: ("v", BReg (ct t) (VI v)) :: tl)%list.
Notation parse_cond := (EAnd (EBin Gt (EPost Sub (EVar "len")) (EInt 0)) (CLang.ECall "is_decimal" [EDeref (EVar "buf")])).
Notation parse_body := (SExpr (EAssign (EVar "v") (EBin Add (EBin Mul (EVar "v") (EInt 10)) (EBin Sub (EDeref (EPost Add (EVar "buf"))) (EInt 48))))).
Lemma parse_test t d s tl M m q len v : assoc "is_decimal" tl = None -> mrep M m -> int_min <= len <= int_max -> int_min <= len - 1 <= int_max ->
  (0 <? len = false -> CLang.test p bvec_prog (call (S d)) (user_pred pr) parse_cond (env_parse t s q len v tl, M) = Ok (false, (env_parse t s q (len - 1) v tl, M))) /\
  (forall x cv, 0 <? len = true -> heap M !! (base + blk q)%nat = Some (VI <$> x) -> ld x (off q) = Ok cv -> 0 <= off q < Z.of_nat (length x) -> 0 <= cv < 256 ->
     CLang.test p bvec_prog (call (S d)) (user_pred pr) parse_cond (env_parse t s q len v tl, M) = Ok (is_decimal cv, (env_parse t s q (len - 1) v tl, M))).
Proof.
  intros Htl Hm Hl Hl'. split; [intros E|intros x cv E H H0 H1 H2]; unfold env_parse; [csw; reflexivity|]. destruct (is_decimal cv) eqn:Ed; csw; rewrite ?Ed; reflexivity.
Qed.
Lemma parse_step t d s tl M m q len v x cv v10 w : mrep M m -> heap M !! (base + blk q)%nat = Some (VI <$> x) -> ld x (off q) = Ok cv -> 0 <= off q < Z.of_nat (length x) -> 0 <= off q + 1 <= Z.of_nat (length x) -> 0 <= cv < 256 -> ity_conv t v = v ->
  ity_arith t (v * 10) = Ok v10 -> ity_arith t (v10 + (cv - 48)) = Ok w ->
  exec p bvec_prog (call (S d)) (user_pred pr) fuel parse_body (env_parse t s q len v tl, M) = Ok (Next, (env_parse t s (Ptr (blk q) (off q + 1)) len (ity_conv t w) tl, M)).
Proof.
  intros Hm H H0 H1 Hq1 H2 Hv E10 Ew. pose proof (ity_range t v Hv) as Hvr. clear Hv Hm. ints. unfold env_parse. cbn [blk off]. assert (int_min <= cv - 48 <= int_max) by lia.
  destruct t; cbn [ct ity_arith ity_conv ity_signed ity_mod] in *.
  all: first [apply ichk_inv in E10 as [-> E10] | injection E10 as <- | apply chk_inv in E10 as [-> E10] ].
  all: first [apply ichk_inv in Ew as [-> Ew] | injection Ew as <- | apply chk_inv in Ew as [-> Ew] ].
  7, 8: csw; rewrite umod by lia; reflexivity.
  1-3, 5-6: assert (int_min <= v <= int_max) by lia; try (change (wrap_signed 4294967296 (v * 10 + (cv - 48))) with (to_int (v * 10 + (cv - 48))); rewrite (to_int_id (v * 10 + (cv - 48))) by lia); csw; reflexivity.
  assert (W1 : wrap_signed 18446744073709551616 v = v) by (apply wrap_signed_id; [done|done|change (18446744073709551616 / 2) with 9223372036854775808; lia]).
  assert (W4 : wrap_signed 18446744073709551616 (cv - 48) = cv - 48) by (apply wrap_signed_id; [done|done|change (18446744073709551616 / 2) with 9223372036854775808; lia]).
  assert (W3 : wrap_signed 18446744073709551616 (v * 10) = v * 10) by (apply wrap_signed_id; [done|done|change (18446744073709551616 / 2) with 9223372036854775808; lia]).
  csw. rewrite W1. change (wrap_signed 18446744073709551616 10) with 10. change (18446744073709551616 / 2) with 9223372036854775808. rewrite chk_ok by lia.
  csw. rewrite W3, W4. change (18446744073709551616 / 2) with 9223372036854775808. rewrite chk_ok by lia. csw. reflexivity.
Qed.
Lemma parse_loop_src t d s tl : assoc "is_decimal" tl = None -> forall k n M m q len v r, (k < n)%nat -> mrep M m -> int_min <= len <= int_max -> ity_conv t v = v -> parse_loop k t m q len v = Ok r ->
  exists q' len', lp (S d) n parse_cond SSkip parse_body (env_parse t s q len v tl, M) = Ok (Next, (env_parse t s q' len' r tl, M)) /\ ity_conv t r = r.
Proof.
  intros Htl. induction k as [|k IH]; intros n M m q len v r Hn Hm Hl Hv Hr; (destruct n as [|n]; [lia|]); cbn [parse_loop] in Hr;
    (destruct (isub len 1) as [l'| |] eqn:El; try discriminate Hr); cbn [bind] in Hr; apply isub_inv in El as [-> Hl']; destruct (0 <? len) eqn:E; try discriminate Hr;
    destruct (parse_test t d s tl M m q len v Htl Hm Hl Hl') as [Ht1 Ht2].
  1, 3: injection Hr as <-; exists q, (len - 1); split; [|done]; rewrite loop_S, (Ht1 E); reflexivity.
  mstepn Hm Hr cv. rewrite loop_S, (Ht2 x cv E H H0 H1 H2). destruct (is_decimal cv) eqn:Ed.
  2: { injection Hr as <-. exists q, (len - 1). split; [|done]. reflexivity. }
  destruct (isub cv 48) as [dd| |] eqn:Edd; try discriminate Hr. cbn [bind] in Hr. apply isub_inv in Edd as [-> Hdd].
  destruct (padd m q 1) as [q1| |] eqn:Eq1; try discriminate Hr. cbn [bind] in Hr. apply (padd_inv _ _ _ _ _ _ Hm) in Eq1 as (c2 & Hh2 & -> & Hq1). uniq.
  destruct (ity_arith t (v * 10)) as [v10| |] eqn:E10; try discriminate Hr. cbn [bind] in Hr.
  destruct (ity_arith t (v10 + (cv - 48))) as [w| |] eqn:Ew; try discriminate Hr. cbn [bind] in Hr.
  destruct (IH n M m _ _ _ r ltac:(lia) Hm Hl' (ity_idem t w) Hr) as (q' & len' & Ho & Hr'). exists q', len'. split; [|done]. rewrite <- Ho.
  cbn [bind]. rewrite (parse_step t d s tl M m q (len - 1) v x cv v10 w) by assumption. cbn [bind]. reflexivity.
Qed.
(** the text of a parser of a signed type, up to its types *)
Lemma uint_body t d s M m b r : mrep M m -> isb M s b -> fits b -> ity_signed t = false -> uint_parser t m b = Ok r ->
  exists q' len', exec p bvec_prog (call (S (S d))) (user_pred pr) fuel (fbody src_mu_bbuf_parse_unsigned_int) ([("bbuf", BReg T (VP s 0)); ("buf", BReg (Tptr U8) VU); ("len", BReg int VU); ("v", BReg (ct t) VU)], M) =
    Ok (Returned (VI r) (ct t), (env_parse t s q' len' r [], M)) /\ ity_conv t r = r.
Proof.
  intros Hm Hs [Hc Hf] Ht Hr. unfold uint_parser, mu_bbuf_capacity, mu_bbuf_bytes_ro in Hr. ints. pose proof (to_int_r (capacity b)) as Hl. pose proof (to_int_le (capacity b) ltac:(lia)) as Hle.
  assert (Hv0 : ity_conv t 0 = 0) by (by destruct t).
  destruct (parse_loop_src t (S d) s [] eq_refl (Z.to_nat (to_int (capacity b))) fuel M m (bytes b) (to_int (capacity b)) 0 r ltac:(lia) Hm Hl Hv0 Hr) as (q' & len' & Ho & Hr').
  exists q', len'. split; [|done]. clear Hr Hv0. unfold env_parse in *. destruct t; try discriminate Ht; cbn [fbody src_mu_bbuf_parse_unsigned_int ct] in *; csw; rewrite exec_SLoop, Ho; csw; reflexivity.
Qed.
Definition env_int (t : ity) (s : nat) (q : ptr) (len v : Z) (neg : bool) : env := env_parse t s q len v [("is_negative", BReg Tbool (truth neg))].
Definition int_start (m : memory) (b : bbuf) : res (bool * ptr * Z) :=
  let buf := bytes b in let len := to_int (capacity b) in
  let* neg := (if 1 <=? len then let* c := rd m buf 0 in Ok (c =? 45) else Ok false) in
  if neg : bool then let* q := padd m buf 1 in let* n := isub len 1 in Ok (neg, q, n) else Ok (neg, buf, len).
Lemma int_start_src t d s M m b neg q len : mrep M m -> 0 <= capacity b < size_mod p -> int_start m b = Ok (neg, q, len) ->
  exec p bvec_prog (call d) (user_pred pr) fuel (SIf (EAnd (EBin Ge (EVar "len") (EInt 1)) (EBin Eq (EDeref (EVar "buf")) (EInt 45)))
              (SSeq (SExpr (EAssignOp Sub (EVar "len") (EInt 1)))
                (SSeq (SExpr (EPost Add (EVar "buf")))
                  (SExpr (EAssign (EVar "is_negative") (EInt 1)))))
              SSkip) (env_int t s (bytes b) (to_int (capacity b)) 0 false, M) = Ok (Next, (env_int t s q len 0 neg, M)) /\ int_min <= len <= int_max /\ len <= to_int (capacity b).
Proof.
  intros Hm Hc Hr. ints. pose proof (to_int_r (capacity b)) as Hl. unfold int_start in Hr. unfold env_int, env_parse. destruct (1 <=? to_int (capacity b)) eqn:E.
  - destruct (rd m (bytes b) 0) as [cv| |] eqn:Er; try discriminate Hr. cbn [bind] in Hr. inv1 Er Hm. uniq. destruct (cv =? 45) eqn:E1.
    + destruct (padd m _ 1) as [q1| |] eqn:Eq1; try discriminate Hr. cbn [bind] in Hr. apply (padd_inv _ _ _ _ _ _ Hm) in Eq1 as (c2 & Hh2 & -> & Hq1). uniq.
      destruct (isub _ 1) as [n| |] eqn:En; try discriminate Hr. cbn [bind] in Hr. apply isub_inv in En as [-> Hn]. injection Hr as <- <- <-. split; [|lia]. cbn [blk off truth]. csw. rewrite ?E. csw. reflexivity.
    + injection Hr as <- <- <-. split; [|lia]. cbn [truth]. csw. rewrite ?E. csw. reflexivity.
  - cbn [bind] in Hr. injection Hr as <- <- <-. split; [|lia]. cbn [truth]. csw. rewrite ?E. csw. reflexivity.
Qed.
Lemma int_body t d s M m b r : mrep M m -> isb M s b -> fits b -> ity_signed t = true -> int_parser t m b = Ok r ->
  exists q' len' v neg x t', exec p bvec_prog (call (S (S d))) (user_pred pr) fuel (fbody src_mu_bbuf_parse_int) ([("bbuf", BReg T (VP s 0)); ("buf", BReg (Tptr U8) VU); ("len", BReg int VU); ("v", BReg (ct t) VU); ("is_negative", BReg Tbool VU)], M) =
    Ok (Returned (VI x) t', (env_int t s q' len' v neg, M)) /\ conv p (ct t) (VI x) = Ok (VI r).
Proof.
  intros Hm Hs [Hc Hf] Ht Hr. pose proof (to_int_le (capacity b) ltac:(lia)) as Hle. unfold int_parser, mu_bbuf_capacity, mu_bbuf_bytes_ro in Hr. ints.
  assert (Hst : exists neg q len, int_start m b = Ok (neg, q, len) /\ (let* v := parse_loop (Z.to_nat len) t m q len 0 in if neg : bool then let* x := ity_arith t (- v) in Ok (ity_conv t x) else Ok v) = Ok r).
  { revert Hr. unfold int_start. destruct (if 1 <=? _ then _ else _) as [neg| |]; cbn [bind]; try done. destruct neg.
    - destruct (padd _ _ _) as [q| |]; cbn [bind]; try done. destruct (isub _ _) as [n| |]; cbn [bind]; try done. intros H. eauto.
    - cbn [bind]. eauto. }
  destruct Hst as (neg & q & len & Hst & Hv). destruct (int_start_src t (S (S d)) s M m b neg q len Hm Hc Hst) as (Hex & Hl & Hl2). clear Hr Hst.
  destruct (parse_loop _ _ _ _ _ _) as [v| |] eqn:Ep; try discriminate Hv. cbn [bind] in Hv. assert (Hv0 : ity_conv t 0 = 0) by (by destruct t).
  destruct (parse_loop_src t (S d) s [("is_negative", BReg Tbool (truth neg))] eq_refl (Z.to_nat len) fuel M m q len 0 v ltac:(lia) Hm Hl Hv0 Ep) as (q' & len' & Ho & Hv'). clear Hv0 Ep.
  pose proof (ity_range t v Hv') as Hvr. pose proof (to_int_r (capacity b)) as Hl3.
  assert (Hcv : conv p (ct t) (VI 0) = Ok (VI 0)) by (by destruct t).
  unfold env_int, env_parse in *. cbn [truth] in Hex. exists q', len', v, neg.
  destruct t; try discriminate Ht; cbn [fbody src_mu_bbuf_parse_int ct ity_arith ity_mod] in *.
  all: destruct neg; cbn [bind] in Hv.
  1, 3, 5: destruct (ichk (- v)) as [x| |] eqn:Ex; try discriminate Hv; cbn [bind] in Hv; apply ichk_inv in Ex as [-> Ex].
  7: destruct (chk _ _ (- v)) as [x| |] eqn:Ex; try discriminate Hv; cbn [bind] in Hv; apply chk_inv in Ex as [-> Ex].
  all: assert (Hrr : forall a : Z, Ok a = Ok r -> a = r) by (by intros a [= ->]); apply Hrr in Hv; clear Hrr; subst r.
  1-3: exists (- v), int. 4-6: exists v, int. 7: exists (- v), (Tint true W64). 8: exists v, (Tint true W64).
  all: split; [|first [reflexivity | lazymatch type of Hv' with ity_conv ?t _ = _ => exact (conv_ct t v Hv') end] ].
  7: assert (W1 : wrap_signed 18446744073709551616 v = v) by (apply wrap_signed_id; [done|done|change (18446744073709551616 / 2) with 9223372036854775808; lia]).
  8: assert (W1 : wrap_signed 18446744073709551616 v = v) by (apply wrap_signed_id; [done|done|change (18446744073709551616 / 2) with 9223372036854775808; lia]).
  7: assert (W2 : wrap_signed 18446744073709551616 (- v) = - v) by (apply wrap_signed_id; [done|done|change (18446744073709551616 / 2) with 9223372036854775808; lia]).
  all: clear Hl3 Hv' Hm; cbn [truth] in *.
  all: try (assert (int_min <= v <= int_max) by lia; clear Hvr).
  all: csw; rewrite exec_SLoop, Ho; csw; rewrite ?W1; try reflexivity.
  change (18446744073709551616 / 2) with 9223372036854775808. rewrite chk_ok by lia. csw. rewrite ?W2. reflexivity.
Qed.
Lemma parse_fun d M s tl E name (f : fdef) t x r t' : find_fun name (funs bvec_prog) = Some f ->
  fret f = ct t -> fparams f = [("bbuf", T)] -> flocals f = ([("buf", Tptr U8); ("len", int); ("v", ct t)] ++ tl)%list -> fmem f = [] ->
  exec p bvec_prog (call (S (S d))) (user_pred pr) fuel (fbody f) ((("bbuf", BReg T (VP s 0)) :: ("buf", BReg (Tptr U8) VU) :: ("len", BReg int VU) :: ("v", BReg (ct t) VU) :: map (fun y => (fst y, BReg (snd y) VU)) tl)%list, M) = Ok (Returned (VI x) t', (E, M)) ->
  conv p (ct t) (VI x) = Ok (VI r) -> call (S (S (S d))) name [VP s 0] M = Ok (VI r, ct t, M).
Proof.
  intros Hf H1 H2 H3 H4 Ho Hc. rewrite (call_S _ _ _ _ _ _ _ f) by exact Hf. unfold run_fun. rewrite H1, H2, H3, H4. cbn [alloc bind_params]. rewrite app_nil_r.
  change (conv p T (VP s 0)) with (Ok (VP s 0)). cbn [bind app map fst snd]. rewrite Ho. cbn [bind finish snd CLang.free fold_right]. 
  assert (Hfin : forall tt v0, tt = ct t -> conv p tt v0 = Ok (VI r) -> match tt with Tvoid => Ok (VI 0, Tvoid, M) | t0 => let* v := conv p t0 v0 in Ok (v, t0, M) end = Ok (VI r, ct t, M)).
  { intros tt v0 -> Hv. destruct t; cbn [ct] in *; rewrite Hv; reflexivity. }
  exact (Hfin _ _ eq_refl Hc).
Qed.
Lemma src_parse_int d M m s b r : mrep M m -> isb M s b -> fits b -> mu_bbuf_parse_int m b = Ok r -> call (S (S (S d))) "mu_bbuf_parse_int" [VP s 0] M = Ok (VI r, ct I32, M).
Proof. intros Hm Hs F Hr. destruct (int_body I32 d s M m b r Hm Hs F eq_refl Hr) as (q & len & v & neg & x & t' & Ho & Hc). exact (parse_fun d M s [("is_negative", Tbool)] _ "mu_bbuf_parse_int" src_mu_bbuf_parse_int I32 x r t' eq_refl eq_refl eq_refl eq_refl eq_refl Ho Hc). Qed.
Lemma src_parse_unsigned_int d M m s b r : mrep M m -> isb M s b -> fits b -> mu_bbuf_parse_unsigned_int m b = Ok r -> call (S (S (S d))) "mu_bbuf_parse_unsigned_int" [VP s 0] M = Ok (VI r, ct U32, M).
Proof. intros Hm Hs F Hr. destruct (uint_body U32 d s M m b r Hm Hs F eq_refl Hr) as (q & len & Ho & Hc). exact (parse_fun d M s [] _ "mu_bbuf_parse_unsigned_int" src_mu_bbuf_parse_unsigned_int U32 r r _ eq_refl eq_refl eq_refl eq_refl eq_refl Ho (conv_ct U32 r Hc)). Qed.
Lemma src_parse_int8 d M m s b r : mrep M m -> isb M s b -> fits b -> mu_bbuf_parse_int8 m b = Ok r -> call (S (S (S d))) "mu_bbuf_parse_int8" [VP s 0] M = Ok (VI r, ct I8, M).
Proof. intros Hm Hs F Hr. destruct (int_body I8 d s M m b r Hm Hs F eq_refl Hr) as (q & len & v & neg & x & t' & Ho & Hc). exact (parse_fun d M s [("is_negative", Tbool)] _ "mu_bbuf_parse_int8" src_mu_bbuf_parse_int8 I8 x r t' eq_refl eq_refl eq_refl eq_refl eq_refl Ho Hc). Qed.
Lemma src_parse_uint8 d M m s b r : mrep M m -> isb M s b -> fits b -> mu_bbuf_parse_uint8 m b = Ok r -> call (S (S (S d))) "mu_bbuf_parse_uint8" [VP s 0] M = Ok (VI r, ct BbufModel.U8, M).
Proof. intros Hm Hs F Hr. destruct (uint_body BbufModel.U8 d s M m b r Hm Hs F eq_refl Hr) as (q & len & Ho & Hc). exact (parse_fun d M s [] _ "mu_bbuf_parse_uint8" src_mu_bbuf_parse_uint8 BbufModel.U8 r r _ eq_refl eq_refl eq_refl eq_refl eq_refl Ho (conv_ct BbufModel.U8 r Hc)). Qed.
Lemma src_parse_int16 d M m s b r : mrep M m -> isb M s b -> fits b -> mu_bbuf_parse_int16 m b = Ok r -> call (S (S (S d))) "mu_bbuf_parse_int16" [VP s 0] M = Ok (VI r, ct I16, M).
Proof. intros Hm Hs F Hr. destruct (int_body I16 d s M m b r Hm Hs F eq_refl Hr) as (q & len & v & neg & x & t' & Ho & Hc). exact (parse_fun d M s [("is_negative", Tbool)] _ "mu_bbuf_parse_int16" src_mu_bbuf_parse_int16 I16 x r t' eq_refl eq_refl eq_refl eq_refl eq_refl Ho Hc). Qed.
Lemma src_parse_uint16 d M m s b r : mrep M m -> isb M s b -> fits b -> mu_bbuf_parse_uint16 m b = Ok r -> call (S (S (S d))) "mu_bbuf_parse_uint16" [VP s 0] M = Ok (VI r, ct U16, M).
Proof. intros Hm Hs F Hr. destruct (uint_body U16 d s M m b r Hm Hs F eq_refl Hr) as (q & len & Ho & Hc). exact (parse_fun d M s [] _ "mu_bbuf_parse_uint16" src_mu_bbuf_parse_uint16 U16 r r _ eq_refl eq_refl eq_refl eq_refl eq_refl Ho (conv_ct U16 r Hc)). Qed.
Lemma src_parse_int32 d M m s b r : mrep M m -> isb M s b -> fits b -> mu_bbuf_parse_int32 m b = Ok r -> call (S (S (S d))) "mu_bbuf_parse_int32" [VP s 0] M = Ok (VI r, ct I32, M).
Proof. intros Hm Hs F Hr. destruct (int_body I32 d s M m b r Hm Hs F eq_refl Hr) as (q & len & v & neg & x & t' & Ho & Hc). exact (parse_fun d M s [("is_negative", Tbool)] _ "mu_bbuf_parse_int32" src_mu_bbuf_parse_int32 I32 x r t' eq_refl eq_refl eq_refl eq_refl eq_refl Ho Hc). Qed.
Lemma src_parse_uint32 d M m s b r : mrep M m -> isb M s b -> fits b -> mu_bbuf_parse_uint32 m b = Ok r -> call (S (S (S d))) "mu_bbuf_parse_uint32" [VP s 0] M = Ok (VI r, ct U32, M).
Proof. intros Hm Hs F Hr. destruct (uint_body U32 d s M m b r Hm Hs F eq_refl Hr) as (q & len & Ho & Hc). exact (parse_fun d M s [] _ "mu_bbuf_parse_uint32" src_mu_bbuf_parse_uint32 U32 r r _ eq_refl eq_refl eq_refl eq_refl eq_refl Ho (conv_ct U32 r Hc)). Qed.
Lemma src_parse_int64 d M m s b r : mrep M m -> isb M s b -> fits b -> mu_bbuf_parse_int64 m b = Ok r -> call (S (S (S d))) "mu_bbuf_parse_int64" [VP s 0] M = Ok (VI r, ct I64, M).
Proof. intros Hm Hs F Hr. destruct (int_body I64 d s M m b r Hm Hs F eq_refl Hr) as (q & len & v & neg & x & t' & Ho & Hc). exact (parse_fun d M s [("is_negative", Tbool)] _ "mu_bbuf_parse_int64" src_mu_bbuf_parse_int64 I64 x r t' eq_refl eq_refl eq_refl eq_refl eq_refl Ho Hc). Qed.
Lemma src_parse_uint64 d M m s b r : mrep M m -> isb M s b -> fits b -> mu_bbuf_parse_uint64 m b = Ok r -> call (S (S (S d))) "mu_bbuf_parse_uint64" [VP s 0] M = Ok (VI r, ct U64, M).
Proof. intros Hm Hs F Hr. destruct (uint_body U64 d s M m b r Hm Hs F eq_refl Hr) as (q & len & Ho & Hc). exact (parse_fun d M s [] _ "mu_bbuf_parse_uint64" src_mu_bbuf_parse_uint64 U64 r r _ eq_refl eq_refl eq_refl eq_refl eq_refl Ho (conv_ct U64 r Hc)). Qed.
End bbuf.
