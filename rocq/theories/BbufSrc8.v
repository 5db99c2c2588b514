(** * mu_bbuf_parse_hex *)
From Verif Require Import BbufModel BvecModel.
From Verif Require Import CSym SrcBvec BbufSrc BbufSrc2 BbufSrc3.
Open Scope string_scope. Open Scope Z_scope.
Notation length := List.length.
Section bbuf.
Context (p : plat) (fuel : nat) (base : nat) (pr : val -> val -> Z -> bool).
Notation call d := (CLang.call p bvec_prog fuel (libc p) (user_pred pr) d).
Notation pv := (ptrval base).
Notation mrep := (mrep base).
Notation isb := (isb base).
Notation fits := (fits p fuel).
Notation T := (Tptr (Tstruct "mu_bbuf_t")).
Notation U8 := (Tint false W8).
Implicit Types (M : mem) (m : memory).
Notation lp d n c st bd := (loop n (CLang.test p bvec_prog (call d) (user_pred pr) c) (CLang.exec p bvec_prog (call d) (user_pred pr) fuel bd) (CLang.exec p bvec_prog (call d) (user_pred pr) fuel st)).
Ltac csw := repeat first [hstep | cti | cstep | progress change (Z.opp 1) with (-1)].
Ltac call_hook ::= first [erewrite src_capacity by eassumption | erewrite src_bytes_ro by eassumption | erewrite src_bytes_rw by eassumption | erewrite src_is_decimal by eassumption].

Definition env_hex (s : nat) (q : ptr) (len v : Z) (ch : val) : env :=
  [("bbuf", BReg T (VP s 0)); ("buf", BReg (Tptr U8) (VP (base + blk q) (off q))); ("len", BReg int (VI len)); ("v", BReg (Tint false W32) (VI v)); ("ch", BReg (Tint true W8) ch)].
Notation hex_body := (SSeq (SDecl "ch" (Some (EDeref (EPost Add (EVar "buf")))))
              (SIf (EAnd (EBin Ge (EVar "ch") (EInt 48)) (EBin Le (EVar "ch") (EInt 57)))
                (SSeq (SExpr (EAssignOp Shl (EVar "v") (EInt 4)))
                  (SExpr (EAssignOp Add (EVar "v") (EBin Sub (EVar "ch") (EInt 48)))))
                (SIf (EAnd (EBin Ge (EVar "ch") (EInt 97)) (EBin Le (EVar "ch") (EInt 102)))
                  (SSeq (SExpr (EAssignOp Shl (EVar "v") (EInt 4)))
                    (SExpr (EAssignOp Add (EVar "v") (EBin Add (EBin Sub (EVar "ch") (EInt 97)) (EInt 10)))))
                  (SIf (EAnd (EBin Ge (EVar "ch") (EInt 65)) (EBin Le (EVar "ch") (EInt 70)))
                    (SSeq (SExpr (EAssignOp Shl (EVar "v") (EInt 4)))
                      (SExpr (EAssignOp Add (EVar "v") (EBin Add (EBin Sub (EVar "ch") (EInt 65)) (EInt 10)))))
                    SBreak)))).
Definition hex_digit (c : Z) : option Z := if (48 <=? c) && (c <=? 57) then Some (c - 48) else if (97 <=? c) && (c <=? 102) then Some (c - 97 + 10) else if (65 <=? c) && (c <=? 70) then Some (c - 65 + 10) else None.
Ltac leb_lia := exfalso; repeat match goal with H : (_ <=? _) = true |- _ => apply Z.leb_le in H | H : (_ <=? _) = false |- _ => apply Z.leb_gt in H end; lia.
Ltac hexs := csw; change ((0 <=? 4) && (4 <? bits p (Tint false W32))) with true; cbn match; match goal with H : (_ <? 0) = false |- _ => rewrite H end; change (2 ^ 4) with 16; csw; rewrite ?Z.mod_mod by lia; rewrite ?Z.add_mod_idemp_r by lia; reflexivity.
Lemma hex_step d s M m q len v ch x cv : mrep M m -> heap M !! (base + blk q)%nat = Some (VI <$> x) -> ld x (off q) = Ok cv -> 0 <= off q < Z.of_nat (length x) -> 0 <= off q + 1 <= Z.of_nat (length x) -> 0 <= cv < 256 -> 0 <= v < 4294967296 ->
  exec p bvec_prog (call d) (user_pred pr) fuel hex_body (env_hex s q len v ch, M) =
    Ok (match hex_digit (wrap_signed 256 cv) with
        | Some n => (Next, (env_hex s (Ptr (blk q) (off q + 1)) len (((v * 16) mod 4294967296 + n) mod 4294967296) (VI (wrap_signed 256 cv)), M))
        | None => (Broke, (env_hex s (Ptr (blk q) (off q + 1)) len v (VI (wrap_signed 256 cv)), M)) end).
Proof.
  intros Hm H H0 H1 Hq1 H2 Hv. pose proof (wrap_signed_range 256 cv eq_refl eq_refl) as Hwr. change (256 / 2) with 128 in Hwr. set (c := wrap_signed 256 cv) in *. assert (Hcc : conv p (Tint true W8) (VI cv) = Ok (VI c)) by done. clearbody c. ints.
  assert (Hv0 : (v <? 0) = false) by (apply Z.ltb_ge; lia).
  assert (Hci : int_min <= c <= int_max) by lia. assert (H1i : int_min <= c - 48 <= int_max) by lia. assert (H2i : int_min <= c - 97 <= int_max) by lia. assert (H3i : int_min <= c - 65 <= int_max) by lia.
  assert (H4i : int_min <= c - 97 + 10 <= int_max) by lia. assert (H5i : int_min <= c - 65 + 10 <= int_max) by lia. unfold env_hex, hex_digit. cbn [blk off].
  destruct (48 <=? c) eqn:E1; [destruct (c <=? 57) eqn:E2|]; cbn [andb]; [hexs| |].
  all: destruct (97 <=? c) eqn:E3; [destruct (c <=? 102) eqn:E4|]; cbn [andb]; try leb_lia.
  all: match goal with H : (_ <=? 102) = true |- _ => hexs | _ => idtac end.
  all: destruct (65 <=? c) eqn:E5; [destruct (c <=? 70) eqn:E6|]; cbn [andb]; try leb_lia.
  all: match goal with H : (_ <=? 70) = true |- _ => hexs | _ => idtac end.
  all: csw; reflexivity.
Qed.
Lemma hex_loop_src d s : forall k n M m q len v ch r, (k < n)%nat -> mrep M m -> int_min <= len <= int_max -> 0 <= v < 4294967296 -> hex_loop k true m q len v = Ok r ->
  exists q' len' ch', lp d n (EBin Gt (EPost Sub (EVar "len")) (EInt 0)) SSkip hex_body (env_hex s q len v ch, M) =
    Ok (Next, (env_hex s q' len' r ch', M)) /\ 0 <= r < 4294967296.
Proof.
  induction k as [|k IH]; intros n M m q len v ch r Hn Hm Hl Hv Hr; (destruct n as [|n]; [lia|]); cbn [hex_loop] in Hr;
    (destruct (isub len 1) as [l'| |] eqn:El; try discriminate Hr); cbn [bind] in Hr; apply isub_inv in El as [-> Hl']; destruct (0 <? len) eqn:E; try discriminate Hr.
  1, 3: injection Hr as <-; exists q, (len - 1), ch; split; [|done]; rewrite loop_S; unfold env_hex; csw; reflexivity.
  mstepn Hm Hr cv. destruct (padd m q 1) as [q1| |] eqn:Eq1; try discriminate Hr. cbn [bind] in Hr. apply (padd_inv _ _ _ _ _ _ Hm) in Eq1 as (c2 & Hh2 & -> & Hq1). uniq.
  pose proof (hex_step d s M m q (len - 1) v ch x cv Hm H H0 H1 Hq1 H2 Hv) as Hstep.
  assert (Htest : CLang.test p bvec_prog (call d) (user_pred pr) (EBin Gt (EPost Sub (EVar "len")) (EInt 0)) (env_hex s q len v ch, M) = Ok (true, (env_hex s q (len - 1) v ch, M))) by (unfold env_hex; csw; rewrite ?E; reflexivity).
  rewrite loop_S, Htest. cbn [bind]. rewrite Hstep. clear Hstep Htest. revert Hr. unfold hex_digit.
  destruct (_ && _); [|destruct (_ && _); [|destruct (_ && _)]]; cbn [bind]; intros Hr.
  1-3: destruct (IH n M m _ _ _ (VI (wrap_signed 256 cv)) r ltac:(lia) Hm Hl' (Z.mod_pos_bound _ 4294967296 eq_refl) Hr) as (q' & len' & ch' & Ho & Hr'); exists q', len', ch'; split; [|done]; rewrite <- Ho; reflexivity.
  injection Hr as <-. eexists _, _, _. split; [reflexivity|done].
Qed.
Lemma src_parse_hex d M m s b r : mrep M m -> isb M s b -> fits b -> mu_bbuf_parse_hex true m b = Ok r -> call (S (S d)) "mu_bbuf_parse_hex" [VP s 0] M = Ok (VI r, Tint false W32, M).
Proof.
  intros Hm Hs [Hc Hf] Hr. unfold mu_bbuf_parse_hex, mu_bbuf_capacity, mu_bbuf_bytes_ro in Hr. ints. pose proof (to_int_r (capacity b)) as Hl. pose proof (to_int_le (capacity b) ltac:(lia)) as Hle.
  destruct (hex_loop_src (S d) s (Z.to_nat (to_int (capacity b))) fuel M m (bytes b) (to_int (capacity b)) 0 VU r ltac:(lia) Hm Hl ltac:(lia) Hr) as (q' & len' & ch' & Ho & Hr'). unfold env_hex in Ho.
  erewrite call_S by reflexivity. csw. rewrite exec_SLoop, Ho. csw. reflexivity.
Qed.
End bbuf.
