(** * mu_bbuf, continued: searches *)
From Verif Require Import BbufModel.
From Verif Require Import CSym SrcBvec BbufSrc BbufSrc2.
Open Scope string_scope. Open Scope Z_scope.
Notation length := List.length.
Section bbuf.
Context (p : plat) (fuel : nat) (base : nat) (pr : val -> val -> Z -> bool).
Notation call d := (CLang.call p bvec_prog fuel (libc p) (user_pred pr) d).
Notation pv := (ptrval base).
Notation mrep := (mrep base).
Notation isb := (isb base).
Notation fits := (fits p fuel).
Notation T := (Tptr (Tstruct "mu_bbuf_t")).
Notation U8 := (Tint false W8).
Implicit Types (M : mem) (m : memory).
Notation lp d n c st bd := (loop n (CLang.test p bvec_prog (call d) (user_pred pr) c) (CLang.exec p bvec_prog (call d) (user_pred pr) fuel bd) (CLang.exec p bvec_prog (call d) (user_pred pr) fuel st)).
Lemma call_ext d x vs M : find_fun x (funs bvec_prog) = None -> call d x vs M = libc p x vs M.
Proof. intros H. destruct d; unfold CLang.call; rewrite H; done. Qed.

(** *** strlen *)
Lemma strlen_loop_cells m q (d : list Z) : m !! blk q = Some d -> forall k i n, 0 <= off q + i -> strlen_loop k m q i = Ok n ->
  cstrlen (drop (Z.to_nat (off q + i)) (VI <$> d)) = Ok (n - i) /\ i <= n /\ 0 <= off q + i < Z.of_nat (length d).
Proof.
  intros Hd. induction k as [|k IH]; intros i n Hi; cbn [strlen_loop]; unfold rd; rewrite Hd; unfold ld; destruct (Z.ltb_spec (off q + i) 0); try lia;
    (destruct (d !! Z.to_nat (off q + i)) as [c|] eqn:El; cbn [bind]; [|done]); pose proof (lookup_lt_Some _ _ _ El) as Hlt.
  all: assert (Hdr : drop (Z.to_nat (off q + i)) (VI <$> d) = VI c :: drop (Z.to_nat (off q + (i + 1))) (VI <$> d))
    by (replace (Z.to_nat (off q + (i + 1))) with (S (Z.to_nat (off q + i))) by lia; apply drop_S; rewrite list_lookup_fmap, El; done).
  all: rewrite Hdr; destruct (Z.eqb_spec c 0) as [->|Hc]; [intros [= <-]; cbn; split; [f_equal; lia|lia]|]. { done. }
  intros H1. destruct (IH (i + 1) n ltac:(lia) H1) as (H2 & H3 & _). split; [|lia].
  transitivity (let* n := cstrlen (drop (Z.to_nat (off q + (i + 1))) (VI <$> d)) in Ok (n + 1)); [destruct c; done|]. rewrite H2. cbn [bind]. f_equal. lia.
Qed.
Lemma src_strlen d M m q n : mrep M m -> strlen m q = Ok n -> call d "strlen" [VP (base + blk q) (off q)] M = Ok (VI n, Tsize, M).
Proof.
  intros Hm H. rewrite call_ext by reflexivity. unfold strlen in H. destruct (m !! blk q) as [c|] eqn:E; [|done]. destruct (Hm _ _ E) as [Hh _].
  assert (Ho : 0 <= off q + 0). { destruct c as [|x c]; cbn [strlen_loop length] in H; unfold rd in H; rewrite E in H; unfold ld in H; destruct (Z.ltb_spec (off q + 0) 0); try done. }
  destruct (strlen_loop_cells m q c E (length c) 0 n Ho H) as (H1 & _ & H2). cbn [libc String.eqb Ascii.eqb Bool.eqb]. rewrite Hh. cbn [ofopt bind].
  rewrite fmap_length. rewrite Z.add_0_r in *. destruct (Z.leb_spec 0 (off q)); [|lia]. destruct (Z.leb_spec (off q) (Z.of_nat (length c))); [|lia]. cbn [andb]. rewrite H1. cbn [bind].
  do 3 f_equal. f_equal. lia.
Qed.
Ltac call_hook ::= first [erewrite src_capacity by eassumption | erewrite src_bytes_ro by eassumption | erewrite src_bytes_rw by eassumption | erewrite src_is_decimal by eassumption
  | erewrite src_strlen by eassumption | erewrite src_compare_aux by eassumption | erewrite src_prefix_aux by eassumption | erewrite src_suffix_aux by eassumption].

(** *** comparison, prefix, suffix: the public functions *)
Lemma compare_loop_range m b1 b2 len x : forall k i, compare_loop k m b1 b2 i len = Ok (Some x) -> int_min <= x <= int_max.
Proof.
  induction k as [|k IH]; intros i; cbn [compare_loop]; (destruct (i <? len); [|done]); [done|].
  destruct (rd m b1 i); [|done..]. destruct (rd m b2 i); [|done..]. cbn [bind]. destruct (isub _ _) eqn:E; [|done..]. cbn [bind]. apply isub_inv in E as [-> ?].
  destruct (negb _); [intros [= <-]; done|]. destruct (iadd i 1); [|done..]. apply IH.
Qed.
Lemma src_compare d M m s1 s2 b1 b2 r : mrep M m -> isb M s1 b1 -> isb M s2 b2 -> fits b1 -> fits b2 -> mu_bbuf_compare m b1 b2 = Ok r ->
  call (S (S (S d))) "mu_bbuf_compare" [VP s1 0; VP s2 0] M = Ok (VI r, int, M) /\ int_min <= r <= int_max.
Proof.
  intros Hm H1 H2 F1 F2 H. assert (Hr : int_min <= r <= int_max).
  { revert H. unfold mu_bbuf_compare, str_compare_aux. destruct (compare_loop _ _ _ _ _ _) as [[x|]| |] eqn:E; cbn [bind]; try done.
    - intros [= ->]. eapply compare_loop_range; exact E.
    - intros H. apply isub_inv in H as [-> H]. exact H. }
  split; [|done]. destruct F2 as [Hc2 Hf2]. erewrite call_S by reflexivity. cs. reflexivity.
Qed.
Lemma src_compare_cstr d M m s1 b1 q r : mrep M m -> isb M s1 b1 -> fits b1 -> mu_bbuf_compare_cstr m b1 q = Ok r ->
  call (S (S (S d))) "mu_bbuf_compare_cstr" [VP s1 0; VP (base + blk q) (off q)] M = Ok (VI r, int, M) /\ int_min <= r <= int_max.
Proof.
  intros Hm H1 F1 H. unfold mu_bbuf_compare_cstr in H. destruct (strlen m q) as [n| |] eqn:En; try discriminate H. cbn [bind] in H. assert (Hr : int_min <= r <= int_max).
  { revert H. unfold str_compare_aux. destruct (compare_loop _ _ _ _ _ _) as [[x|]| |] eqn:E; cbn [bind]; try done.
    - intros [= ->]. eapply compare_loop_range; exact E.
    - intros H. apply isub_inv in H as [-> H]. exact H. }
  split; [|done]. erewrite call_S by reflexivity. cs. reflexivity.
Qed.
Lemma src_matches d M m s1 s2 b1 b2 r : mrep M m -> isb M s1 b1 -> isb M s2 b2 -> fits b1 -> fits b2 -> mu_bbuf_matches m b1 b2 = Ok r ->
  call (S (S (S d))) "mu_bbuf_matches" [VP s1 0; VP s2 0] M = Ok (truth r, Tbool, M).
Proof.
  intros Hm H1 H2 F1 F2 H. unfold mu_bbuf_matches in H. destruct (str_compare_aux m b1 (mu_bbuf_bytes_ro b2) (to_int (mu_bbuf_capacity b2))) as [x| |] eqn:E; try discriminate H.
  injection H as <-. destruct (src_compare d M m s1 s2 b1 b2 x Hm H1 H2 F1 F2 E) as [_ Hx]. destruct F2 as [Hc2 Hf2]. unfold mu_bbuf_bytes_ro, mu_bbuf_capacity in E. erewrite call_S by reflexivity. cs. reflexivity.
Qed.
Lemma src_matches_cstr d M m s1 b1 q r : mrep M m -> isb M s1 b1 -> fits b1 -> mu_bbuf_matches_cstr m b1 q = Ok r ->
  call (S (S (S d))) "mu_bbuf_matches_cstr" [VP s1 0; VP (base + blk q) (off q)] M = Ok (truth r, Tbool, M).
Proof.
  intros Hm H1 F1 H. unfold mu_bbuf_matches_cstr in H. destruct (strlen m q) as [n| |] eqn:En; try discriminate H. cbn [bind] in H.
  destruct (str_compare_aux m b1 q (to_int n)) as [x| |] eqn:E; try discriminate H. injection H as <-.
  destruct (src_compare_cstr d M m s1 b1 q x Hm H1 F1) as [_ Hx]; [unfold mu_bbuf_compare_cstr; rewrite En; exact E|]. erewrite call_S by reflexivity. cs. reflexivity.
Qed.
Lemma src_has_prefix d M m s1 s2 b1 b2 r : mrep M m -> isb M s1 b1 -> isb M s2 b2 -> fits b1 -> fits b2 -> mu_bbuf_has_prefix m b1 b2 = Ok r ->
  call (S (S (S d))) "mu_bbuf_has_prefix" [VP s1 0; VP s2 0] M = Ok (truth r, Tbool, M).
Proof. intros Hm H1 H2 F1 [Hc2 Hf2] H. unfold mu_bbuf_has_prefix, mu_bbuf_bytes_ro, mu_bbuf_capacity in H. erewrite call_S by reflexivity. cs. reflexivity. Qed.
Lemma src_has_suffix d M m s1 s2 b1 b2 r : mrep M m -> isb M s1 b1 -> isb M s2 b2 -> fits b1 -> fits b2 -> mu_bbuf_has_suffix m b1 b2 = Ok r ->
  call (S (S (S d))) "mu_bbuf_has_suffix" [VP s1 0; VP s2 0] M = Ok (truth r, Tbool, M).
Proof. intros Hm H1 H2 F1 [Hc2 Hf2] H. unfold mu_bbuf_has_suffix, mu_bbuf_bytes_ro, mu_bbuf_capacity in H. erewrite call_S by reflexivity. cs. reflexivity. Qed.
Lemma src_has_prefix_cstr d M m s1 b1 q r : mrep M m -> isb M s1 b1 -> fits b1 -> mu_bbuf_has_prefix_cstr m b1 q = Ok r ->
  call (S (S (S d))) "mu_bbuf_has_prefix_cstr" [VP s1 0; VP (base + blk q) (off q)] M = Ok (truth r, Tbool, M).
Proof. intros Hm H1 F1 H. unfold mu_bbuf_has_prefix_cstr in H. destruct (strlen m q) as [n| |] eqn:En; try discriminate H. cbn [bind] in H. erewrite call_S by reflexivity. cs. reflexivity. Qed.
Lemma src_has_suffix_cstr d M m s1 b1 q r : mrep M m -> isb M s1 b1 -> fits b1 -> mu_bbuf_has_suffix_cstr m b1 q = Ok r ->
  call (S (S (S d))) "mu_bbuf_has_suffix_cstr" [VP s1 0; VP (base + blk q) (off q)] M = Ok (truth r, Tbool, M).
Proof. intros Hm H1 F1 H. unfold mu_bbuf_has_suffix_cstr in H. destruct (strlen m q) as [n| |] eqn:En; try discriminate H. cbn [bind] in H. erewrite call_S by reflexivity. cs. reflexivity. Qed.

(** *** find_byte, rfind_byte *)
(** how a search loop ends: it returned the result, or it ended and the result is MU_BBUF_NOT_FOUND *)
Definition found (o : outcome) (r : Z) : Prop := (o = Next /\ r = MU_BBUF_NOT_FOUND) \/ o = Returned (VI r) int.
Lemma find_byte_loop_src d M m s b byte : mrep M m -> isb M s b -> 0 <= capacity b < size_mod p -> 0 <= byte < 256 -> forall k n i r, (k < n)%nat -> 0 <= i <= int_max ->
  find_byte_loop p k m b byte i = Ok r ->
  exists o i', lp d n (EBin Lt (EVar "i") (EArrow (EVar "bbuf") "capacity")) (SExpr (EPost Add (EVar "i")))
        (SIf (EBin Eq (EIndex (EArrow (EVar "bbuf") "bytes_ro") (EVar "i")) (EVar "byte")) (SReturn (Some (EVar "i"))) SSkip)
      ([("bbuf", BReg T (VP s 0)); ("byte", BReg U8 (VI byte)); ("i", BReg int (VI i))], M) =
    Ok (o, ([("bbuf", BReg T (VP s 0)); ("byte", BReg U8 (VI byte)); ("i", BReg int (VI i'))], M)) /\ found o r /\ int_min <= r <= int_max.
Proof.
  intros Hm [rest Hs] Hc Hb. ints. pose proof (size_mod_big p). unfold ptrval in Hs. induction k as [|k IH]; intros n i r Hn Hi Hr; (destruct n as [|n]; [lia|]); cbn [find_byte_loop] in Hr; rewrite (to_size_id p i) in Hr by lia;
    destruct (i <? capacity b) eqn:Ei; try discriminate Hr.
  1, 3: injection Hr as <-; exists Next, i; split; [|split; [by left|unfold MU_BBUF_NOT_FOUND; lia]]; rewrite loop_S; cs; reflexivity.
  mstepn Hm Hr x. destruct (x =? byte) eqn:Ed.
  { injection Hr as <-. exists (Returned (VI i) int), i. split; [|split; [by right|lia]]. rewrite loop_S. cs. reflexivity. }
  mstep Hm Hr. destruct (IH n (i + 1) r ltac:(lia) ltac:(lia) Hr) as (o & i' & Ho & Hx). exists o, i'. split; [|exact Hx]. rewrite <- Ho.
  remember (loop n) as L. rewrite loop_S. subst L. cs. reflexivity.
Qed.
Lemma src_find_byte d M m s b byte r : mrep M m -> isb M s b -> fits b -> 0 <= byte < 256 -> mu_bbuf_find_byte p m b byte = Ok r ->
  call (S d) "mu_bbuf_find_byte" [VP s 0; VI byte] M = Ok (VI r, int, M).
Proof.
  intros Hm Hs [Hc Hf] Hb Hr. ints. destruct (find_byte_loop_src d M m s b byte Hm Hs Hc Hb (Z.to_nat (capacity b)) fuel 0 r ltac:(lia) ltac:(lia) Hr) as (o & i' & Ho & Hx & Hr').
  erewrite call_S by reflexivity. cs. rewrite exec_SLoop. rewrite Ho. destruct Hx as [ [-> ->]| ->]; cs; reflexivity.
Qed.
Lemma rfind_byte_loop_src d M m s b byte : mrep M m -> isb M s b -> 0 <= capacity b < size_mod p -> 0 <= byte < 256 -> forall k n i r, (k < n)%nat -> int_min <= i <= int_max ->
  rfind_byte_loop k m b byte i = Ok r ->
  exists o i', lp d n (EBin Ge (EVar "i") (EInt 0)) (SExpr (EPre Sub (EVar "i")))
        (SIf (EBin Eq (EIndex (EArrow (EVar "bbuf") "bytes_ro") (EVar "i")) (EVar "byte")) (SReturn (Some (EVar "i"))) SSkip)
      ([("bbuf", BReg T (VP s 0)); ("byte", BReg U8 (VI byte)); ("i", BReg int (VI i))], M) =
    Ok (o, ([("bbuf", BReg T (VP s 0)); ("byte", BReg U8 (VI byte)); ("i", BReg int (VI i'))], M)) /\ found o r /\ int_min <= r <= int_max.
Proof.
  intros Hm [rest Hs] Hc Hb. ints. unfold ptrval in Hs. induction k as [|k IH]; intros n i r Hn Hi Hr; (destruct n as [|n]; [lia|]); cbn [rfind_byte_loop] in Hr;
    destruct (0 <=? i) eqn:Ei; try discriminate Hr.
  1, 3: injection Hr as <-; exists Next, i; split; [|split; [by left|unfold MU_BBUF_NOT_FOUND; lia]]; rewrite loop_S; cs; reflexivity.
  mstepn Hm Hr x. destruct (x =? byte) eqn:Ed.
  { injection Hr as <-. exists (Returned (VI i) int), i. split; [|split; [by right|lia]]. rewrite loop_S. cs. reflexivity. }
  mstep Hm Hr. destruct (IH n (i - 1) r ltac:(lia) ltac:(lia) Hr) as (o & i' & Ho & Hx). exists o, i'. split; [|exact Hx]. rewrite <- Ho.
  remember (loop n) as L. rewrite loop_S. subst L. cs. reflexivity.
Qed.
Lemma cap_pred c : 0 <= c < size_mod p -> to_int (to_size p (c - 1)) <= c.
Proof.
  intros H. destruct (Z.eq_dec c 0) as [->|]; [destruct p; vm_compute; discriminate|]. rewrite to_size_id by lia. pose proof (to_int_le (c - 1) ltac:(lia)). lia.
Qed.
Lemma src_rfind_byte d M m s b byte r : mrep M m -> isb M s b -> fits b -> 0 <= byte < 256 -> mu_bbuf_rfind_byte p m b byte = Ok r ->
  call (S d) "mu_bbuf_rfind_byte" [VP s 0; VI byte] M = Ok (VI r, int, M).
Proof.
  intros Hm Hs [Hc Hf] Hb Hr. ints. pose proof (cap_pred _ Hc). pose proof (to_int_r (to_size p (capacity b - 1))) as Hi.
  destruct (rfind_byte_loop_src d M m s b byte Hm Hs Hc Hb (S (Z.to_nat (to_int (to_size p (capacity b - 1))))) fuel _ r ltac:(lia) Hi Hr) as (o & i' & Ho & Hx & Hr').
  destruct Hs as [rest Hs]. unfold ptrval in Hs.
  erewrite call_S by reflexivity. cs. rewrite exec_SLoop. rewrite Ho. destruct Hx as [ [-> ->]| ->]; cs; reflexivity.
Qed.

(** *** find_aux, rfind_aux *)
Definition env_find (s : nat) (q : ptr) (len : Z) (skip : bool) (hay : ptr) (hlen : Z) (j i h2 : val) : env :=
  [("bbuf", BReg T (VP s 0)); ("substr", BReg (Tptr U8) (VP (base + blk q) (off q))); ("substr_len", BReg int (VI len)); ("skip_substr", BReg Tbool (truth skip));
   ("hay_bytes", BReg (Tptr U8) (VP (base + blk hay) (off hay))); ("hay_len", BReg int (VI hlen)); ("j", BReg int j); ("i", BReg int i); ("h2", BReg (Tptr U8) h2)].
Lemma match_loop_src d M m s q len skip hay hlen i (h2 : ptr) : mrep M m -> int_min <= len <= int_max -> forall k n j r, (k < n)%nat -> int_min <= j <= int_max ->
  match_loop k m h2 q j len = Ok r ->
  lp d n (EBin Lt (EVar "j") (EVar "substr_len")) (SExpr (EPost Add (EVar "j"))) (SIf (EBin Ne (EIndex (EVar "h2") (EVar "j")) (EIndex (EVar "substr") (EVar "j"))) SBreak SSkip)
      (env_find s q len skip hay hlen (VI j) i (VP (base + blk h2) (off h2)), M) =
    Ok (Next, (env_find s q len skip hay hlen (VI r) i (VP (base + blk h2) (off h2)), M)) /\ int_min <= r <= int_max.
Proof.
  intros Hm Hlen. ints. induction k as [|k IH]; intros n j r Hn Hj Hr; (destruct n as [|n]; [lia|]); cbn [match_loop] in Hr; destruct (j <? len) eqn:Ei; try discriminate Hr.
  1, 3: injection Hr as <-; split; [|done]; rewrite loop_S; unfold env_find; cs; reflexivity.
  mstepn Hm Hr xa. mstepn Hm Hr ya. destruct (xa =? ya) eqn:Ed; cbn [negb] in Hr.
  2: { injection Hr as <-. split; [|lia]. rewrite loop_S. unfold env_find. cs. reflexivity. }
  mstep Hm Hr. destruct (IH n (j + 1) r ltac:(lia) ltac:(lia) Hr) as (Ho & Hx). split; [|done]. rewrite <- Ho.
  remember (loop n) as L. rewrite loop_S. subst L. unfold env_find. cs. reflexivity.
Qed.
Definition find_body : stmt := (SSeq (SDecl "h2" (Some (EAddr (EIndex (EVar "hay_bytes") (EVar "i")))))
                  (SIf (EBin Eq (EDeref (EVar "h2")) (EDeref (EVar "substr")))
                    (SSeq (SExpr (EAssign (EVar "j") (EInt 1)))
                      (SSeq (SLoop (EBin Lt (EVar "j") (EVar "substr_len")) (SExpr (EPost Add (EVar "j")))
                          (SIf (EBin Ne (EIndex (EVar "h2") (EVar "j")) (EIndex (EVar "substr") (EVar "j")))
                          SBreak
                          SSkip))
                        (SIf (EBin Eq (EVar "j") (EVar "substr_len"))
                          (SReturn (Some (ECond (EVar "skip_substr") (EBin Add (EVar "i") (EVar "substr_len")) (EVar "i"))))
                          SSkip)))
                    SSkip)).
Lemma find_body_src d M m s q len (skip : bool) hay hlen i j h2 (ok : bool) r : mrep M m -> int_min <= len <= int_max -> (Z.to_nat len < fuel)%nat -> int_min <= i <= int_max ->
  match_at m hay q len i = Ok ok -> (if skip then iadd i len else Ok i) = Ok r \/ ok = false ->
  exists j' h2', exec p bvec_prog (call d) (user_pred pr) fuel find_body (env_find s q len skip hay hlen j (VI i) h2, M) =
    Ok (if ok then Returned (VI r) int else Next, (env_find s q len skip hay hlen j' (VI i) h2', M)).
Proof.
  intros Hm Hlen Hf Hi H Hr. ints. unfold match_at in H. mstep Hm H. mstepn Hm H xa. mstepn Hm H ya. unfold find_body, env_find. destruct (xa =? ya) eqn:Ed.
  2: { injection H as <-. do 2 eexists. cs. reflexivity. }
  destruct (match_loop _ _ _ _ _ _) as [jr| |] eqn:El; try discriminate H. cbn [bind] in H. injection H as <-.
  destruct (match_loop_src d M m s q len skip hay hlen (VI i) _ Hm Hlen _ fuel 1 jr Hf ltac:(lia) El) as (Ho & Hx). unfold env_find in Ho. cbn [blk off] in Ho.
  do 2 eexists. cs. rewrite exec_SLoop. rewrite Ho. destruct (jr =? len) eqn:Ej; [|cs; reflexivity]. destruct Hr as [Hr|]; [|done]. destruct skip.
  - apply iadd_inv in Hr as [-> ?]. cs. change (is_true (truth true)) with (Ok true). cs. reflexivity.
  - injection Hr as <-. cs. reflexivity.
Qed.
Lemma find_loop_src d M m s q len skip hay hlen : mrep M m -> int_min <= len <= int_max -> int_min <= hlen <= int_max -> (Z.to_nat len < fuel)%nat ->
  forall k n i j h2 r, (k < n)%nat -> int_min <= i <= int_max -> find_loop k m hay q hlen len i skip = Ok r ->
  exists o j' i' h2', lp d n (EBin Le (EVar "i") (EBin Sub (EVar "hay_len") (EVar "substr_len"))) (SExpr (EPost Add (EVar "i"))) find_body
      (env_find s q len skip hay hlen j (VI i) h2, M) = Ok (o, (env_find s q len skip hay hlen j' i' h2', M)) /\ found o r /\ int_min <= r <= int_max.
Proof.
  intros Hm Hlen Hhlen Hf. ints. induction k as [|k IH]; intros n i j h2 r Hn Hi Hr; (destruct n as [|n]; [lia|]); cbn [find_loop] in Hr; mstep Hm Hr; destruct (i <=? hlen - len) eqn:Ei; try discriminate Hr.
  1, 3: injection Hr as <-; exists Next; do 3 eexists; split; [|split; [by left|unfold MU_BBUF_NOT_FOUND; lia]]; rewrite loop_S; unfold env_find; cs; reflexivity.
  destruct (match_at m hay q len i) as [ok| |] eqn:Eo; try discriminate Hr. cbn [bind] in Hr. destruct ok.
  - destruct (find_body_src d M m s q len skip hay hlen i j h2 true r Hm Hlen Hf Hi Eo ltac:(by left)) as (j' & h2' & Hb). unfold env_find in *.
    exists (Returned (VI r) int); do 3 eexists. split; [|split; [by right|]]. 2: { destruct skip; [apply iadd_inv in Hr as [-> ?]; done|injection Hr as <-; done]. }
    rewrite loop_S. cs. reflexivity.
  - mstep Hm Hr. destruct (find_body_src d M m s q len skip hay hlen i j h2 false 0 Hm Hlen Hf Hi Eo ltac:(by right)) as (j' & h2' & Hb).
    destruct (IH n (i + 1) j' h2' r ltac:(lia) ltac:(lia) Hr) as (o & j2 & i2 & h3 & Ho & Hx). exists o, j2, i2, h3. split; [|exact Hx]. rewrite <- Ho. unfold env_find in *.
    remember (loop n) as L. rewrite loop_S. subst L. cs. reflexivity.
Qed.
Lemma rfind_loop_src d M m s q len skip hay hlen : mrep M m -> int_min <= len <= int_max -> int_min <= hlen <= int_max -> (Z.to_nat len < fuel)%nat ->
  forall k n i j h2 r, (k < n)%nat -> int_min <= i <= int_max -> rfind_loop k m hay q len i skip = Ok r ->
  exists o j' i' h2', lp d n (EBin Ge (EVar "i") (EInt 0)) (SExpr (EPre Sub (EVar "i"))) find_body
      (env_find s q len skip hay hlen j (VI i) h2, M) = Ok (o, (env_find s q len skip hay hlen j' i' h2', M)) /\ found o r /\ int_min <= r <= int_max.
Proof.
  intros Hm Hlen Hhlen Hf. ints. induction k as [|k IH]; intros n i j h2 r Hn Hi Hr; (destruct n as [|n]; [lia|]); cbn [rfind_loop] in Hr; destruct (0 <=? i) eqn:Ei; try discriminate Hr.
  1, 3: injection Hr as <-; exists Next; do 3 eexists; split; [|split; [by left|unfold MU_BBUF_NOT_FOUND; lia]]; rewrite loop_S; unfold env_find; cs; reflexivity.
  destruct (match_at m hay q len i) as [ok| |] eqn:Eo; try discriminate Hr. cbn [bind] in Hr. destruct ok.
  - destruct (find_body_src d M m s q len skip hay hlen i j h2 true r Hm Hlen Hf Hi Eo ltac:(by left)) as (j' & h2' & Hb). unfold env_find in *.
    exists (Returned (VI r) int); do 3 eexists. split; [|split; [by right|]]. 2: { destruct skip; [apply iadd_inv in Hr as [-> ?]; done|injection Hr as <-; done]. }
    rewrite loop_S. cs. reflexivity.
  - mstep Hm Hr. destruct (find_body_src d M m s q len skip hay hlen i j h2 false 0 Hm Hlen Hf Hi Eo ltac:(by right)) as (j' & h2' & Hb).
    destruct (IH n (i - 1) j' h2' r ltac:(lia) ltac:(lia) Hr) as (o & j2 & i2 & h3 & Ho & Hx). exists o, j2, i2, h3. split; [|exact Hx]. rewrite <- Ho. unfold env_find in *.
    remember (loop n) as L. rewrite loop_S. subst L. cs. reflexivity.
Qed.
Lemma src_find_aux d M m s b q z skip r : mrep M m -> isb M s b -> fits b -> (Z.to_nat (to_int z) < fuel)%nat -> mu_bbuf_find_aux m b q (to_int z) skip = Ok r ->
  call (S (S d)) "mu_bbuf_find_aux" [VP s 0; VP (base + blk q) (off q); VI z; truth skip] M = Ok (VI r, int, M).
Proof.
  intros Hm Hs [Hc Hf] Hz Hr. ints. unfold mu_bbuf_find_aux, mu_bbuf_capacity, mu_bbuf_bytes_ro in Hr. pose proof (to_int_r z) as Hl2.
  pose proof (to_int_r (capacity b)) as Hl1. pose proof (to_int_le (capacity b) ltac:(lia)) as Hl1'.
  assert (Hzz : conv p int (VI z) = Ok (VI (to_int z))) by done.
  erewrite call_S by reflexivity. destruct (to_int z =? 0) eqn:E0. { injection Hr as <-. cs. reflexivity. }
  destruct (find_loop_src (S d) M m s q (to_int z) skip (bytes b) (to_int (capacity b)) Hm Hl2 Hl1 Hz (S (Z.to_nat (to_int (capacity b)))) fuel 0 VU VU r ltac:(lia) ltac:(lia) Hr) as (o & j' & i' & h2' & Ho & Hx & Hr').
  unfold env_find, find_body in Ho. cs. rewrite exec_SLoop. rewrite Ho. destruct Hx as [ [-> ->]| ->]; cs; reflexivity.
Qed.
Lemma src_rfind_aux d M m s b q z skip r : mrep M m -> isb M s b -> fits b -> (Z.to_nat (to_int z) < fuel)%nat -> mu_bbuf_rfind_aux m b q (to_int z) skip = Ok r ->
  call (S (S d)) "mu_bbuf_rfind_aux" [VP s 0; VP (base + blk q) (off q); VI z; truth skip] M = Ok (VI r, int, M).
Proof.
  intros Hm Hs [Hc Hf] Hz Hr. ints. unfold mu_bbuf_rfind_aux, mu_bbuf_capacity, mu_bbuf_bytes_ro in Hr. pose proof (to_int_r z) as Hl2.
  pose proof (to_int_r (capacity b)) as Hl1. pose proof (to_int_le (capacity b) ltac:(lia)) as Hl1'.
  assert (Hzz : conv p int (VI z) = Ok (VI (to_int z))) by done.
  erewrite call_S by reflexivity. destruct (to_int z =? 0) eqn:E0. { injection Hr as <-. cs. reflexivity. }
  mstep Hm Hr.
  destruct (rfind_loop_src (S d) M m s q (to_int z) skip (bytes b) (to_int (capacity b)) Hm Hl2 Hl1 Hz (S (Z.to_nat (to_int (capacity b)))) fuel (to_int (capacity b) - to_int z) VU VU r ltac:(lia) ltac:(lia) Hr) as (o & j' & i' & h2' & Ho & Hx & Hr').
  unfold env_find, find_body in Ho. cs. rewrite exec_SLoop. rewrite Ho. destruct Hx as [ [-> ->]| ->]; cs; reflexivity.
Qed.
End bbuf.
