(** * mu_bisync: the translated source does what the model says, function by function *)
From Verif Require Import CSym SrcBisync BisyncModel.
Open Scope string_scope. Open Scope Z_scope.

Lemma loop_S n c b st s : loop (S n) c b st s =
  let* '(t, s) := c s in
  if t then let* '(o, s) := b s in
    match o with
    | Next | Continued => let* '(_, s) := st s in loop n c b st s
    | Broke => Ok (Next, s)
    | Returned v t => Ok (Returned v t, s)
    end
  else Ok (Next, s).
Proof. done. Qed.
Lemma st_len {A} (l l' : list A) i x : st l i x = Ok l' -> length l' = length l.
Proof. unfold st. destruct (_ && _); [|done]. intros [= <-]. apply insert_length. Qed.
Lemma to_int_range z : int_min <= to_int z <= int_max.
Proof. pose proof (wrap_signed_range 4294967296 z ltac:(lia) eq_refl) as H. unfold to_int, int_min, int_max. change (4294967296 / 2) with 2147483648 in H. lia. Qed.

Section bisync.
Context (p : plat) (fuel : nat) (ext : string -> list val -> mem -> res (val * ty * mem))
  (ext_ptr : val -> list val -> mem -> res (val * ty * mem)).
Notation call d := (call p bisync_prog fuel ext ext_ptr d).
(** a byte in memory is the number; the cells written may hold anything before (numbers that are not bytes
    stand for other values) *)
Context (rep : Z -> val) (Hrep : forall x, 0 <= x < 256 -> rep x = VI x).

Definition wcells (eb : nat) (w : buffer) : list val := [VP eb 0; VI (bcap w); VI (bidx w)].
Record buf_at (m : mem) (wb eb : nat) (w : buffer) : Prop := {
  ba_obj : heap m !! wb = Some (wcells eb w);
  ba_buf : heap m !! eb = Some (rep <$> wbuf w);
  ba_ne : wb <> eb;
  ba_cap : int_min <= bcap w <= int_max; ba_idx : 0 <= bidx w <= int_max }.
Definition set_buf (m : mem) (wb eb : nat) (w : buffer) : mem :=
  MkMem (<[wb := wcells eb w]> (<[eb := rep <$> wbuf w]> (heap m))) (next m).
Lemma set_same m wb eb w : buf_at m wb eb w -> set_buf m wb eb w = m.
Proof.
  intros [H1 H2 _ _ _]. unfold set_buf. destruct m as [h n]. cbn in *.
  rewrite (insert_id h eb), (insert_id h wb) by done. done.
Qed.
Lemma set_set m wb eb w w' : wb <> eb -> set_buf (set_buf m wb eb w) wb eb w' = set_buf m wb eb w'.
Proof. intros Hne. unfold set_buf. cbn [heap next]. mem_eq. Qed.
Lemma put_range w byte b w' : 0 <= bidx w <= int_max -> int_min <= bcap w <= int_max ->
  buffer_put w byte = Ok (b, w') -> bcap w' = bcap w /\ 0 <= bidx w' <= int_max.
Proof.
  intros Hi Hc. unfold buffer_put. destruct (bcap w <=? bidx w); [intros [= _ <-]; done|].
  destruct (st _ _ _); cbn; try done. unfold iadd, ichk, chk, in_range. destruct (Z.leb_spec int_min (bidx w + 1)), (Z.leb_spec (bidx w + 1) int_max); cbn; try done.
  intros [= _ <-]. cbn. lia.
Qed.
Lemma set_at m wb eb w w' : buf_at m wb eb w -> bcap w' = bcap w -> 0 <= bidx w' <= int_max -> buf_at (set_buf m wb eb w') wb eb w'.
Proof.
  intros [H1 H2 Hne Hc Hi] Hc' Hi'. split; try done; cbn.
  - by rewrite lookup_insert.
  - rewrite lookup_insert_ne by done. by rewrite lookup_insert.
  - by rewrite Hc'.
Qed.
Lemma st_rep l i b : 0 <= b < 256 -> st (rep <$> l) i (VI b) = let* l := st l i b in Ok (rep <$> l).
Proof. intros H. rewrite <- (Hrep b) by done. apply st_map. Qed.
Ltac strep := lazymatch goal with |- ?l = _ => let h := hd l in lazymatch h with st (rep <$> ?l) ?i (VI ?b) => rewrite (st_rep l i b) by lia end end.
Ltac ldrep := lazymatch goal with |- ?l = _ => let h := hd l in lazymatch h with ld (rep <$> ?l) ?i =>
  lazymatch goal with H : ld (rep <$> l) i = Ok _ |- _ => rewrite H end end end.
Lemma ld_rep l i c : ld l i = Ok c -> 0 <= c < 256 -> ld (rep <$> l) i = Ok (VI c).
Proof. intros H Hc. rewrite ld_map, H. cbn [bind]. by rewrite Hrep. Qed.
Ltac cs := repeat first [strep | ldrep | cstep | hstep].
Lemma src_put d m wb eb w byte : buf_at m wb eb w -> 0 <= byte < 256 ->
  call (S d) "buffer_put" [VP wb 0; VI byte] m =
    let* '(b, w) := buffer_put w byte in Ok (truth b, Tbool, set_buf m wb eb w).
Proof.
  intros H Hb. pose proof H as H'. destruct H as [H1 H2 Hne Hc Hi]. unfold wcells in *. erewrite call_S by reflexivity.
  assert (Hi' : int_min <= bidx w <= int_max) by (unfold int_min in *; lia). cs.
  unfold buffer_put. destruct (bcap w <=? bidx w) eqn:E; cs.
  - cbn [bind]. rewrite set_same by done. done.
  - apply Z.leb_gt in E. unfold iadd. assert (Hi2 : int_min <= bidx w + 1 <= int_max) by (unfold int_min in *; lia). rewrite (ichk_ok (bidx w + 1)) by lia. cs.
    destruct (st (wbuf w) (bidx w) byte) as [s'| |] eqn:Es; [| |by apply st_noNF in Es].
    + pose proof (st_bounds _ _ _ _ Es). cs. unfold set_buf, wcells. cbn. do 2 f_equal. mem_eq.
    + pose proof (st_UB _ _ _ Es). destruct (decide (bidx w = Z.of_nat (length (wbuf w)))).
      * cs. done.
      * rewrite ptr_in_ub by (rewrite fmap_length in *; lia). cs. done.
Qed.

(** ** encode *)
Notation exec d := (exec p bisync_prog (call d) ext_ptr fuel).
Notation test d := (test p bisync_prog (call d) ext_ptr).
Definition env_enc (eb sb wb : nat) (cap len i : Z) (b : val) : env :=
  [("encoded", BReg (Tptr (Tint false W8)) (VP eb 0)); ("encoded_capacity", BReg Tsize (VI cap)); ("src", BReg (Tptr (Tint false W8)) (VP sb 0));
   ("src_len", BReg Tsize (VI len)); ("i", BReg int (VI i)); ("b", BReg (Tint false W8) b); ("writer", BMem (Tstruct "buffer_t") wb)].
Definition test_enc : expr := EBin Lt (EVar "i") (EVar "src_len").
Definition put_stmt (e : expr) : stmt := SIf (ENot (ECall "buffer_put" [EAddr (EVar "writer"); e])) (SReturn (Some (EVar "MU_BISYNC_ERR_OFLOW"))) SSkip.
Definition body_enc : stmt :=
  SSeq (SDecl "b" (Some (EIndex (EVar "src") (EVar "i"))))
    (SSeq (SIf (EOr (EOr (EBin Eq (EVar "b") (EInt 4)) (EBin Eq (EVar "b") (EInt 1))) (EBin Eq (EVar "b") (EInt 16)))
        (put_stmt (EInt 16)) SSkip)
      (put_stmt (EVar "b"))).
Ltac call_hook ::= first [erewrite src_put by (first [eassumption | lia | assumption])].
Definition bytes (l : list Z) : Prop := Forall (fun b => 0 <= b < 256) l.
Lemma ld_byte l len i b : bytes (take (Z.to_nat len) l) -> (i <? len) = true -> ld l i = Ok b -> 0 <= b < 256.
Proof.
  unfold ld. intros H Hi. apply Z.ltb_lt in Hi. destruct (Z.ltb_spec i 0); [done|]. destruct (l !! Z.to_nat i) eqn:E; [|done]. intros [= <-]. unfold bytes in H. rewrite Forall_lookup in H.
  eapply (H (Z.to_nat i)). rewrite lookup_take by lia. done.
Qed.
Definition put_result (r : res (bool * buffer)) (e : env) (m : mem) (wb eb : nat) : res (outcome * (env * mem)) :=
  let* '(ok, w) := r in Ok (if ok : bool then Next else Returned (VI (-1)) int, (e, set_buf m wb eb w)).
Lemma exec_put_lit d eb sb wb cap len i b w m z : buf_at m wb eb w -> 0 <= z < 256 ->
  exec (S d) (put_stmt (EInt z)) (env_enc eb sb wb cap len i b, m) = put_result (buffer_put w z) (env_enc eb sb wb cap len i b) m wb eb.
Proof. intros H Hz. unfold put_stmt, put_result, env_enc. cs. destruct (buffer_put w z) as [[[] w']| |]; cbn [bind]; cs; done. Qed.
Lemma exec_put_b d eb sb wb cap len i w m z : buf_at m wb eb w -> 0 <= z < 256 ->
  exec (S d) (put_stmt (EVar "b")) (env_enc eb sb wb cap len i (VI z), m) = put_result (buffer_put w z) (env_enc eb sb wb cap len i (VI z)) m wb eb.
Proof. intros H Hz. unfold put_stmt, put_result, env_enc. cs. destruct (buffer_put w z) as [[[] w']| |]; cbn [bind]; cs; done. Qed.
Lemma set_other m wb eb sb w l : wb <> sb -> eb <> sb -> heap m !! sb = Some l -> heap (set_buf m wb eb w) !! sb = Some l.
Proof. intros H1 H2 H. cbn. rewrite !lookup_insert_ne by done. done. Qed.
Lemma encode_loop_src d eb sb wb cap len src : wb <> sb -> eb <> sb -> bytes (take (Z.to_nat len) src) -> 0 <= len < size_mod p ->
  forall k n i b w m, (k < n)%nat -> 0 <= i <= int_max -> buf_at m wb eb w -> heap m !! sb = Some (rep <$> src) ->
  encode_loop p k src len i w <> NoFuel ->
  exists i' b', loop n (test (S d) test_enc) (exec (S d) body_enc) (exec (S d) (SExpr (EPost Add (EVar "i")))) (env_enc eb sb wb cap len i b, m) =
    put_result (encode_loop p k src len i w) (env_enc eb sb wb cap len i' b') m wb eb.
Proof.
  intros Hws Hes Hby Hlen. induction k as [|k IH]; intros [|n] i b w m Hk Hi Hw Hs HN; try lia;
    assert (Hi' : int_min <= i <= int_max) by (unfold int_min in *; lia);
    assert (Hrg : 0 <= i < size_mod p) by (pose proof (size_mod_big p); unfold int_max in *; lia);
    assert (Hsz : to_size p i = i) by (apply to_size_id; exact Hrg);
    rewrite loop_S; unfold test_enc, body_enc, env_enc at 1; cbn [encode_loop] in *; rewrite ?Hsz in *.
  - destruct (i <? len) eqn:E; [done|]. exists i, b. cs. cbn [put_result bind]. rewrite set_same by done. done.
  - destruct (i <? len) eqn:E.
    2: { exists i, b. cs. cbn [put_result bind]. rewrite set_same by done. done. }
    pose proof (exec_put_lit d eb sb wb cap len i) as Hlit. pose proof (exec_put_b d eb sb wb cap len i) as Hb.
    unfold body_enc in IH.
    set (R1 := put_stmt (EInt 16)) in *. set (R2 := put_stmt (EVar "b")) in *.
    assert (HR1 : R1 = put_stmt (EInt 16)) by done. clearbody R1 R2.
    destruct (ld src i) as [c| |] eqn:Ec.
    2: { exists i, b. pose proof (ld_UB _ _ Ec). cs. destruct (decide (i = Z.of_nat (length src))).
         - cs. done.
         - rewrite ptr_in_ub by (rewrite fmap_length in *; lia). cs. done. }
    2: { exfalso; eapply ld_noNF; eassumption. }
    pose proof (ld_bounds _ _ _ Ec). pose proof (ld_byte _ _ _ _ Hby E Ec) as Hc. pose proof (ld_rep _ _ _ Ec Hc) as Hrc. cbn [bind] in HN |- *.
    (* the second put, and the rest of the loop *)
    assert (H2 : forall w1 m1, buf_at m1 wb eb w1 -> heap m1 !! sb = Some (rep <$> src) ->
      (let* '(ok, w) := buffer_put w1 c in if negb ok then Ok (false, w) else let* i := iadd i 1 in encode_loop p k src len i w) <> NoFuel ->
      exists i' b', (let* '(o, s) := exec (S d) R2 (env_enc eb sb wb cap len i (VI c), m1) in
        match o with
        | Next | Continued => let* '(_, s) := exec (S d) (SExpr (EPost Add (EVar "i"))) s in loop n (test (S d) test_enc) (exec (S d) (SSeq (SDecl "b" (Some (EIndex (EVar "src") (EVar "i"))))
              (SSeq (SIf (EOr (EOr (EBin Eq (EVar "b") (EInt 4)) (EBin Eq (EVar "b") (EInt 1))) (EBin Eq (EVar "b") (EInt 16))) R1 SSkip) R2))) (exec (S d) (SExpr (EPost Add (EVar "i")))) s
        | Broke => Ok (Next, s)
        | Returned v t => Ok (Returned v t, s)
        end) = put_result (let* '(ok, w) := buffer_put w1 c in if negb ok then Ok (false, w) else let* i := iadd i 1 in encode_loop p k src len i w)
                 (env_enc eb sb wb cap len i' b') m1 wb eb).
    { intros w1 m1 Hw1 Hs1 HN1. rewrite (Hb _ _ _ Hw1 Hc). pose proof Hw1 as [_ _ Hne1 Hcap1 Hidx1].
      destruct (buffer_put w1 c) as [[[] w2]| |] eqn:Ep; cbn [put_result bind negb] in *; [|exists i, (VI c); done..].
      destruct (put_range _ _ _ _ Hidx1 Hcap1 Ep) as [Hc2 Hi2]. unfold iadd in *. destruct (decide (i + 1 <= int_max)).
      - assert (Hn1 : int_min <= i + 1 <= int_max) by (unfold int_min; lia). rewrite (ichk_ok (i + 1)) in * by lia. cbn [bind] in *.
        destruct (IH n (i + 1) (VI c) w2 (set_buf m1 wb eb w2)) as (i' & b' & Hr); [lia|lia|by eapply set_at|by apply set_other|exact HN1|].
        exists i', b'. unfold env_enc, test_enc in Hr |- *. cs.
        unfold put_result. destruct (encode_loop p k src len (i + 1) w2) as [[ok w3]| |]; cbn [bind]; [|done|done]. rewrite set_set by done. done.
      - exists i, (VI c). unfold env_enc. cs. rewrite (ichk_ub (i + 1)) by lia. cbn [bind put_result]. cs. done. }
    unfold env_enc, test_enc in H2, Hlit.
    unfold BISYNC_EOT, BISYNC_SOH, BISYNC_DLE in *. destruct (c =? 4) eqn:E4; [|destruct (c =? 1) eqn:E1; [|destruct (c =? 16) eqn:E16]]; cbn [orb bind negb] in HN |- *.
    4: { destruct (H2 w m Hw Hs HN) as (i' & b' & Hr). exists i', b'. cs. exact Hr. }
    all: pose proof Hw as [_ _ Hne Hcap Hidx]; pose proof (Hlit (VI c) w m 16 Hw ltac:(lia)) as Hl16; rewrite <- HR1 in Hl16;
      assert (Hpr : forall w1 ok, buffer_put w 16 = Ok (ok, w1) -> bcap w1 = bcap w /\ 0 <= bidx w1 <= int_max)
        by (intros w1 ok Ep; eapply put_range; eassumption);
      destruct (buffer_put w 16) as [[[] w1]| |]; cbn [bind negb] in HN |- *.
    1, 5, 9: destruct (Hpr w1 true eq_refl) as [Hc2 Hi2];
      assert (Hw1 : buf_at (set_buf m wb eb w1) wb eb w1) by (eapply set_at; eassumption);
      assert (Hs1 : heap (set_buf m wb eb w1) !! sb = Some (rep <$> src)) by (apply set_other; assumption);
      destruct (H2 w1 (set_buf m wb eb w1) Hw1 Hs1 HN) as (i' & b' & Hr); exists i', b'; cs; rewrite ?Hl16; cbn [put_result bind]; cs;
      etransitivity; [exact Hr|]; unfold put_result;
      match goal with |- bind ?x _ = _ => destruct x as [[ok w3]| |] end; cbn [bind]; [rewrite set_set by done|..]; done.
    all: exists i, (VI c); cs; rewrite ?Hl16; cbn [put_result bind]; cs; done.
Qed.
(** the loop takes at most one step for each byte *)
Lemma encode_loop_fuel src len : forall k i w, 0 <= i -> len - i <= Z.of_nat k -> 0 <= len < size_mod p -> i <= int_max -> encode_loop p k src len i w <> NoFuel.
Proof.
  assert (Hput : forall w z, buffer_put w z <> NoFuel).
  { intros w z. unfold buffer_put. destruct (_ <=? _); [done|]. pose proof (st_noNF (wbuf w) (bidx w) z). destruct (st _ _ _); cbn; try done.
    unfold iadd, ichk, chk. destruct (in_range _ _ _); done. }
  induction k as [|k IH]; intros i w Hi Hk Hl Him; cbn [encode_loop];
    rewrite to_size_id by (pose proof (size_mod_big p); unfold int_max in *; lia).
  - destruct (Z.ltb_spec i len); [lia|done].
  - destruct (Z.ltb_spec i len); [|done]. pose proof (ld_noNF src i). destruct (ld src i) as [c| |]; cbn [bind]; try done.
    match goal with |- bind ?x _ <> _ => assert (Hx : x <> NoFuel); [destruct (_ || _); [apply Hput|done]|destruct x as [[[] w1]| |]; cbn [bind negb]; try done] end.
    pose proof (Hput w1 c). destruct (buffer_put w1 c) as [[[] w2]| |]; cbn [bind negb]; try done.
    unfold iadd, ichk, chk. destruct (in_range _ _ _) eqn:Er; cbn [bind]; [|done]. unfold in_range in Er. apply andb_prop in Er as [_ Er]. apply Z.leb_le in Er.
    apply IH; lia.
Qed.
(** the environment at the first call, before [i] and [b] have values *)
Definition env_enc0 (eb sb wb : nat) (cap len : Z) : env :=
  [("encoded", BReg (Tptr (Tint false W8)) (VP eb 0)); ("encoded_capacity", BReg Tsize (VI cap)); ("src", BReg (Tptr (Tint false W8)) (VP sb 0));
   ("src_len", BReg Tsize (VI len)); ("i", BReg int VU); ("b", BReg (Tint false W8) VU); ("writer", BMem (Tstruct "buffer_t") wb)].
Lemma exec_put_0 d eb sb wb cap len w m z : buf_at m wb eb w -> 0 <= z < 256 ->
  exec (S d) (put_stmt (EInt z)) (env_enc0 eb sb wb cap len, m) = put_result (buffer_put w z) (env_enc0 eb sb wb cap len) m wb eb.
Proof. intros H Hz. unfold put_stmt, put_result, env_enc0. cs. destruct (buffer_put w z) as [[[] w']| |]; cbn [bind]; cs; done. Qed.
(** the call's own object goes away *)
Lemma drop_writer m eb wb w : heap m !! wb = None -> eb <> wb ->
  delete wb (heap (set_buf m wb eb w)) = <[eb := rep <$> wbuf w]> (heap m).
Proof.
  intros Hn Hne. apply map_eq. intros k. cbn. destruct (decide (k = wb)) as [->|].
  - rewrite lookup_delete, lookup_insert_ne by done. done.
  - rewrite lookup_delete_ne, lookup_insert_ne by done. done.
Qed.
Lemma free_writer m eb wb w n : heap m !! wb = None -> eb <> wb ->
  MkMem (delete wb (heap (set_buf m wb eb w))) n = MkMem (<[eb := rep <$> wbuf w]> (heap m)) n.
Proof. intros. by rewrite drop_writer. Qed.
Lemma start_writer m eb enc c : heap m !! eb = Some (rep <$> enc) -> heap m !! next m = None -> int_min <= c <= int_max ->
  let m0 := MkMem (heap m) (S (next m)) in
  MkMem (<[next m := [VP eb 0; VI c; VI 0]]> (heap m)) (S (next m)) = set_buf m0 (next m) eb (MkBuf enc c 0) /\
  buf_at (set_buf m0 (next m) eb (MkBuf enc c 0)) (next m) eb (MkBuf enc c 0) /\ eb <> next m.
Proof.
  intros He Hx Hc m0. assert (eb <> next m) by (intros ->; congruence). split_and!; [|split|done]; cbn; try done.
  - unfold set_buf. cbn. by rewrite (insert_id (heap m) eb).
  - by rewrite lookup_insert.
  - rewrite lookup_insert_ne by done. by rewrite lookup_insert.
Qed.
Lemma finish_writer m wb eb : wb = next m -> heap m !! wb = None -> eb <> wb ->
  forall v, int_min <= v <= int_max -> forall t E w,
  finish p int [("writer", BMem (Tstruct "buffer_t") wb)] (Ok (Returned (VI v) t, (E, set_buf (MkMem (heap m) (S wb)) wb eb w))) =
    Ok (VI v, int, MkMem (<[eb := rep <$> wbuf w]> (heap m)) (S wb)).
Proof.
  intros Hw Hn Hne v Hv t E w. unfold finish, free. cbn [bind snd fst fold_right]. rewrite conv_int_id by done. cbn [bind].
  change (next (set_buf (MkMem (heap m) (S wb)) wb eb w)) with (S wb). rewrite drop_writer by done. done.
Qed.
Lemma encode_loop_range src len : forall k i w ok w2, encode_loop p k src len i w = Ok (ok, w2) -> 0 <= bidx w <= int_max -> int_min <= bcap w <= int_max ->
  bcap w2 = bcap w /\ 0 <= bidx w2 <= int_max.
Proof.
  induction k as [|k IH]; intros i w ok w2; cbn [encode_loop]; (destruct (_ <? _); [|intros [= _ <-]; done]); [done|]; intros E Hi Hc.
  destruct (ld src i) as [c| |]; cbn [bind] in E; try done.
  match type of E with context [if ?x then ?a else ?b] => assert (Hx : forall ok1 w1, (if x then a else b) = Ok (ok1, w1) -> bcap w1 = bcap w /\ 0 <= bidx w1 <= int_max);
    [intros ok1 w1; destruct x; [by apply put_range|intros [= _ <-]; done]|destruct (if x then a else b) as [[ok1 w1]| |]; cbn [bind] in E; try done] end.
  destruct (Hx ok1 w1 eq_refl) as [Hc1 Hi1]. destruct ok1; cbn [negb] in E; [|injection E as <- <-; done].
  destruct (buffer_put w1 c) as [[ok3 w3]| |] eqn:Ep; cbn [bind] in E; try done. apply put_range in Ep as [Hc3 Hi3]; [|done|lia].
  destruct ok3; cbn [negb] in E; [|injection E as <- <-; split; [lia|done]].
  destruct (iadd i 1); cbn [bind] in E; try done. apply IH in E as [Hc4 Hi4]; [split; [lia|done]|done|lia].
Qed.
Lemma decode_loop_range enc len : forall k i b esc w ok b2 w2, decode_loop p k enc len i b esc w = Ok (ok, b2, w2) -> 0 <= bidx w <= int_max -> int_min <= bcap w <= int_max ->
  bcap w2 = bcap w /\ 0 <= bidx w2 <= int_max.
Proof.
  induction k as [|k IH]; intros i b esc w ok b2 w2; cbn [decode_loop]; (destruct (_ <? _); [|intros [= _ _ <-]; done]); [done|]; intros E Hi Hc.
  destruct (ld enc i) as [c| |]; cbn [bind] in E; try done.
  assert (Hx : (let* '(ok, w) := buffer_put w c in if negb ok then Ok (false, Some c, w) else let* i := iadd i 1 in decode_loop p k enc len i (Some c) false w) = Ok (ok, b2, w2) ->
    bcap w2 = bcap w /\ 0 <= bidx w2 <= int_max).
  { intros E'. destruct (buffer_put w c) as [[ok3 w3]| |] eqn:Ep; cbn [bind] in E'; try done. apply put_range in Ep as [Hc3 Hi3]; [|done|lia].
    destruct ok3; cbn [negb] in E'; [|injection E' as <- <- <-; split; [lia|done]].
    destruct (iadd i 1); cbn [bind] in E'; try done. apply IH in E' as [Hc4 Hi4]; [split; [lia|done]|done|lia]. }
  destruct esc; [by apply Hx|]. destruct (_ =? _).
  { destruct (iadd i 1); cbn [bind] in E; try done. by apply IH in E. }
  destruct (_ =? _); [injection E as <- <- <-; done|by apply Hx].
Qed.
Lemma iadd_range i z : 0 <= i -> iadd i 1 = Ok z -> 0 <= z <= int_max.
Proof. intros Hi. unfold iadd, ichk, chk. destruct (in_range _ _ _) eqn:Er; [|done]. unfold in_range in Er. apply andb_prop in Er as [_ Er]. apply Z.leb_le in Er. intros [= <-]. lia. Qed.
Lemma decode_loop_byte enc len : bytes (take (Z.to_nat len) enc) -> forall k i b esc w ok c w2, 0 <= i <= int_max -> decode_loop p k enc len i b esc w = Ok (ok, Some c, w2) ->
  (forall c, b = Some c -> 0 <= c < 256) -> 0 <= c < 256.
Proof.
  intros Hby. induction k as [|k IH]; intros i b esc w ok c w2 Hi0; cbn [decode_loop]; (destruct (to_size p i <? len) eqn:Ei; [|intros [= _ -> _] H; by apply H]); [done|]; intros E Hb. rewrite to_size_id in Ei by (pose proof (size_mod_big p); unfold int_max in *; lia).
  destruct (ld enc i) as [x| |] eqn:Ex; cbn [bind] in E; try done. eapply ld_byte in Ex; [|done..].
  assert (Hx : (let* '(ok, w) := buffer_put w x in if negb ok then Ok (false, Some x, w) else let* i := iadd i 1 in decode_loop p k enc len i (Some x) false w) = Ok (ok, Some c, w2) -> 0 <= c < 256).
  { intros E'. destruct (buffer_put w x) as [[ok3 w3]| |]; cbn [bind] in E'; try done.
    destruct ok3; cbn [negb] in E'; [|injection E' as <- <- <-; done].
    destruct (iadd i 1) eqn:Ea; cbn [bind] in E'; try done. eapply IH; [|exact E'|]; [eapply iadd_range; [|exact Ea]; lia|]. intros ? [= <-]; done. }
  destruct esc; [by apply Hx|]. destruct (_ =? _).
  { destruct (iadd i 1) eqn:Ea; cbn [bind] in E; try done. eapply IH; [|exact E|]; [eapply iadd_range; [|exact Ea]; lia|]. intros ? [= <-]; done. }
  destruct (_ =? _); [injection E as <- <- <-; done|by apply Hx].
Qed.
Lemma src_encode d m eb sb enc cap src len : heap m !! eb = Some (rep <$> enc) -> heap m !! sb = Some (rep <$> src) -> eb <> sb ->
  heap m !! next m = None -> bytes (take (Z.to_nat len) src) -> 0 <= cap < size_mod p -> 0 <= len < size_mod p -> (Z.to_nat len < fuel)%nat ->
  call (S (S d)) "mu_bisync_encode" [VP eb 0; VI cap; VP sb 0; VI len] m =
    let* '(r, out) := mu_bisync_encode p enc cap src len in Ok (VI r, int, MkMem (<[eb := rep <$> out]> (heap m)) (S (next m))).
Proof.
  intros He Hs Hes Hx Hby Hcap Hlen Hf. erewrite call_S by reflexivity.
  cstep. change (replicate (Z.to_nat (cells bisync_prog (Tstruct "buffer_t"))) VU) with [VU; VU; VU].
  pose proof (to_int_range cap) as Hti.
  destruct (start_writer m eb enc (to_int cap) He Hx Hti) as (Hm & Hb & Hne).
  assert (Hws : next m <> sb) by (intros Heq; rewrite Heq in Hx; congruence).
  set (wb := next m) in *.
  lazymatch goal with |- context [SSeq (SIf (ENot (ECall "buffer_put" [EAddr (EVar "writer"); EInt 1])) ?a ?b) ?R] =>
    change (SIf (ENot (ECall "buffer_put" [EAddr (EVar "writer"); EInt 1])) a b) with (put_stmt (EInt 1)) in *;
    set (P1 := put_stmt (EInt 1)) in *; set (R1 := R) end.
  assert (HP1 : P1 = put_stmt (EInt 1)) by done. assert (HR1 : R1 = R1) by done. 
  unfold R1 in HR1 at 2. clearbody P1 R1.
  cs. change (wrap_signed 4294967296 cap) with (to_int cap). rewrite Hm. clear Hm.
  set (m0 := MkMem (heap m) (S wb)) in *. set (w0 := MkBuf enc (to_int cap) 0) in *.
  pose proof (finish_writer m wb eb eq_refl Hx Hne) as Hfin. fold m0 in Hfin.
  pose proof (exec_put_0 d eb sb wb cap len w0 _ 1 Hb ltac:(lia)) as H1. rewrite <- HP1 in H1. unfold env_enc0 in H1. rewrite H1. clear H1.
  assert (Hpr : forall w1 ok, buffer_put w0 1 = Ok (ok, w1) -> bcap w1 = to_int cap /\ 0 <= bidx w1 <= int_max)
    by (intros w1 ok Ep; eapply (put_range w0); [cbn; unfold int_max; lia|cbn; lia|eassumption]).
  unfold mu_bisync_encode. fold w0. change BISYNC_SOH with 1. unfold put_result. destruct (buffer_put w0 1) as [[[] w1]| |]; cbn [bind negb].
  2: { rewrite set_set by done. rewrite Hfin by (unfold int_min, int_max; lia). done. }
  2-3: done.
  destruct (Hpr w1 true eq_refl) as [Hc1 Hi1]. clear Hpr. rewrite set_set by done.
  assert (Hb1 : buf_at (set_buf m0 wb eb w1) wb eb w1).
  { rewrite <- (set_set m0 wb eb w0 w1) by done. eapply set_at; [exact Hb|done|done]. }
  assert (Hs1 : heap (set_buf m0 wb eb w1) !! sb = Some (rep <$> src)) by (apply set_other; done).
  rewrite HR1. clear HR1 R1 HP1 P1.
  lazymatch goal with |- context [SSeq (SLoop ?a ?b ?c) (SSeq (SIf (ENot (ECall "buffer_put" [EAddr (EVar "writer"); EInt 4])) ?x ?y) ?R)] =>
    change (SLoop a b c) with (SLoop test_enc b body_enc);
    change (SIf (ENot (ECall "buffer_put" [EAddr (EVar "writer"); EInt 4])) x y) with (put_stmt (EInt 4)) end.
  set (B := body_enc). set (T := test_enc). set (P4 := put_stmt (EInt 4)).
  assert (HB : B = body_enc) by done. assert (HT : T = test_enc) by done. assert (HP4 : P4 = put_stmt (EInt 4)) by done. clearbody B T P4.
  cs. rewrite exec_SLoop. subst B T.
  destruct (encode_loop_src d eb sb wb cap len src Hws Hes Hby Hlen (Z.to_nat len) fuel 0 VU w1 _ Hf ltac:(unfold int_max; lia) Hb1 Hs1) as (i' & b' & Hl).
  { apply encode_loop_fuel; unfold int_max; lia. }
  unfold env_enc at 1 in Hl. rewrite Hl. clear Hl.
  assert (Hpr : forall ok w2, encode_loop p (Z.to_nat len) src len 0 w1 = Ok (ok, w2) -> bcap w2 = to_int cap /\ 0 <= bidx w2 <= int_max)
    by (intros ok w2 E; rewrite <- Hc1; eapply encode_loop_range; [exact E|done|rewrite Hc1; done]).
  unfold put_result at 1. destruct (encode_loop p (Z.to_nat len) src len 0 w1) as [[ok w2]| |]; cbn [bind]; [|done..].
  destruct (Hpr ok w2 eq_refl) as [Hc2 Hi2]. clear Hpr. rewrite set_set by done. destruct ok; cbn [negb].
  2: { rewrite Hfin by (unfold int_min, int_max; lia). done. }
  assert (Hb2 : buf_at (set_buf m0 wb eb w2) wb eb w2).
  { rewrite <- (set_set m0 wb eb w1 w2) by done. eapply set_at; [exact Hb1|congruence|done]. }
  pose proof (exec_put_lit d eb sb wb cap len i' b' w2 _ 4 Hb2 ltac:(lia)) as H4. rewrite <- HP4 in H4. cs. rewrite ?H4. clear H4.
  assert (Hpr : forall ok w3, buffer_put w2 4 = Ok (ok, w3) -> bcap w3 = to_int cap /\ 0 <= bidx w3 <= int_max)
    by (intros ok w3 E; rewrite <- Hc2; eapply put_range; [| |exact E]; [done|rewrite Hc2; done]).
  change BISYNC_EOT with 4. unfold put_result at 1. destruct (buffer_put w2 4) as [[ok w3]| |]; cbn [bind]; [|done..].
  destruct (Hpr ok w3 eq_refl) as [Hc3 Hi3]. rewrite set_set by done. destruct ok; cbn [negb].
  2: { rewrite Hfin by (unfold int_min, int_max; lia). done. }
  assert (Hb3 : buf_at (set_buf m0 wb eb w3) wb eb w3).
  { rewrite <- (set_set m0 wb eb w2 w3) by done. eapply set_at; [exact Hb2|congruence|done]. }
  pose proof (ba_obj _ _ _ _ Hb3) as Ho. unfold wcells in Ho. unfold env_enc. set (m3 := set_buf m0 wb eb w3) in *.
  assert (Hm3 : m3 = set_buf m0 wb eb w3) by done. clearbody m3. 
  assert (Hi3' : int_min <= bidx w3 <= int_max) by (unfold int_min in *; lia). cs. 
  rewrite Hm3. cbn [bind]. rewrite <- Hfin with (w := w3) (v := bidx w3) (t := int) (E := []) by done. unfold finish, free. cbn [bind snd fst fold_right]. rewrite conv_int_id by done. done.
Qed.

(** ** decode *)
Definition env_dec (db sb wb : nat) (cap len : Z) (b esc i : val) : env :=
  [("dst", BReg (Tptr (Tint false W8)) (VP db 0)); ("dst_capacity", BReg Tsize (VI cap)); ("encoded", BReg (Tptr (Tint false W8)) (VP sb 0));
   ("encoded_len", BReg Tsize (VI len)); ("b", BReg (Tint false W8) b); ("escaping", BReg Tbool esc); ("i", BReg int i); ("writer", BMem (Tstruct "buffer_t") wb)].
Definition test_dec : expr := EBin Lt (EVar "i") (EVar "encoded_len").
Definition body_dec : stmt :=
  SSeq (SExpr (EAssign (EVar "b") (EIndex (EVar "encoded") (EVar "i"))))
    (SIf (EVar "escaping")
      (SSeq (put_stmt (EVar "b")) (SExpr (EAssign (EVar "escaping") (EInt 0))))
      (SIf (EBin Eq (EVar "b") (EInt 16))
        (SExpr (EAssign (EVar "escaping") (EInt 1)))
        (SIf (EBin Eq (EVar "b") (EInt 4)) SBreak (put_stmt (EVar "b"))))).
Lemma exec_put_dec d db sb wb cap len esc i w m z : buf_at m wb db w -> 0 <= z < 256 ->
  exec (S d) (put_stmt (EVar "b")) (env_dec db sb wb cap len (VI z) esc i, m) = put_result (buffer_put w z) (env_dec db sb wb cap len (VI z) esc i) m wb db.
Proof. intros H Hz. unfold put_stmt, put_result, env_dec. cs. destruct (buffer_put w z) as [[[] w']| |]; cbn [bind]; cs; done. Qed.
Definition bval (b : option Z) : val := match b with None => VU | Some c => VI c end.
Definition dec_result (r : res (bool * option Z * buffer)) (db sb wb : nat) (cap len : Z) (esc i : val) (m : mem) : res (outcome * (env * mem)) :=
  let* '(ok, b, w) := r in Ok (if ok : bool then Next else Returned (VI (-1)) int, (env_dec db sb wb cap len (bval b) esc i, set_buf m wb db w)).
Lemma decode_loop_src d db sb wb cap len enc : wb <> sb -> db <> sb -> bytes (take (Z.to_nat len) enc) -> 0 <= len < size_mod p ->
  forall k n i b esc w m, (k < n)%nat -> 0 <= i <= int_max -> buf_at m wb db w -> heap m !! sb = Some (rep <$> enc) ->
  decode_loop p k enc len i b esc w <> NoFuel ->
  exists esc' i', loop n (test (S d) test_dec) (exec (S d) body_dec) (exec (S d) (SExpr (EPost Add (EVar "i")))) (env_dec db sb wb cap len (bval b) (truth esc) (VI i), m) =
    dec_result (decode_loop p k enc len i b esc w) db sb wb cap len esc' i' m.
Proof.
  intros Hws Hes Hby Hlen. induction k as [|k IH]; intros [|n] i b esc w m Hk Hi Hw Hs HN; try lia;
    assert (Hi' : int_min <= i <= int_max) by (unfold int_min in *; lia);
    assert (Hrg : 0 <= i < size_mod p) by (pose proof (size_mod_big p); unfold int_max in *; lia);
    assert (Hsz : to_size p i = i) by (apply to_size_id; exact Hrg);
    rewrite loop_S; unfold test_dec, body_dec, env_dec at 1; cbn [decode_loop] in *; rewrite ?Hsz in *.
  - destruct (i <? len) eqn:E; [done|]. exists (truth esc), (VI i). cs. cbn [dec_result bind]. rewrite set_same by done. done.
  - destruct (i <? len) eqn:E.
    2: { exists (truth esc), (VI i). cs. cbn [dec_result bind]. rewrite set_same by done. done. }
    unfold body_dec in IH.
    destruct (ld enc i) as [c| |] eqn:Ec.
    2: { exists (truth esc), (VI i). pose proof (ld_UB _ _ Ec). cs. destruct (decide (i = Z.of_nat (length enc))).
         - cs. done.
         - rewrite ptr_in_ub by (rewrite fmap_length in *; lia). cs. done. }
    2: { exfalso; eapply ld_noNF; eassumption. }
    pose proof (ld_bounds _ _ _ Ec). pose proof (ld_byte _ _ _ _ Hby E Ec) as Hc. pose proof (ld_rep _ _ _ Ec Hc) as Hrc. cbn [bind] in HN |- *.
    pose proof (fun esc => exec_put_dec d db sb wb cap len esc (VI i) w m c Hw Hc) as Hput.
    set (R2 := put_stmt (EVar "b")) in *. clearbody R2. unfold env_dec, test_dec in Hput, IH.
    pose proof Hw as [_ _ Hne Hcap Hidx].
    assert (Hpr : forall w1 ok, buffer_put w c = Ok (ok, w1) -> bcap w1 = bcap w /\ 0 <= bidx w1 <= int_max)
      by (intros w1 ok Ep; eapply put_range; eassumption).
    (* the rest of the loop *)
    assert (Hnext : forall esc' w1 m1, buf_at m1 wb db w1 -> heap m1 !! sb = Some (rep <$> enc) ->
      (let* i := iadd i 1 in decode_loop p k enc len i (Some c) esc' w1) <> NoFuel ->
      exists esc2 i2, (let* '(_, s) := exec (S d) (SExpr (EPost Add (EVar "i"))) (env_dec db sb wb cap len (VI c) (truth esc') (VI i), m1) in
         loop n (test (S d) (EBin Lt (EVar "i") (EVar "encoded_len"))) (exec (S d) (SSeq (SExpr (EAssign (EVar "b") (EIndex (EVar "encoded") (EVar "i"))))
            (SIf (EVar "escaping") (SSeq R2 (SExpr (EAssign (EVar "escaping") (EInt 0))))
            (SIf (EBin Eq (EVar "b") (EInt 16)) (SExpr (EAssign (EVar "escaping") (EInt 1)))
            (SIf (EBin Eq (EVar "b") (EInt 4)) SBreak R2))))) (exec (S d) (SExpr (EPost Add (EVar "i")))) s) =
        dec_result (let* i := iadd i 1 in decode_loop p k enc len i (Some c) esc' w1) db sb wb cap len esc2 i2 m1).
    { intros esc' w1 m1 Hw1 Hs1 HN1. unfold iadd in *. destruct (decide (i + 1 <= int_max)).
      - assert (Hn1 : int_min <= i + 1 <= int_max) by (unfold int_min; lia). rewrite (ichk_ok (i + 1)) in * by lia. cbn [bind] in *.
        destruct (IH n (i + 1) (Some c) esc' w1 m1) as (e2 & i2 & Hr); [lia|lia|done|done|exact HN1|].
        exists e2, i2. unfold env_dec. cs. cbn [bval] in Hr. exact Hr.
      - exists VU, VU. unfold env_dec. cs. rewrite (ichk_ub (i + 1)) by lia. cbn [bind dec_result]. cs. done. }
    unfold env_dec in Hnext. cbn [bval] in *. set (PI := SExpr (EPost Add (EVar "i"))) in *. clearbody PI.
    unfold BISYNC_EOT, BISYNC_DLE in *. destruct esc; cbn [negb] in HN |- *.
    { destruct (buffer_put w c) as [[[] w1]| |] eqn:Ep; cbn [bind negb put_result] in HN, Hput |- *.
      - destruct (Hpr w1 true eq_refl) as [Hc2 Hi2].
        assert (Hw1 : buf_at (set_buf m wb db w1) wb db w1) by (eapply set_at; eassumption).
        assert (Hs1 : heap (set_buf m wb db w1) !! sb = Some (rep <$> enc)) by (apply set_other; assumption).
        destruct (Hnext false w1 _ Hw1 Hs1 HN) as (e2 & i2 & Hr). exists e2, i2. cs. rewrite ?Hput. cbn [bind]. cs.
        etransitivity; [exact Hr|]. unfold dec_result. match goal with |- bind ?x _ = _ => destruct x as [[[ok b3] w3]| |] end; cbn [bind]; [rewrite set_set by done|..]; done.
      - exists (VI 1), (VI i). cs. rewrite ?Hput. cbn [bind]. cs. done.
      - exists VU, VU. cs. rewrite ?Hput. cbn [bind]. cs. done.
      - done. }
    destruct (c =? 16) eqn:E16; [|destruct (c =? 4) eqn:E4]; cbn [negb bind] in HN |- *.
    + destruct (Hnext true w m Hw Hs HN) as (e2 & i2 & Hr). exists e2, i2. cs. exact Hr.
    + exists (VI 0), (VI i). cs. cbn [dec_result bind bval]. rewrite set_same by done. done.
    + destruct (buffer_put w c) as [[[] w1]| |] eqn:Ep; cbn [bind negb put_result] in HN, Hput |- *.
      * destruct (Hpr w1 true eq_refl) as [Hc2 Hi2].
        assert (Hw1 : buf_at (set_buf m wb db w1) wb db w1) by (eapply set_at; eassumption).
        assert (Hs1 : heap (set_buf m wb db w1) !! sb = Some (rep <$> enc)) by (apply set_other; assumption).
        destruct (Hnext false w1 _ Hw1 Hs1 HN) as (e2 & i2 & Hr). exists e2, i2. cs. rewrite ?Hput. cbn [bind]. cs.
        etransitivity; [exact Hr|]. unfold dec_result. match goal with |- bind ?x _ = _ => destruct x as [[[ok b3] w3]| |] end; cbn [bind]; [rewrite set_set by done|..]; done.
      * exists (VI 0), (VI i). cs. rewrite ?Hput. cbn [bind]. cs. done.
      * exists VU, VU. cs. rewrite ?Hput. cbn [bind]. cs. done.
      * done.
Qed.
Lemma decode_loop_fuel enc len : forall k i b esc w, 0 <= i -> len - i <= Z.of_nat k -> 0 <= len < size_mod p -> i <= int_max -> decode_loop p k enc len i b esc w <> NoFuel.
Proof.
  assert (Hput : forall w z, buffer_put w z <> NoFuel).
  { intros w z. unfold buffer_put. destruct (_ <=? _); [done|]. pose proof (st_noNF (wbuf w) (bidx w) z). destruct (st _ _ _); cbn; try done.
    unfold iadd, ichk, chk. destruct (in_range _ _ _); done. }
  induction k as [|k IH]; intros i b esc w Hi Hk Hl Him; cbn [decode_loop];
    rewrite to_size_id by (pose proof (size_mod_big p); unfold int_max in *; lia).
  - destruct (Z.ltb_spec i len); [lia|done].
  - destruct (Z.ltb_spec i len); [|done]. pose proof (ld_noNF enc i). destruct (ld enc i) as [c| |]; cbn [bind]; try done.
    assert (Hn : forall b e w, (let* i := iadd i 1 in decode_loop p k enc len i b e w) <> NoFuel).
    { intros b' e w'. unfold iadd, ichk, chk. destruct (in_range _ _ _) eqn:Er; cbn [bind]; [|done]. unfold in_range in Er. apply andb_prop in Er as [_ Er]. apply Z.leb_le in Er.
      apply IH; lia. }
    pose proof (Hput w c). destruct esc; [|destruct (_ =? _); [apply Hn|destruct (_ =? _); [done|]]];
      (destruct (buffer_put w c) as [[[] w2]| |]; cbn [bind negb]; [apply Hn|done..]).
Qed.
Lemma src_decode d m db sb dst cap enc len : heap m !! db = Some (rep <$> dst) -> heap m !! sb = Some (rep <$> enc) -> db <> sb ->
  heap m !! next m = None -> bytes (take (Z.to_nat len) enc) -> 0 <= cap < size_mod p -> 0 <= len < size_mod p -> (Z.to_nat len < fuel)%nat ->
  call (S (S d)) "mu_bisync_decode" [VP db 0; VI cap; VP sb 0; VI len] m =
    let* '(r, out) := mu_bisync_decode p dst cap enc len in Ok (VI r, int, MkMem (<[db := rep <$> out]> (heap m)) (S (next m))).
Proof.
  intros He Hs Hes Hx Hby Hcap Hlen Hf. erewrite call_S by reflexivity.
  cstep. change (replicate (Z.to_nat (cells bisync_prog (Tstruct "buffer_t"))) VU) with [VU; VU; VU].
  pose proof (to_int_range cap) as Hti.
  destruct (start_writer m db dst (to_int cap) He Hx Hti) as (Hm & Hb & Hne).
  assert (Hws : next m <> sb) by (intros Heq; rewrite Heq in Hx; congruence).
  set (wb := next m) in *.
  lazymatch goal with |- context [SSeq (SIf (EOr (EBin Lt (EVar "encoded_len") (EInt 1)) ?a) ?b ?c) ?R] =>
    set (P1 := SIf (EOr (EBin Lt (EVar "encoded_len") (EInt 1)) a) b c); set (R1 := R) end.
  assert (HP1 : P1 = P1) by done. assert (HR1 : R1 = R1) by done.
  unfold R1 in HR1 at 2. unfold P1 in HP1 at 2. clearbody P1 R1.
  cs. change (wrap_signed 4294967296 cap) with (to_int cap). rewrite Hm. clear Hm.
  set (m0 := MkMem (heap m) (S wb)) in *. set (w0 := MkBuf dst (to_int cap) 0) in *.
  pose proof (finish_writer m wb db eq_refl Hx Hne) as Hfin. fold m0 in Hfin.
  pose proof (ba_obj _ _ _ _ Hb) as Ho.
  assert (Hs1 : heap (set_buf m0 wb db w0) !! sb = Some (rep <$> enc)) by (apply set_other; done).
  set (m1 := set_buf m0 wb db w0) in *. assert (Hm1 : m1 = set_buf m0 wb db w0) by done. clearbody m1.
  unfold mu_bisync_decode. fold w0.
  assert (HP1' : exec (S d) P1 (env_dec db sb wb cap len VU (truth false) VU, m1) =
    let* bad := (if len <? 1 then Ok true else let* c := ld enc 0 in Ok (negb (c =? BISYNC_SOH))) in
    Ok (if bad : bool then Returned (VI (-2)) int else Next, (env_dec db sb wb cap len VU (truth false) VU, m1))).
  { rewrite HP1. unfold env_dec. assert (H1 : 0 <= 1 < size_mod p) by (pose proof (size_mod_big p); lia).
    destruct (len <? 1) eqn:E1; [cs; done|]. destruct (ld enc 0) as [c| |] eqn:Ec.
    - pose proof (ld_bounds _ _ _ Ec). assert (E : (0 <? len) = true) by (apply Z.ltb_lt; apply Z.ltb_ge in E1; lia). pose proof (ld_byte _ _ _ _ Hby E Ec) as Hc. pose proof (ld_rep _ _ _ Ec Hc) as Hrc. cs. change BISYNC_SOH with 1. destruct (c =? 1) eqn:E2; cs; done.
    - pose proof (ld_UB _ _ Ec). cs. done.
    - by apply ld_noNF in Ec. }
  unfold env_dec in HP1' at 1. rewrite HP1'. clear HP1'.
  match goal with |- context [if len <? 1 then Ok true else ?y] => set (X := if len <? 1 then Ok true else y); assert (HX : X <> NoFuel);
    [unfold X; destruct (len <? 1); [done|]; pose proof (ld_noNF enc 0); destruct (ld enc 0); done|]; clearbody X end.
  destruct X as [[]| |]; cbn [bind]; [|clear HX|done..].
  { rewrite Hm1, Hfin by (unfold int_min, int_max; lia). done. }
  rewrite HR1. clear HR1 R1 HP1 P1.
  lazymatch goal with |- context [SSeq (SLoop ?a ?b ?c) _] => change (SLoop a b c) with (SLoop test_dec b body_dec) end.
  set (B := body_dec). set (T := test_dec).
  assert (HB : B = body_dec) by done. assert (HT : T = test_dec) by done. clearbody B T. unfold env_dec.
  cs. rewrite exec_SLoop. subst B T.
  destruct (decode_loop_src d db sb wb cap len enc Hws Hes Hby Hlen (Z.to_nat len) fuel 0 None false w0 m1 Hf ltac:(unfold int_max; lia) Hb Hs1) as (e' & i' & Hl).
  { apply decode_loop_fuel; unfold int_max; lia. }
  unfold env_dec at 1 in Hl. cbn [bval] in Hl. etransitivity; [refine (f_equal (fun x => finish p int _ (let* pat := x in _)) _); exact Hl|]. clear Hl.
  assert (Hpr : forall ok b w2, decode_loop p (Z.to_nat len) enc len 0 None false w0 = Ok (ok, b, w2) -> (bcap w2 = to_int cap /\ 0 <= bidx w2 <= int_max) /\ forall c, b = Some c -> 0 <= c < 256).
  { intros ok b w2 E. split; [eapply (decode_loop_range enc len (Z.to_nat len) 0 None false w0); [exact E|cbn; unfold int_max; lia|cbn; done]|].
    intros c ->. eapply decode_loop_byte; [exact Hby| |exact E|done]. unfold int_max; lia. }
  unfold dec_result. destruct (decode_loop p (Z.to_nat len) enc len 0 None false w0) as [[[ok b] w2]| |]; cbn [bind]; [|done..].
  destruct (Hpr ok b w2 eq_refl) as [[Hc2 Hi2] Hbb]. clear Hpr. destruct ok; cbn [negb].
  2: { rewrite Hm1, set_set, Hfin by (done || unfold int_min, int_max; lia). done. }
  assert (Hb2 : buf_at (set_buf m1 wb db w2) wb db w2) by (eapply set_at; [exact Hb|exact Hc2|done]).
  pose proof (ba_obj _ _ _ _ Hb2) as Ho2. unfold wcells in Ho2. unfold env_dec.
  set (m3 := set_buf m1 wb db w2) in *.
  assert (Hm3 : m3 = set_buf m0 wb db w2) by (unfold m3; rewrite Hm1, set_set by done; done). clearbody m3.
  assert (Hi3' : int_min <= bidx w2 <= int_max) by (unfold int_min in *; lia).
  destruct b as [c|]; cbn [bval].
  2: { cs. done. }
  pose proof (Hbb c eq_refl) as Hcc. change BISYNC_EOT with 4. change MU_BISYNC_ERR_FORMAT with (-2). destruct (c =? 4) eqn:E4; cs; cbn [negb bind].
  - rewrite Hm3. rewrite <- Hfin with (w := w2) (v := bidx w2) (t := int) (E := []) by done. unfold finish, free. cbn [bind snd fst fold_right]. rewrite conv_int_id by done. done.
  - rewrite Hm3. rewrite <- Hfin with (w := w2) (v := -2) (t := int) (E := []) by (unfold int_min, int_max; lia). unfold finish, free. cbn [bind snd fst fold_right]. done.
Qed.
End bisync.
