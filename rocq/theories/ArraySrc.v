(** * mu_array: the translated source does what the model says, function by function *)
From Verif Require Import CSym SrcArray ArrayModel.
Open Scope string_scope. Open Scope Z_scope.

Lemma loop_S n c b st s : loop (S n) c b st s =
  let* '(t, s) := c s in
  if t then let* '(o, s) := b s in
    match o with
    | Next | Continued => let* '(_, s) := st s in loop n c b st s
    | Broke => Ok (Next, s)
    | Returned v t => Ok (Returned v t, s)
    end
  else Ok (Next, s).
Proof. done. Qed.

Lemma memmove_noNF {A} (l : list A) d s n : memmove l d s n <> NoFuel.
Proof. unfold memmove. destruct (_ && _); done. Qed.
Lemma memmove_length {A} (l l' : list A) d s n : memmove l d s n = Ok l' -> length l' = length l.
Proof.
  unfold memmove. destruct (_ && _) eqn:E; [|done]. intros [= <-]. repeat (apply andb_prop in E as [E ?]).
  repeat match goal with H : (_ <=? _) = true |- _ => apply Z.leb_le in H end.
  rewrite !app_length, !take_length, !drop_length. lia.
Qed.
Lemma st_ok_ex {A} (l : list A) i x : 0 <= i < Z.of_nat (length l) -> exists l', st l i x = Ok l'.
Proof. intros H. eexists. apply st_ok. lia. Qed.
Lemma st_len {A} (l l' : list A) i x : st l i x = Ok l' -> length l' = length l.
Proof. unfold st. destruct (_ && _); [|done]. intros [= <-]. apply insert_length. Qed.
Lemma ichk_range z y : ichk z = Ok y -> z = y /\ int_min <= y <= int_max.
Proof. unfold ichk, chk, in_range. destruct (Z.leb_spec int_min z), (Z.leb_spec z int_max); cbn; try done. intros [= <-]. lia. Qed.

Section array.
Context (p : plat) (fuel : nat) (ext : string -> list val -> mem -> res (val * ty * mem))
  (ext_ptr : val -> list val -> mem -> res (val * ty * mem)).
Notation call d := (call p array_prog fuel ext ext_ptr d).

Definition acells (sb : nat) (a : marray) : list val := [VP sb 0; VI (a_cap a); VI (a_cnt a)].
(** the array object is block [ab], its storage block [sb] *)
Record array_at (m : mem) (ab sb : nat) (a : marray) : Prop := {
  aa_obj : heap m !! ab = Some (acells sb a);
  aa_store : heap m !! sb = Some (VI <$> a_store a);
  aa_ne : ab <> sb;
  aa_cap : 0 <= a_cap a < size_mod p; aa_cnt : 0 <= a_cnt a < size_mod p;
  aa_len : a_cnt a <= Z.of_nat (length (a_store a)) }.
Definition set_array (m : mem) (ab sb : nat) (a : marray) : mem :=
  MkMem (<[ab := acells sb a]> (<[sb := VI <$> a_store a]> (heap m))) (next m).
Definition set_items (m : mem) (sb : nat) (l : list Z) : mem := MkMem (<[sb := VI <$> l]> (heap m)) (next m).
Definition set_out (m : mem) (b : nat) (v : option Z) : mem :=
  match v with Some v => MkMem (<[b := [VI v]]> (heap m)) (next m) | None => m end.
Lemma set_same m ab sb a : array_at m ab sb a -> set_array m ab sb a = m.
Proof.
  intros [H1 H2 _ _ _ _]. unfold set_array. destruct m as [h n]. cbn in *.
  rewrite (insert_id h sb), (insert_id h ab) by done. done.
Qed.
Lemma set_items_same m sb l : heap m !! sb = Some (VI <$> l) -> set_items m sb l = m.
Proof. intros H. unfold set_items. destruct m as [h n]. cbn in *. rewrite insert_id by done. done. Qed.

Ltac start H := destruct H as [H1 H2 Hne Hc Hn Hl]; unfold acells in *; erewrite call_S by reflexivity.
Ltac fin := unfold set_out, set_array, set_items, acells; cbn; do 2 f_equal; mem_eq.

Lemma src_is_full d m ab sb a : array_at m ab sb a ->
  call (S d) "mu_array_is_full" [VP ab 0] m = Ok (truth (mu_array_is_full a), Tbool, m).
Proof. intros H. start H. repeat cstep. done. Qed.
Lemma src_is_empty d m ab sb a : array_at m ab sb a ->
  call (S d) "mu_array_is_empty" [VP ab 0] m = Ok (truth (mu_array_is_empty a), Tbool, m).
Proof. intros H. start H. repeat cstep. done. Qed.
Lemma src_capacity d m ab sb a : array_at m ab sb a ->
  call (S d) "mu_array_capacity" [VP ab 0] m = Ok (VI (mu_array_capacity a), Tsize, m).
Proof. intros H. start H. repeat cstep. done. Qed.
Lemma src_count d m ab sb a : array_at m ab sb a ->
  call (S d) "mu_array_count" [VP ab 0] m = Ok (VI (mu_array_count a), Tsize, m).
Proof. intros H. start H. repeat cstep. done. Qed.
Lemma src_reset d m ab sb a : array_at m ab sb a ->
  call (S d) "mu_array_reset" [VP ab 0] m = Ok (VP ab 0, Tptr (Tstruct "mu_array_t"), set_array m ab sb (mu_array_reset a)).
Proof. intros H. start H. repeat cstep. fin. Qed.
(** an array object of any content, and storage of any items *)
Lemma src_init d m ab sb c st cap : heap m !! ab = Some c -> length c = 3%nat -> heap m !! sb = Some (VI <$> st) -> ab <> sb ->
  0 <= cap < size_mod p ->
  call (S (S d)) "mu_array_init" [VP ab 0; VP sb 0; VI cap] m =
    Ok (VP ab 0, Tptr (Tstruct "mu_array_t"), set_array m ab sb (mu_array_init st cap)).
Proof.
  intros H1 Hl H2 Hne Hc. destruct c as [|c0 [|c1 [|c2 [|]]]]; try discriminate Hl.
  erewrite call_S by reflexivity. csteps. erewrite call_S by reflexivity. csteps. fin.
Qed.
Ltac call_hook ::= first [erewrite src_is_full by eassumption | erewrite src_is_empty by eassumption].
Lemma src_push d m ab sb a x : array_at m ab sb a ->
  call (S (S d)) "mu_array_push" [VP ab 0; VI x] m =
    let* '(b, a) := mu_array_push p a x in Ok (truth b, Tbool, set_array m ab sb a).
Proof.
  intros H. pose proof H as H'. start H. csteps. unfold mu_array_push. destruct (negb _) eqn:Hf; csteps.
  - destruct (st (a_store a) (a_cnt a) x) as [s'| |] eqn:E; csteps; [|done|by apply st_noNF in E]. fin.
  - rewrite set_same by done. done.
Qed.
Lemma src_pop d m ab sb eb a v0 : array_at m ab sb a -> heap m !! eb = Some [v0] -> eb <> ab -> eb <> sb ->
  call (S (S d)) "mu_array_pop" [VP ab 0; VP eb 0] m =
    let* '(b, v, a) := mu_array_pop p a in Ok (truth b, Tbool, set_out (set_array m ab sb a) eb v).
Proof.
  intros H Hv He1 He2. pose proof H as H'. start H. csteps. unfold mu_array_pop. destruct (negb _) eqn:Hf; csteps.
  - assert (a_cnt a <> 0). { unfold mu_array_is_empty in Hf. destruct (Z.eqb_spec (a_cnt a) 0); done. }
    rewrite (to_size_id p (a_cnt a - 1)) in * by lia. csteps.
    destruct (ld_ex (a_store a) (a_cnt a - 1)) as (x & _ & E); [lia|]. csteps. fin.
  - rewrite set_same by done. done.
Qed.
Lemma src_peek d m ab sb eb a v0 : array_at m ab sb a -> heap m !! eb = Some [v0] -> eb <> ab -> eb <> sb ->
  call (S (S d)) "mu_array_peek" [VP ab 0; VP eb 0] m =
    let* '(b, v) := mu_array_peek p a in Ok (truth b, Tbool, set_out m eb v).
Proof.
  intros H Hv He1 He2. pose proof H as H'. start H. csteps. unfold mu_array_peek. destruct (negb _) eqn:Hf; csteps.
  - assert (a_cnt a <> 0). { unfold mu_array_is_empty in Hf. destruct (Z.eqb_spec (a_cnt a) 0); done. }
    rewrite (to_size_id p (a_cnt a - 1)) in * by lia. csteps.
    destruct (ld_ex (a_store a) (a_cnt a - 1)) as (x & _ & E); [lia|]. csteps. fin.
  - done.
Qed.
Lemma src_ref d m ab sb eb a v0 i : array_at m ab sb a -> heap m !! eb = Some [v0] -> eb <> ab -> eb <> sb -> 0 <= i < size_mod p ->
  call (S d) "mu_array_ref" [VP ab 0; VP eb 0; VI i] m =
    let* '(b, v) := mu_array_ref a i in Ok (truth b, Tbool, set_out m eb v).
Proof.
  intros H Hv He1 He2 Hi. pose proof H as H'. start H. csteps. unfold mu_array_ref. destruct (i <? a_cnt a) eqn:Hf; csteps.
  - apply Z.ltb_lt in Hf. csteps. destruct (ld_ex (a_store a) i) as (x & _ & E); [lia|]. csteps. fin.
  - done.
Qed.
Lemma bytes_multiple x : to_size p (to_size p x * ptr_bytes p) mod ptr_bytes p = 0.
Proof.
  unfold to_size. assert (E : size_mod p = size_mod p / ptr_bytes p * ptr_bytes p) by (destruct p; done).
  assert (0 < ptr_bytes p /\ 0 < size_mod p / ptr_bytes p) as [Hp Hq] by (destruct p; done). rewrite E at 2.
  rewrite Z.mul_mod_distr_r by lia. apply Z.mod_mul. lia.
Qed.
Lemma move_eq m sb l d s n : heap m !! sb = Some (VI <$> l) ->
  move_mem p array_prog m (Tptr Tvoid) (VP sb d) (VP sb s) (to_size p (to_size p n * ptr_bytes p)) =
    let* l := memmove l d s (move_elems p n) in Ok (set_items m sb l).
Proof.
  intros H. unfold move_mem, memmove. change (byte_size p array_prog (Tptr Tvoid)) with (ptr_bytes p).
  rewrite bytes_multiple. cbn [negb Z.eqb]. rewrite H. cbn [ofopt bind]. change (cells array_prog (Tptr Tvoid)) with 1.
  rewrite Z.mul_1_r. fold (move_elems p n). rewrite fmap_length. 
  replace ((0 <=? move_elems p n) && (0 <=? s) && (s + move_elems p n <=? Z.of_nat (length l)) && (0 <=? d) && (d + move_elems p n <=? Z.of_nat (length l)))
    with ((0 <=? move_elems p n) && (0 <=? d) && (0 <=? s) && (d + move_elems p n <=? Z.of_nat (length l)) && (s + move_elems p n <=? Z.of_nat (length l))).
  2: { destruct (0 <=? _), (0 <=? d), (0 <=? s), (d + _ <=? _), (s + _ <=? _); done. }
  destruct (_ && _); [|done]. cbn [bind]. unfold set_items. rewrite !fmap_app, !fmap_take, !fmap_drop. done.
Qed.
Lemma src_insert d m ab sb a x i0 i : array_at m ab sb a -> to_size p i0 = i ->
  call (S (S d)) "mu_array_insert" [VP ab 0; VI x; VI i0] m =
    let* '(b, a) := mu_array_insert p a x i in Ok (truth b, Tbool, set_array m ab sb a).
Proof.
  intros H Hi0. pose proof (to_size_range p i0) as Hi. pose proof H as H'. start H. csteps. rewrite Hi0 in *. unfold mu_array_insert. destruct (mu_array_is_full a) eqn:Hf; csteps.
  { cbn [orb bind]. rewrite set_same by done. done. }
  cbn [orb]. destruct (a_cnt a <? i) eqn:Hlt; csteps.
  { cbn [orb bind]. rewrite set_same by done. done. }
  destruct (i =? a_cnt a) eqn:He; csteps.
  - destruct (st (a_store a) (a_cnt a) x) as [s'| |] eqn:E; csteps; [|done|by apply st_noNF in E]. fin.
  - apply Z.ltb_ge in Hlt. apply Z.eqb_neq in He. csteps. rewrite (to_size_id p (i + 1)) by lia. csteps.
    fold (to_int (to_size p (a_cnt a - i))). change (byte_size p array_prog (Tptr Tvoid)) with (ptr_bytes p).
    rewrite (to_size_id p (ptr_bytes p)) by (destruct p; done).
    erewrite move_eq by eassumption.
    destruct (memmove (a_store a) (i + 1) i _) as [l| |] eqn:E; csteps; [|done|by apply memmove_noNF in E].
    apply memmove_length in E. unfold set_items. csteps.
    destruct (st_ok_ex l i x) as (l' & E2); [lia|]. csteps. fin.
Qed.
Lemma src_delete d m ab sb eb a v0 i : array_at m ab sb a -> heap m !! eb = Some [v0] -> eb <> ab -> eb <> sb -> 0 <= i < size_mod p ->
  call (S (S d)) "mu_array_delete" [VP ab 0; VP eb 0; VI i] m =
    let* '(b, v, a) := mu_array_delete p a i in Ok (truth b, Tbool, set_out (set_array m ab sb a) eb v).
Proof.
  intros H Hv He1 He2 Hi. pose proof H as H'. start H. csteps. unfold mu_array_delete. destruct (mu_array_is_empty a) eqn:Hf; csteps.
  { cbn [orb bind]. rewrite set_same by done. done. }
  cbn [orb]. destruct (a_cnt a <=? i) eqn:Hlt; csteps.
  { cbn [orb bind]. rewrite set_same by done. done. }
  apply Z.leb_gt in Hlt. rewrite (to_size_id p (a_cnt a - 1)) by lia.
  destruct (i =? a_cnt a - 1) eqn:He; csteps.
  - rewrite (to_size_id p (a_cnt a - 1)) by lia. csteps.
    destruct (ld_ex (a_store a) (a_cnt a - 1)) as (x & _ & E); [lia|]. csteps. fin.
  - apply Z.eqb_neq in He. csteps. destruct (ld_ex (a_store a) i) as (x & _ & E); [lia|]. csteps.
    rewrite (to_size_id p (i + 1)) by lia. csteps.
    fold (to_int (to_size p (a_cnt a - i))). change (byte_size p array_prog (Tptr Tvoid)) with (ptr_bytes p).
    rewrite (to_size_id p (ptr_bytes p)) by (destruct p; done).
    erewrite move_eq by (cbn; rewrite lookup_insert_ne by done; eassumption).
    destruct (memmove (a_store a) i (i + 1) _) as [l| |] eqn:E2; csteps; [|done|by apply memmove_noNF in E2].
    unfold set_items. csteps. fin.
Qed.

(** ** Loops *)
Notation exec d := (exec p array_prog (call d) ext_ptr fuel).
Notation test d := (test p array_prog (call d) ext_ptr).
Definition env_index (ab : nat) (x i : Z) : env :=
  [("array", BReg (Tptr (Tstruct "mu_array_t")) (VP ab 0)); ("item", BReg (Tptr Tvoid) (VI x)); ("index", BReg Tsize (VI i))].
Definition test_index : expr := EBin Lt (EVar "index") (EArrow (EVar "array") "count").
Definition body_index : stmt :=
  SIf (EBin Eq (EIndex (EArrow (EVar "array") "storage") (EVar "index")) (EVar "item")) (SReturn (Some (EVar "index"))) SSkip.
(** a loop that returns an index, or goes on behind the loop *)
Definition found_or_next (e : Z -> env) (m : mem) (i' : Z) (r : res Z) : res (outcome * (env * mem)) :=
  let* r := r in Ok (if r =? MU_ARRAY_NOT_FOUND p then Next else Returned (VI r) Tsize, (e i', m)).
Lemma index_loop_src d m ab sb a x : array_at m ab sb a -> forall k n i, (k < n)%nat -> 0 <= i < size_mod p ->
  index_loop p k (a_store a) (a_cnt a) x i <> NoFuel ->
  exists i', loop n (test d test_index) (exec d body_index) (exec d (SExpr (EPost Add (EVar "index")))) (env_index ab x i, m) =
    found_or_next (env_index ab x) m i' (index_loop p k (a_store a) (a_cnt a) x i).
Proof.
  intros [H1 H2 Hne Hc Hn Hl]. unfold acells in *. induction k as [|k IH]; intros [|n] i Hk Hi HN; try lia;
    rewrite loop_S; unfold test_index, body_index, env_index at 1; cbn [index_loop] in *.
  - destruct (i <? a_cnt a) eqn:E; [done|]. exists i. csteps.
    unfold found_or_next. cbn [bind]. rewrite Z.eqb_refl. done.
  - destruct (i <? a_cnt a) eqn:E.
    2: { exists i. csteps. unfold found_or_next. cbn [bind]. rewrite Z.eqb_refl. done. }
    apply Z.ltb_lt in E as E'. destruct (ld_ex (a_store a) i) as (y & _ & Ey); [lia|]. rewrite Ey in *. cbn [bind] in *.
    destruct (y =? x) eqn:Ex.
    + exists i. csteps. unfold found_or_next. cbn [bind].
      rewrite (proj2 (Z.eqb_neq i (MU_ARRAY_NOT_FOUND p))) by (unfold MU_ARRAY_NOT_FOUND, size_max; lia). done.
    + destruct (IH n (to_size p (i + 1)) ltac:(lia) (to_size_range p _) HN) as (i' & Hr). exists i'. rewrite <- Hr.
      csteps. done.
Qed.
Lemma NF_range : 0 <= MU_ARRAY_NOT_FOUND p < size_mod p.
Proof. unfold MU_ARRAY_NOT_FOUND, size_max. pose proof (size_mod_big p). lia. Qed.
Lemma index_loop_range s cnt x : forall k i r, 0 <= i < size_mod p -> index_loop p k s cnt x i = Ok r -> 0 <= r < size_mod p.
Proof.
  pose proof NF_range. induction k as [|k IH]; intros i r Hi; cbn [index_loop]; destruct (i <? cnt); try done; try (intros [= <-]; lia).
  destruct (ld s i); cbn; try done. destruct (_ =? _); [intros [= <-]; lia|]. apply IH, to_size_range.
Qed.
Lemma minus1 : to_size p (wrap_signed 4294967296 (-1)) = MU_ARRAY_NOT_FOUND p.
Proof. change (wrap_signed 4294967296 (-1)) with (-1). apply to_size_neg1. Qed.
(** what follows the loops of mu_array_index and mu_array_rindex *)
Ltac after_loop r E :=
  destruct (r =? MU_ARRAY_NOT_FOUND p) eqn:E; csteps; [|done];
  apply Z.eqb_eq in E; change (Z.opp 1) with (-1); rewrite (to_size_neg1 p); fold (MU_ARRAY_NOT_FOUND p); pose proof NF_range; csteps; rewrite E; done.
Lemma src_index d m ab sb a x : array_at m ab sb a -> mu_array_index p a x <> NoFuel -> (Z.to_nat (a_cnt a) < fuel)%nat ->
  call (S d) "mu_array_index" [VP ab 0; VI x] m = let* r := mu_array_index p a x in Ok (VI r, Tsize, m).
Proof.
  intros H HN Hf. pose proof H as H'. start H. csteps. rewrite exec_SLoop.
  destruct (index_loop_src d m ab sb a x H' (Z.to_nat (a_cnt a)) fuel 0 Hf ltac:(lia) HN) as (i' & Hr).
  unfold test_index, body_index, env_index in Hr. rewrite Hr. clear Hr. fold (mu_array_index p a x). unfold found_or_next.
  destruct (mu_array_index p a x) as [r| |] eqn:E; csteps; [|done|done].
  pose proof (index_loop_range (a_store a) (a_cnt a) x _ 0 r ltac:(lia) E). after_loop r E1.
Qed.
Definition test_rindex : expr := EBin Ne (EVar "index") (ECast Tsize (ENeg (EInt 1))).
Lemma rindex_loop_src d m ab sb a x : array_at m ab sb a -> forall k n i, (k < n)%nat -> 0 <= i < a_cnt a \/ i = MU_ARRAY_NOT_FOUND p ->
  rindex_loop p k (a_store a) x i <> NoFuel ->
  exists i', loop n (test d test_rindex) (exec d body_index) (exec d (SExpr (EPost Sub (EVar "index")))) (env_index ab x i, m) =
    found_or_next (env_index ab x) m i' (rindex_loop p k (a_store a) x i).
Proof.
  intros [H1 H2 Hne Hc Hn Hl]. pose proof NF_range as HNF. unfold acells in *. induction k as [|k IH]; intros [|n] i Hk Hi HN; try lia;
    rewrite loop_S; unfold test_rindex, body_index, env_index at 1; cbn [rindex_loop] in *;
    (destruct (i =? MU_ARRAY_NOT_FOUND p) eqn:E; [exists i|]); cbn [negb] in *; try done.
  - csteps. change (Z.opp 1) with (-1). rewrite (to_size_neg1 p). fold (MU_ARRAY_NOT_FOUND p). csteps.
    unfold found_or_next. cbn [bind]. rewrite Z.eqb_refl. done.
  - csteps. change (Z.opp 1) with (-1). rewrite (to_size_neg1 p). fold (MU_ARRAY_NOT_FOUND p). csteps.
    unfold found_or_next. cbn [bind]. rewrite Z.eqb_refl. done.
  - apply Z.eqb_neq in E as E'. destruct Hi as [Hi|]; [|done]. destruct (ld_ex (a_store a) i) as (y & _ & Ey); [lia|]. rewrite Ey in *. cbn [bind] in *.
    destruct (y =? x) eqn:Ex.
    + exists i. csteps. change (Z.opp 1) with (-1). rewrite (to_size_neg1 p). fold (MU_ARRAY_NOT_FOUND p). csteps.
      unfold found_or_next. cbn [bind]. rewrite E. done.
    + destruct (IH n (to_size p (i - 1)) ltac:(lia)) as (i' & Hr); [|exact HN|].
      { destruct (decide (i = 0)) as [->|]; [right; apply to_size_neg1|left; rewrite to_size_id by lia; lia]. }
      exists i'. rewrite <- Hr. csteps. change (Z.opp 1) with (-1). rewrite (to_size_neg1 p). fold (MU_ARRAY_NOT_FOUND p). csteps. done.
Qed.
Lemma rindex_loop_range s x : forall k i r, 0 <= i < size_mod p -> rindex_loop p k s x i = Ok r -> 0 <= r < size_mod p.
Proof.
  pose proof NF_range. induction k as [|k IH]; intros i r Hi; cbn [rindex_loop]; destruct (negb _); try done; try (intros [= <-]; lia).
  destruct (ld s i); cbn; try done. destruct (_ =? _); [intros [= <-]; lia|]. apply IH, to_size_range.
Qed.
Lemma src_rindex d m ab sb a x : array_at m ab sb a -> mu_array_rindex p a x <> NoFuel -> (Z.to_nat (a_cnt a) < fuel)%nat ->
  call (S d) "mu_array_rindex" [VP ab 0; VI x] m = let* r := mu_array_rindex p a x in Ok (VI r, Tsize, m).
Proof.
  intros H HN Hf. pose proof H as H'. start H. csteps. rewrite exec_SLoop.
  destruct (rindex_loop_src d m ab sb a x H' (Z.to_nat (a_cnt a)) fuel (to_size p (a_cnt a - 1)) Hf) as (i' & Hr); [|exact HN|].
  { destruct (decide (a_cnt a = 0)) as [->|]; [right; apply to_size_neg1|left; rewrite to_size_id by lia; lia]. }
  unfold test_rindex, body_index, env_index in Hr. rewrite Hr. clear Hr. fold (mu_array_rindex p a x). unfold found_or_next.
  destruct (mu_array_rindex p a x) as [r| |] eqn:E; csteps; [|done|done].
  pose proof (rindex_loop_range (a_store a) x _ _ r (to_size_range p _) E). after_loop r E1.
Qed.

(** ** Sorting *)
(** reading item [idx]: by cases on whether it exists *)
Ltac at_ l idx e E :=
  destruct (ld l idx) as [e| |] eqn:E;
  [ pose proof (ld_bounds _ _ _ E)
  | pose proof (ld_UB _ _ E); cbn [bind]; destruct (decide (idx = Z.of_nat (length l)));
    [ csteps; reflexivity | rewrite ptr_in_ub by (rewrite fmap_length in *; lia); csteps; reflexivity ]
  | exfalso; eapply ld_noNF; eassumption ].
Lemma to_int_range z : int_min <= to_int z <= int_max.
Proof. unfold to_int. pose proof (wrap_signed_range 4294967296 z ltac:(done) eq_refl). change (4294967296 / 2) with 2147483648 in *. unfold int_min, int_max. lia. Qed.
Lemma src_swap d m sb l a0 b0 a b : heap m !! sb = Some (VI <$> l) -> to_int a0 = a -> to_int b0 = b ->
  call (S d) "swap" [VP sb 0; VI a0; VI b0] m = let* l := swap l a b in Ok (VI 0, Tvoid, set_items m sb l).
Proof.
  intros H Ha Hb. pose proof (to_int_range a0). pose proof (to_int_range b0). rewrite Ha, Hb in *. unfold to_int in Ha, Hb.
  erewrite call_S by reflexivity. unfold swap. csteps. rewrite Ha. csteps.
  at_ l a t Ea. csteps. rewrite ?Hb. csteps. at_ l b y Eb. csteps.
  destruct (st_ok_ex l a y) as (l' & El'); [lia|]. csteps. cbn [bind].
  pose proof (st_len _ _ _ _ El'). csteps. destruct (st_ok_ex l' b t) as (l2 & El2); [lia|]. csteps.  unfold set_items. done.
Qed.
Section cmp.
Context (fv : val) (cmp : Z -> Z -> Z) (Hfv : defined fv = Ok fv) (Hcmp : forall x y m, ext_ptr fv [VI x; VI y] m = Ok (VI (cmp x y), int, m))
  (Hcr : forall x y, int_min <= cmp x y <= int_max).
Definition env_sift (sb : nat) (start e root : Z) (child : val) : env :=
  [("items", BReg (Tptr (Tptr Tvoid)) (VP sb 0)); ("cmp", BReg (Tptr Tfn) fv); ("start", BReg int (VI start)); ("end", BReg int (VI e));
   ("root", BReg int (VI root)); ("child", BReg int child)].
Definition test_sift : expr := EBin Le (EBin Add (EBin Mul (EVar "root") (EInt 2)) (EInt 1)) (EVar "end").
Definition body_sift : stmt :=
  SSeq (SDecl "child" (Some (EBin Add (EBin Mul (EVar "root") (EInt 2)) (EInt 1))))
        (SSeq (SIf (EAnd (EBin Le (EBin Add (EVar "child") (EInt 1)) (EVar "end")) (EBin Lt (ECall "cmp" [EIndex (EVar "items") (EVar "child"); EIndex (EVar "items") (EBin Add (EVar "child") (EInt 1))]) (EInt 0)))
            (SExpr (EAssignOp Add (EVar "child") (EInt 1)))
            SSkip)
          (SIf (EBin Lt (ECall "cmp" [EIndex (EVar "items") (EVar "root"); EIndex (EVar "items") (EVar "child")]) (EInt 0))
            (SSeq (SExpr (ECall "swap" [EVar "items"; EVar "root"; EVar "child"]))
              (SExpr (EAssign (EVar "root") (EVar "child"))))
            (SReturn None))).
Ltac cs := repeat first [cstep | hstep | rewrite Hcmp].
Ltac call_hook ::= erewrite src_swap by (first [eassumption | apply to_int_id; first [lia | unfold int_min, int_max; lia] | reflexivity]).
Definition ends (r : res (outcome * (env * mem))) (sb : nat) (m : mem) (l : res (list Z)) : Prop :=
  match l with
  | Ok l => exists o e, r = Ok (o, (e, set_items m sb l)) /\ (o = Next \/ o = Returned (VI 0) Tvoid)
  | UB => r = UB
  | NoFuel => True
  end.
Lemma ends_eq r r' sb m l : r = r' -> ends r' sb m l -> ends r sb m l.
Proof. intros ->. done. Qed.
Lemma set_set m sb l l' : set_items (set_items m sb l) sb l' = set_items m sb l'.
Proof. unfold set_items. cbn. rewrite insert_insert. done. Qed.
Lemma swap_noNF l i j : swap l i j <> NoFuel.
Proof.
  unfold swap. destruct (ld l i) as [x| |] eqn:E; cbn; [|done|by apply ld_noNF in E].
  destruct (ld l j) as [y| |] eqn:E'; cbn; [|done|by apply ld_noNF in E'].
  unfold st. repeat (case_match; cbn; try done).
Qed.
(** the same when [ld l idx] is already known to be undefined *)
Ltac ubld l idx E :=
  pose proof (ld_UB _ _ E); cs;
  first [reflexivity | destruct (decide (idx = Z.of_nat (length l)));
    [ cs; reflexivity | rewrite ptr_in_ub by (rewrite fmap_length in *; lia); cs; reflexivity ] ].
Lemma sift_loop_src d sb start e : int_min <= e <= int_max -> forall k n l m root child, (k < n)%nat ->
  int_min <= root <= int_max -> heap m !! sb = Some (VI <$> l) ->
  ends (loop n (test (S d) test_sift) (exec (S d) body_sift) (exec (S d) SSkip) (env_sift sb start e root child, m)) sb m (sift_loop cmp k l root e).
Proof.
  intros He. induction k as [|k IH]; intros [|n] l m root child Hk Hroot Hm; try lia;
    rewrite loop_S; unfold test_sift, body_sift, env_sift at 1; cbn [sift_loop] in *; unfold imul, iadd.
  - destruct (ichk (root * 2)) as [r2| |] eqn:E2; cbn [bind ends]; [|cs; done|done].
    apply ichk_range in E2 as [<- H2].
    destruct (ichk (root * 2 + 1)) as [lc| |] eqn:E3; cbn [bind ends]; [|cs; done|done].
    apply ichk_range in E3 as [<- H3].
    destruct (root * 2 + 1 <=? e) eqn:E4; cbn [ends]; [done|]. eexists _, _. rewrite set_items_same by done. split; [cs; reflexivity|]. by left.
  - destruct (ichk (root * 2)) as [r2| |] eqn:E2; cbn [bind ends]; [|cs; done|done].
    apply ichk_range in E2 as [<- H2].
    destruct (ichk (root * 2 + 1)) as [lc| |] eqn:E3; cbn [bind ends]; [|cs; done|done].
    apply ichk_range in E3 as [<- H3].
    destruct (root * 2 + 1 <=? e) eqn:E4; cbn [ends].
    2: { eexists _, _. rewrite set_items_same by done. split; [cs; reflexivity|]. by left. }
    destruct (ichk (root * 2 + 1 + 1)) as [c1| |] eqn:E5; cbn [bind]; [|cbn [ends]; cs; done|done].
    apply ichk_range in E5 as [<- H5].
    assert (Hrest : forall c, int_min <= c <= int_max ->
       ends (let* '(o, s) := exec (S d) (SIf (EBin Lt (ECall "cmp" [EIndex (EVar "items") (EVar "root"); EIndex (EVar "items") (EVar "child")]) (EInt 0))
            (SSeq (SExpr (ECall "swap" [EVar "items"; EVar "root"; EVar "child"]))
              (SExpr (EAssign (EVar "root") (EVar "child"))))
            (SReturn None)) (env_sift sb start e root (VI c), m) in
          match o with
          | Next | Continued => let* '(_, s) := exec (S d) SSkip s in loop n (test (S d) test_sift) (exec (S d) body_sift) (exec (S d) SSkip) s
          | Broke => Ok (Next, s)
          | Returned v t => Ok (Returned v t, s)
          end) sb m (let* x := ld l root in let* y := ld l c in
      if cmp x y <? 0 then let* items := swap l root c in sift_loop cmp k items c e else Ok l)).
    { intros c Hc. unfold env_sift at 1.

      destruct (ld l root) as [x| |] eqn:Er; cbn [bind ends]; [pose proof (ld_bounds _ _ _ Er)|ubld l root Er|by apply ld_noNF in Er].
      destruct (ld l c) as [y| |] eqn:Ey; cbn [bind ends]; [pose proof (ld_bounds _ _ _ Ey)|ubld l c Ey|by apply ld_noNF in Ey].
      specialize (Hcr x y). destruct (cmp x y <? 0) eqn:E6; cbn [ends].
      2: { eexists _, _. rewrite set_items_same by done. split; [cs; reflexivity|]. by right. }
      destruct (swap l root c) as [l'| |] eqn:Es; cbn [bind]; [|cbn [ends]; cs; done|by apply swap_noNF in Es].
      eapply ends_eq; [cs; reflexivity|].
      specialize (IH n l' (set_items m sb l') c (VI c) ltac:(lia) Hc). unfold ends, env_sift in *.
      destruct (sift_loop cmp k l' c e) as [l2| |]; [|apply IH; unfold set_items; cbn; by rewrite lookup_insert|done].
      destruct IH as (o & ee & -> & Ho); [unfold set_items; cbn; by rewrite lookup_insert|]. rewrite set_set. by eexists _, _. }
    unfold test_sift, body_sift in Hrest.
    set (R := SIf (EBin Lt (ECall "cmp" [EIndex (EVar "items") (EVar "root"); EIndex (EVar "items") (EVar "child")]) (EInt 0)) _ _) in *.
    clearbody R. unfold env_sift in Hrest.
    destruct (root * 2 + 1 + 1 <=? e) eqn:E7; cbn [bind].
    + destruct (ld l (root * 2 + 1)) as [x| |] eqn:Ex; cbn [bind]; [pose proof (ld_bounds _ _ _ Ex)|cbn [ends]; ubld l (root * 2 + 1) Ex|by apply ld_noNF in Ex].
      destruct (ld l (root * 2 + 1 + 1)) as [y| |] eqn:Ey; cbn [bind]; [pose proof (ld_bounds _ _ _ Ey)|cbn [ends]; ubld l (root * 2 + 1 + 1) Ey|by apply ld_noNF in Ey].
      specialize (Hcr x y). destruct (cmp x y <? 0) eqn:E8; cbn [bind].
      * eapply ends_eq, (Hrest (root * 2 + 1 + 1)); [|lia]. cs. done.
      * eapply ends_eq, (Hrest (root * 2 + 1)); [|lia]. cs. done.
    + eapply ends_eq, (Hrest (root * 2 + 1)); [|lia]. cs. done.
Qed.
Lemma src_sift_down d m sb l start e0 e : int_min <= start <= int_max -> to_int e0 = e -> (Z.to_nat (e - start) < fuel)%nat ->
  heap m !! sb = Some (VI <$> l) -> sift_down cmp l start e <> NoFuel ->
  call (S (S d)) "sift_down" [VP sb 0; fv; VI start; VI e0] m = let* l := sift_down cmp l start e in Ok (VI 0, Tvoid, set_items m sb l).
Proof.
  intros Hs He0 Hf Hm HN. pose proof (to_int_range e0) as He. rewrite He0 in He. unfold to_int in He0.
  erewrite call_S by reflexivity. cs. rewrite He0, exec_SLoop.
  pose proof (sift_loop_src d sb start e He (Z.to_nat (e - start)) fuel l m start VU Hf Hs Hm) as H.
  unfold ends, test_sift, body_sift, env_sift in H. fold (sift_down cmp l start e) in H. 
  destruct (sift_down cmp l start e) as [l'| |]; cbn [bind]; [|rewrite H|done].
  { destruct H as (o & ee & -> & [-> | ->]); cs; done. }
  cs. done.
Qed.
Definition big_fuel (l : list Z) : Prop := 4294967296 + Z.of_nat (length l) < Z.of_nat fuel.
Lemma sift_fuel l s e : big_fuel l -> int_min <= s <= int_max -> int_min <= e <= int_max -> (Z.to_nat (e - s) < fuel)%nat.
Proof. unfold big_fuel, int_min, int_max. lia. Qed.
Ltac call_hook ::= erewrite src_sift_down by (first [eassumption | lia | solve [unfold int_min, int_max; lia] | congruence | apply to_int_id; first [lia | unfold int_min, int_max; lia] | reflexivity | eapply sift_fuel; [eassumption|first [lia|unfold int_min, int_max; lia]|lia]]).
Definition env_heap (sb : nat) (count start : Z) : env :=
  [("items", BReg (Tptr (Tptr Tvoid)) (VP sb 0)); ("count", BReg Tsize (VI count)); ("cmp", BReg (Tptr Tfn) fv); ("start", BReg int (VI start))].
Definition test_heap : expr := EBin Ge (EVar "start") (EInt 0).
Definition body_heap : stmt :=
      (SSeq (SExpr (ECall "sift_down" [EVar "items"; EVar "cmp"; EVar "start"; EBin Sub (EVar "count") (EInt 1)]))
        (SExpr (EAssignOp Sub (EVar "start") (EInt 1)))).
Lemma swap_length l l' i j : swap l i j = Ok l' -> length l' = length l.
Proof.
  unfold swap. destruct (ld l i); cbn; try done. destruct (ld l j); cbn; try done. destruct (st l i _) eqn:E; cbn; try done.
  intros H. apply st_len in E, H. lia.
Qed.
Lemma sift_length : forall k l l' root e, sift_loop cmp k l root e = Ok l' -> length l' = length l.
Proof.
  induction k as [|k IH]; intros l l' root e; cbn [sift_loop]; destruct (imul root 2); cbn; try done; destruct (iadd _ 1); cbn; try done;
    destruct (_ <=? e); try done; try (intros [= <-]; done).
  destruct (iadd _ 1); cbn; try done.
  match goal with |- bind ?h _ = _ -> _ => destruct h as [c| |]; cbn; try done end.
  destruct (ld l root); cbn; try done. destruct (ld l c); cbn; try done. destruct (_ <? 0); try (intros [= <-]; done).
  destruct (swap l root c) eqn:E; cbn; try done. intros H. apply IH in H. apply swap_length in E. lia.
Qed.
Lemma heapify_loop_length e : forall k l l' st, heapify_loop cmp k l st e = Ok l' -> length l' = length l.
Proof.
  induction k as [|k IH]; intros l l' st; cbn [heapify_loop]; destruct (0 <=? st); try done; try (intros [= <-]; done).
  destruct (sift_down cmp l st e) eqn:E; cbn; try done. destruct (isub st 1); cbn; try done. intros H. apply IH in H. apply sift_length in E. lia.
Qed.
Lemma heapify_length l l' c : heapify p cmp l c = Ok l' -> length l' = length l.
Proof. apply heapify_loop_length. Qed.
Lemma heap_loop_src d sb count : 0 <= count < size_mod p -> forall k n l m start, (k < n)%nat -> big_fuel l ->
  int_min <= start <= int_max -> heap m !! sb = Some (VI <$> l) -> heapify_loop cmp k l start (to_int (to_size p (count - 1))) <> NoFuel ->
  (let* '(o, (ee, m)) := loop n (test (S (S (S d))) test_heap) (exec (S (S (S d))) body_heap) (exec (S (S (S d))) SSkip) (env_heap sb count start, m) in Ok (o, m)) =
  let* l := heapify_loop cmp k l start (to_int (to_size p (count - 1))) in Ok (Next, set_items m sb l).
Proof.
  intros Hcnt. pose proof (to_int_range (to_size p (count - 1))) as Her.
  induction k as [|k IH]; intros [|n] l m start Hk Hb Hs Hm HN; try lia;
    rewrite loop_S; unfold test_heap, body_heap, env_heap at 1; cbn [heapify_loop] in *.
  - destruct (0 <=? start) eqn:E; [done|]. cs. rewrite set_items_same by done. done.
  - destruct (0 <=? start) eqn:E. 2: { cs. rewrite set_items_same by done. done. }
    destruct (sift_down cmp l start (to_int (to_size p (count - 1)))) as [l'| |] eqn:Es; cbn [bind] in *; [| |done].
    + cs. cbn [bind]. destruct (isub start 1) as [s'| |] eqn:E1; cbn [bind] in *; [|unfold isub in *; cs; done|unfold isub in *; cs; done].
      apply ichk_range in E1 as [<- Hs'].
      pose proof (IH n l' (set_items m sb l') (start - 1) ltac:(lia)) as H. unfold big_fuel in *. rewrite (sift_length _ _ _ _ _ Es) in H.
      specialize (H Hb Hs' ltac:(unfold set_items; cbn; apply lookup_insert) HN).
      unfold test_heap, body_heap, env_heap in H. cs. rewrite H. clear. 
      destruct (heapify_loop _ _ _ _ _); cbn [bind]; rewrite ?set_set; done.
    + cs. done.
Qed.
Lemma src_heapify d m sb l count : 0 <= count < size_mod p -> big_fuel l -> heap m !! sb = Some (VI <$> l) -> heapify p cmp l count <> NoFuel ->
  call (S (S (S (S d)))) "heapify" [VP sb 0; VI count; fv] m = let* l := heapify p cmp l count in Ok (VI 0, Tvoid, set_items m sb l).
Proof.
  intros Hc Hf Hm HN. erewrite call_S by reflexivity. cs.
  rewrite (to_size_id p (to_size p (count - 2) / 2)).
  2: { pose proof (to_size_range p (count - 2)). split; [apply Z.div_pos; lia|]. apply Z.div_lt_upper_bound; lia. }
  fold (to_int (to_size p (count - 2) / 2)). rewrite exec_SLoop.
  pose proof (to_int_range (to_size p (count - 2) / 2)) as Hr.
  pose proof (heap_loop_src d sb count Hc (Z.to_nat (to_int (to_size p (count - 2) / 2) + 1)) fuel l m (to_int (to_size p (count - 2) / 2))) as H.
  specialize (H ltac:(unfold big_fuel, int_min, int_max in *; lia) Hf Hr Hm HN).
  unfold test_heap, body_heap, env_heap in H. unfold heapify.
  destruct (heapify_loop cmp (Z.to_nat (to_int (to_size p (count - 2) / 2) + 1)) l _ _) as [l'| |];  
  match type of H with bind ?x _ = _ => destruct x as [[o [ee m']]| |]; cbn [bind] in *; try done end.
  injection H as -> ->. cs. done.
Qed.
Ltac call_hook ::= first [
  erewrite src_sift_down by (first [eassumption | lia | solve [unfold int_min, int_max; lia] | congruence | apply to_int_id; first [lia | unfold int_min, int_max; lia] | reflexivity | eapply sift_fuel; [eassumption|first [lia|unfold int_min, int_max; lia]|lia]]) |
  erewrite src_swap by (first [eassumption | apply to_int_id; first [lia | unfold int_min, int_max; lia] | reflexivity])].
Definition env_sort (ab sb : nat) (count e : Z) : env :=
  [("array", BReg (Tptr (Tstruct "mu_array_t")) (VP ab 0)); ("cmp", BReg (Tptr Tfn) fv); ("items", BReg (Tptr Tvoid) (VP sb 0));
   ("count", BReg Tsize (VI count)); ("end", BReg Tsize (VI e))].
Definition test_sort : expr := EBin Gt (EVar "end") (EInt 0).
Definition body_sort : stmt :=
                (SSeq (SExpr (ECall "swap" [EVar "items"; EVar "end"; EInt 0]))
                  (SSeq (SExpr (EAssignOp Sub (EVar "end") (EInt 1)))
                    (SExpr (ECall "sift_down" [EVar "items"; EVar "cmp"; EInt 0; EVar "end"])))).
Lemma heap_set m sb l : heap (set_items m sb l) !! sb = Some (VI <$> l).
Proof. unfold set_items. cbn. apply lookup_insert. Qed.
Lemma sort_loop_src d ab sb count : forall k n l m e, (k < n)%nat -> big_fuel l -> 0 <= e < size_mod p ->
  heap m !! sb = Some (VI <$> l) -> sort_loop p cmp k l e <> NoFuel ->
  exists e', loop n (test (S (S (S d))) test_sort) (exec (S (S (S d))) body_sort) (exec (S (S (S d))) SSkip) (env_sort ab sb count e, m) =
    let* l := sort_loop p cmp k l e in Ok (Next, (env_sort ab sb count e', set_items m sb l)).
Proof.
  induction k as [|k IH]; intros [|n] l m e Hk Hb He Hm HN; try lia;
    rewrite loop_S; unfold test_sort, body_sort, env_sort at 1; cbn [sort_loop] in *.
  - destruct (0 <? e) eqn:E; [done|]. exists e. cs. rewrite set_items_same by done. done.
  - destruct (0 <? e) eqn:E. 2: { exists e. cs. rewrite set_items_same by done. done. }
    destruct (swap l (to_int e) 0) as [l1| |] eqn:Es; cbn [bind] in *; [|exists 0; cs; done|done].
    assert (Hb1 : big_fuel l1) by (unfold big_fuel in *; rewrite (swap_length _ _ _ _ Es); done).
    pose proof (heap_set m sb l1) as Hm1. pose proof (to_size_range p (e - 1)). pose proof (to_int_range (to_size p (e - 1))).
    destruct (sift_down cmp l1 0 (to_int (to_size p (e - 1)))) as [l2| |] eqn:E2; cbn [bind] in *; [|exists 0; cs; done|done].
    destruct (IH n l2 (set_items (set_items m sb l1) sb l2) (to_size p (e - 1)) ltac:(lia)) as (e' & Hr); [|done|apply heap_set|done|].
    { unfold big_fuel in *. rewrite (sift_length _ _ _ _ _ E2). done. }
    exists e'. unfold test_sort, body_sort, env_sort in *. cs.
    destruct (sort_loop p cmp k l2 (to_size p (e - 1))); cbn [bind]; rewrite ?set_set; done.
Qed.
Ltac call_hook ::= erewrite src_heapify by (first [eassumption | lia | congruence]).
Lemma src_sort d m ab sb a : array_at m ab sb a -> big_fuel (a_store a) -> mu_array_sort p cmp a <> NoFuel ->
  call (S (S (S (S (S d))))) "mu_array_sort" [VP ab 0; fv] m = let* a := mu_array_sort p cmp a in Ok (VP ab 0, Tptr (Tstruct "mu_array_t"), set_array m ab sb a).
Proof.
  intros H Hf HN. pose proof H as H'. start H. unfold mu_array_sort in *. destruct (0 <? a_cnt a) eqn:E.
  2: { cs. cbn. rewrite set_same by done. done. }
  destruct (heapify p cmp (a_store a) (a_cnt a)) as [l1| |] eqn:E1; cbn [bind] in *; [|cs; done|done].
  cs. rewrite exec_SLoop. set (e := to_size p (a_cnt a - 1)) in *.
  assert (He : e = a_cnt a - 1) by (apply Z.ltb_lt in E; unfold e; apply to_size_id; lia).
  assert (Hlen : length l1 = length (a_store a)) by exact (heapify_length _ _ _ E1).
  destruct (sort_loop_src (S d) ab sb (a_cnt a) (Z.to_nat e) fuel l1 (set_items m sb l1) e) as (e' & Hr).
  { unfold big_fuel in Hf. lia. } { unfold big_fuel in *. rewrite Hlen. done. } { lia. } { apply heap_set. }
  { destruct (sort_loop p cmp _ l1 e); done. }
  unfold test_sort, body_sort, env_sort in Hr. 
  destruct (sort_loop p cmp (Z.to_nat e) l1 e) as [l2| |]; cs; [|done|done]. cbn [bind].
  rewrite set_set. unfold set_array, set_items, acells. cbn. do 2 f_equal. mem_eq.
Qed.
Definition env_find (ab : nat) (item low high : Z) (mid : val) : env :=
  [("array", BReg (Tptr (Tstruct "mu_array_t")) (VP ab 0)); ("item", BReg (Tptr Tvoid) (VI item)); ("cmp", BReg (Tptr Tfn) fv);
   ("low", BReg int (VI low)); ("high", BReg int (VI high)); ("mid", BReg int mid)].
Definition test_find : expr := EBin Le (EVar "low") (EVar "high").
Definition body_find : stmt :=
          (SSeq (SDecl "mid" (Some (EBin Div (EBin Add (EVar "low") (EVar "high")) (EInt 2))))
            (SIf (EBin Gt (ECall "cmp" [EIndex (EArrow (EVar "array") "storage") (EVar "mid"); EVar "item"]) (EInt 0))
              (SExpr (EAssign (EVar "high") (EBin Sub (EVar "mid") (EInt 1))))
              (SExpr (EAssign (EVar "low") (EBin Add (EVar "mid") (EInt 1)))))).
Lemma quot_range x : int_min <= x <= int_max -> int_min <= Z.quot x 2 <= int_max.
Proof. unfold int_min, int_max. intros H. pose proof (Z.quot_le_mono (-2147483648) x 2 ltac:(lia) ltac:(lia)).
  pose proof (Z.quot_le_mono x 2147483647 2 ltac:(lia) ltac:(lia)). change (Z.quot (-2147483648) 2) with (-1073741824) in *.
  change (Z.quot 2147483647 2) with 1073741823 in *. lia. Qed.
Lemma find_loop_src d m ab sb a item : array_at m ab sb a -> forall k n low high mid, (k < n)%nat ->
  int_min <= low <= int_max -> int_min <= high <= int_max -> find_loop cmp k (a_store a) item low high <> NoFuel ->
  exists h md, loop n (test d test_find) (exec d body_find) (exec d SSkip) (env_find ab item low high mid, m) =
    let* l := find_loop cmp k (a_store a) item low high in Ok (Next, (env_find ab item l h md, m)).
Proof.
  intros [H1 H2 Hne Hc Hn Hl]. unfold acells in *. set (l := a_store a) in *. clearbody l.
  induction k as [|k IH]; intros [|n] low high mid Hk Hlo Hhi HN; try lia;
    rewrite loop_S; unfold test_find, body_find, env_find at 1; cbn [find_loop] in *.
  - destruct (low <=? high) eqn:E; [done|]. exists high, mid. cs. done.
  - destruct (low <=? high) eqn:E. 2: { exists high, mid. cs. done. }
    unfold iadd, isub in *. destruct (ichk (low + high)) as [sum| |] eqn:E1; cbn [bind] in *; [|exists 0, VU; cs; done|done].
    apply ichk_range in E1 as [<- Hsum]. pose proof (quot_range _ Hsum) as Hq.
    destruct (ld l (Z.quot (low + high) 2)) as [v| |] eqn:E2; cbn [bind] in *; [pose proof (ld_bounds _ _ _ E2)|exists 0, VU|done].
    2: { ubld l (Z.quot (low + high) 2) E2. }
    specialize (Hcr v item). destruct (0 <? cmp v item) eqn:E3; cbn [bind] in *.
    + destruct (ichk (Z.quot (low + high) 2 - 1)) as [h| |] eqn:E4; cbn [bind] in *; [|exists 0, VU; cs; done|done].
      apply ichk_range in E4 as [<- Hh].
      destruct (IH n low (Z.quot (low + high) 2 - 1) (VI (Z.quot (low + high) 2)) ltac:(lia) Hlo Hh HN) as (h & md & Hr).
      exists h, md. unfold test_find, body_find, env_find in *. cs. done.
    + destruct (ichk (Z.quot (low + high) 2 + 1)) as [h| |] eqn:E4; cbn [bind] in *; [|exists 0, VU; cs; done|done].
      apply ichk_range in E4 as [<- Hh].
      destruct (IH n (Z.quot (low + high) 2 + 1) high (VI (Z.quot (low + high) 2)) ltac:(lia) Hh Hhi HN) as (h & md & Hr).
      exists h, md. unfold test_find, body_find, env_find in *. cs. done.
Qed.
Lemma src_find d m ab sb a item : array_at m ab sb a -> (Z.to_nat (a_cnt a) < fuel)%nat -> find_insertion_index p cmp a item <> NoFuel ->
  call (S d) "find_insertion_index" [VP ab 0; VI item; fv] m = let* i := find_insertion_index p cmp a item in Ok (VI i, Tsize, m).
Proof.
  intros H Hf HN. pose proof H as H'. start H. cs. rewrite exec_SLoop.
  fold (to_int (to_size p (a_cnt a - 1))). unfold find_insertion_index in *.
  destruct (find_loop_src d m ab sb a item H' (Z.to_nat (a_cnt a)) fuel 0 (to_int (to_size p (a_cnt a - 1))) VU Hf) as (h & md & Hr).
  { unfold int_min, int_max. lia. } { apply to_int_range. } { intros E. rewrite E in HN. done. }
  unfold test_find, body_find, env_find in Hr.
  destruct (find_loop cmp (Z.to_nat (a_cnt a)) (a_store a) item 0 (to_int (to_size p (a_cnt a - 1)))) as [i| |]; cs; done.
Qed.
Ltac call_hook ::= first [
  erewrite src_find by (first [eassumption | lia | congruence]) | erewrite src_count by eassumption |
  erewrite src_push by eassumption | erewrite src_insert by (first [eassumption | reflexivity]) ].
Lemma src_insert_sorted d m ab sb a item : array_at m ab sb a -> (Z.to_nat (a_cnt a) < fuel)%nat -> mu_array_insert_sorted p cmp a item <> NoFuel ->
  call (S (S (S (S d)))) "mu_array_insert_sorted" [VP ab 0; VI item; fv] m =
  let* '(r, a) := mu_array_insert_sorted p cmp a item in Ok (truth r, Tbool, set_array m ab sb a).
Proof.
  intros H Hf HN. pose proof H as H'. start H. unfold mu_array_insert_sorted in *. cs.
  destruct (mu_array_count a =? 0) eqn:E; cs.
  - destruct (mu_array_push p a item) as [[b a']| |] eqn:E1; cs; [|done|done]. destruct b; done.
  - destruct (find_insertion_index p cmp a item) as [i| |] eqn:E1; cbn [bind] in *; cs; [|done|done].
    fold (to_int i). destruct (mu_array_insert p a item (to_size p (to_int i))) as [[b a']| |] eqn:E2; cs; [|done|done]. destruct b; done.
Qed.
End cmp.
End array.
