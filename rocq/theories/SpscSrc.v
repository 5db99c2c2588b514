(** * mu_spsc: the translated source does what the model says *)
From Verif Require Import CSym SrcSpsc.
From Verif Require Import SpscModel.
Open Scope string_scope. Open Scope Z_scope.

(** mu_spsc.h: the numbers of the enumerators *)
Definition err_code (e : spsc_err) : Z :=
  match e with SPSC_NONE => 0 | SPSC_EMPTY => 1 | SPSC_FULL => 2 | SPSC_SIZE => 3 end.

Section spsc.
Context (p : plat) (fuel : nat) (ext : string -> list val -> mem -> res (val * ty * mem))
  (ext_ptr : val -> list val -> mem -> res (val * ty * mem)).
Notation call d := (call p spsc_prog fuel ext ext_ptr d).
Context (rep : Z -> val) (Hrep : forall x, defined (rep x) = Ok (rep x)) (Hnull : rep 0 = VI 0).
Notation u16 := (Tint false W16).
Notation enum := (Tint false W32).

Definition scells (sb : nat) (q : spsc) : list val := [VI (s_mask q); VI (s_head q); VI (s_tail q); VP sb 0].
Record spsc_at (m : mem) (qb sb : nat) (q : spsc) : Prop := {
  sa_obj : heap m !! qb = Some (scells sb q);
  sa_store : heap m !! sb = Some (rep <$> s_store q);
  sa_ne : qb <> sb;
  sa_mask : 0 <= s_mask q < 65536; sa_head : 0 <= s_head q < 65536; sa_tail : 0 <= s_tail q < 65536 }.
Definition set_spsc (m : mem) (qb sb : nat) (q : spsc) : mem :=
  MkMem (<[qb := scells sb q]> (<[sb := rep <$> s_store q]> (heap m))) (next m).
Definition set_var (m : mem) (b : nat) (v : val) : mem := MkMem (<[b := [v]]> (heap m)) (next m).
Lemma set_same m qb sb q : spsc_at m qb sb q -> set_spsc m qb sb q = m.
Proof.
  intros [H1 H2 _ _ _ _]. unfold set_spsc. destruct m as [h n]. cbn in *.
  rewrite (insert_id h sb), (insert_id h qb) by done. done.
Qed.
Lemma conv_u16 x : conv p u16 (VI x) = Ok (VI (to_u16 x)). Proof. done. Qed.
Lemma land_small a b : 0 <= a -> 0 <= b < 65536 -> 0 <= Z.land a b < 65536.
Proof.
  intros Ha Hb. replace (Z.land a b) with (Z.land a b mod 65536); [apply Z.mod_pos_bound; lia|].
  change 65536 with (2 ^ 16). rewrite <- Z.land_ones, <- Z.land_assoc, Z.land_ones by lia.
  rewrite (Z.mod_small b) by lia. done.
Qed.
Ltac res_eq := first [reflexivity | do 2 f_equal; mem_eq].
Ltac start H := destruct H as [H1 H2 Hne Hm Hh Ht]; unfold scells in *; erewrite call_S by reflexivity.

Lemma src_capacity d m qb sb q : spsc_at m qb sb q ->
  call (S d) "mu_spsc_capacity" [VP qb 0] m = Ok (VI (mu_spsc_capacity q), u16, m).
Proof. intros H. start H. csteps. done. Qed.
Lemma src_reset d m qb sb q : spsc_at m qb sb q ->
  call (S d) "mu_spsc_reset" [VP qb 0] m = let '(e, q) := mu_spsc_reset q in Ok (VI (err_code e), enum, set_spsc m qb sb q).
Proof. intros H. start H. csteps. unfold set_spsc, scells; cbn. res_eq. Qed.
Lemma src_put d m qb sb q x : spsc_at m qb sb q ->
  call (S d) "mu_spsc_put" [VP qb 0; rep x] m =
    let* '(e, q) := mu_spsc_put q x in Ok (VI (err_code e), enum, set_spsc m qb sb q).
Proof.
  intros H. pose proof H as H'. start H. pose proof (land_small (s_tail q + 1) (s_mask q) ltac:(lia) ltac:(lia)).
  assert (Hu : to_u16 (Z.land (s_tail q + 1) (s_mask q)) = Z.land (s_tail q + 1) (s_mask q)) by (apply Z.mod_small; lia).
  csteps. unfold mu_spsc_put. rewrite Hu. destruct (_ =? s_head q) eqn:E; csteps.
  - rewrite set_same by done. done.
  - destruct (st (s_store q) (s_tail q) x) as [s'| |] eqn:E1; [| |by apply st_noNF in E1].
    + pose proof (st_bounds _ _ _ _ E1). csteps. unfold set_spsc, scells; cbn. res_eq.
    + pose proof (st_UB _ _ _ E1). destruct (decide (s_tail q = Z.of_nat (length (s_store q)))).
      * csteps. done.
      * rewrite ptr_in_ub by (rewrite fmap_length in *; lia). csteps. done.
Qed.
Lemma src_get d m qb sb eb q : spsc_at m qb sb q -> eb <> qb -> eb <> sb -> (exists v, heap m !! eb = Some [v]) ->
  call (S d) "mu_spsc_get" [VP qb 0; VP eb 0] m =
    let* '(e, x, q) := mu_spsc_get q in Ok (VI (err_code e), enum, set_var (set_spsc m qb sb q) eb (rep x)).
Proof.
  intros H He1 He2 [v Hv]. pose proof H as H'. start H. pose proof (land_small (s_head q + 1) (s_mask q) ltac:(lia) ltac:(lia)).
  assert (Hu : to_u16 (Z.land (s_head q + 1) (s_mask q)) = Z.land (s_head q + 1) (s_mask q)) by (apply Z.mod_small; lia).
  csteps. unfold mu_spsc_get. rewrite Hu. destruct (s_head q =? _) eqn:E; csteps.
  - rewrite set_same by done. change (rep FifoSpec.NULL) with (rep 0). rewrite Hnull. done.
  - destruct (ld (s_store q) (s_head q)) as [x| |] eqn:E1; [| |by apply ld_noNF in E1].
    + pose proof (ld_bounds _ _ _ E1). csteps. unfold set_var, set_spsc, scells; cbn. res_eq.
    + pose proof (ld_UB _ _ E1). destruct (decide (s_head q = Z.of_nat (length (s_store q)))).
      * csteps. done.
      * rewrite ptr_in_ub by (rewrite fmap_length in *; lia). csteps. done.
Qed.
(** a queue object of any content; if the size is refused nothing is changed *)
Lemma src_init d m qb sb c st n : heap m !! qb = Some c -> length c = 4%nat -> heap m !! sb = Some (rep <$> st) -> qb <> sb ->
  0 <= n < 65536 ->
  call (S (S d)) "mu_spsc_init" [VP qb 0; VP sb 0; VI n] m =
    if (n <? 2) || negb (IS_POWER_OF_TWO n) then Ok (VI (err_code SPSC_SIZE), enum, m)
    else Ok (VI (err_code SPSC_NONE), enum, set_spsc m qb sb (MkS st (n - 1) 0 0)).
Proof.
  intros H1 Hl H2 Hne Hn. destruct c as [|c0 [|c1 [|c2 [|c3 [|]]]]]; try discriminate Hl.
  erewrite call_S by reflexivity. csteps. unfold IS_POWER_OF_TWO.
  destruct (n <? 2) eqn:E; csteps; [done|]. cbn [orb].
  assert (0 <= Z.land n (n - 1) < 65536) by (apply land_small; lia).
  destruct (_ =? 0) eqn:E1; csteps; rewrite ?E1; cbn [negb]; csteps; [|done].
  erewrite call_S by reflexivity. csteps. unfold set_spsc, scells; cbn. res_eq.
Qed.
End spsc.
