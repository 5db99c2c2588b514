(** * mu_queue: the translated source does what the model says, and is a FIFO *)
From Verif Require Import CSym SrcQueue QueueModel.
Open Scope string_scope. Open Scope Z_scope.

Section queue.
Context (p : plat) (fuel : nat) (ext : string -> list val -> mem -> res (val * ty * mem))
  (ext_ptr : val -> list val -> mem -> res (val * ty * mem)).
Notation call d := (call p queue_prog fuel ext ext_ptr d).
(** how an item, a number in the model, appears in memory *)
Context (rep : Z -> val) (Hrep : forall x, defined (rep x) = Ok (rep x)) (Hnull : rep 0 = VI 0).

Definition qcells (sb : nat) (q : mqueue) : list val := [VP sb 0; VI (q_cap q); VI (q_cnt q); VI (q_index q)].
(** the queue object is block [qb], its storage block [sb] *)
Record queue_at (m : mem) (qb sb : nat) (q : mqueue) : Prop := {
  qa_obj : heap m !! qb = Some (qcells sb q);
  qa_store : heap m !! sb = Some (rep <$> q_store q);
  qa_ne : qb <> sb;
  qa_cap : 0 <= q_cap q < size_mod p; qa_cnt : 0 <= q_cnt q < size_mod p; qa_idx : 0 <= q_index q < size_mod p }.
Definition set_queue (m : mem) (qb sb : nat) (q : mqueue) : mem :=
  MkMem (<[qb := qcells sb q]> (<[sb := rep <$> q_store q]> (heap m))) (next m).

Definition set_cell_ (m : mem) (b : nat) (v : val) : mem := MkMem (<[b := [v]]> (heap m)) (next m).
Lemma set_same m qb sb q : queue_at m qb sb q -> set_queue m qb sb q = m.
Proof.
  intros [H1 H2 _ _ _ _]. unfold set_queue. destruct m as [h n]. cbn in *.
  rewrite (insert_id h sb), (insert_id h qb) by done. done.
Qed.

Ltac start H := destruct H as [H1 H2 Hne Hc Hn Hi]; unfold qcells in *; erewrite call_S by reflexivity.

Lemma src_is_full d m qb sb q : queue_at m qb sb q ->
  call (S d) "mu_queue_is_full" [VP qb 0] m = Ok (truth (mu_queue_is_full q), Tbool, m).
Proof. intros H. start H. repeat cstep. done. Qed.
Lemma src_is_empty d m qb sb q : queue_at m qb sb q ->
  call (S d) "mu_queue_is_empty" [VP qb 0] m = Ok (truth (mu_queue_is_empty q), Tbool, m).
Proof. intros H. start H. repeat cstep. done. Qed.
Lemma src_capacity d m qb sb q : queue_at m qb sb q ->
  call (S d) "mu_queue_capacity" [VP qb 0] m = Ok (VI (mu_queue_capacity q), Tsize, m).
Proof. intros H. start H. repeat cstep. done. Qed.
Lemma src_count d m qb sb q : queue_at m qb sb q ->
  call (S d) "mu_queue_count" [VP qb 0] m = Ok (VI (mu_queue_count q), Tsize, m).
Proof. intros H. start H. repeat cstep. done. Qed.
Lemma src_reset d m qb sb q : queue_at m qb sb q ->
  call (S d) "mu_queue_reset" [VP qb 0] m = Ok (VP qb 0, Tptr (Tstruct "mu_queue_t"), set_queue m qb sb (mu_queue_reset q)).
Proof. intros H. start H. repeat cstep. unfold set_queue, qcells; cbn. do 2 f_equal. mem_eq. Qed.
Ltac call_hook ::= first [erewrite src_is_full by eassumption | erewrite src_is_empty by eassumption].
Lemma src_put d m qb sb q x : queue_at m qb sb q ->
  call (S (S d)) "mu_queue_put" [VP qb 0; rep x] m =
    let* '(b, q) := mu_queue_put p q x in Ok (truth b, Tbool, set_queue m qb sb q).
Proof.
  intros H. pose proof H as H'. start H. csteps. unfold mu_queue_put. destruct (negb _) eqn:Hf; csteps.
  - destruct (st (q_store q) (q_index q) x) as [s'| |] eqn:E; [| |by apply st_noNF in E].
    + pose proof (st_bounds _ _ _ _ E). csteps. unfold umod. destruct (q_cap q =? 0) eqn:E0; csteps; [done|].
      apply Z.eqb_neq in E0. pose proof (Z.mod_pos_bound (to_size p (q_index q + 1)) (q_cap q) ltac:(lia)).
      rewrite (to_size_id p (_ mod _)) by lia. done.
    + pose proof (st_UB _ _ _ E). destruct (decide (q_index q = Z.of_nat (length (q_store q)))).
      * csteps. done.
      * rewrite ptr_in_ub by (rewrite fmap_length in *; lia). csteps. done.
  - rewrite set_same by done. done.
Qed.
(** reading item [idx]: by cases on whether it exists *)
Ltac at_item q tac :=
  lazymatch goal with |- context [ptr_in _ _ ?idx] =>
    let e := fresh "e" in let E := fresh "E" in
    destruct (ld (q_store q) idx) as [e| |] eqn:E;
    [ pose proof (ld_bounds _ _ _ E); csteps; tac
    | pose proof (ld_UB _ _ E); destruct (decide (idx = Z.of_nat (length (q_store q))));
      [ csteps; reflexivity | rewrite ptr_in_ub by (rewrite fmap_length in *; lia); csteps; reflexivity ]
    | exfalso; eapply ld_noNF; eassumption ]
  end.
Lemma src_access d m qb sb eb q fetch : queue_at m qb sb q -> eb <> qb -> eb <> sb -> (exists v, heap m !! eb = Some [v]) ->
  call (S (S d)) "access_queue" [VP qb 0; VP eb 0; truth fetch] m =
    let* '(b, e, q) := access_queue p q fetch in Ok (truth b, Tbool, set_cell_ (set_queue m qb sb q) eb (rep e)).
Proof.
  intros H He1 He2 Hv. pose proof Hv as [v Hv']. pose proof H as H'. start H. csteps. unfold access_queue.
  destruct (negb _) eqn:Hf; csteps.
  - destruct (q_cap q <=? _) eqn:E; csteps;
      at_item q ltac:(destruct fetch; csteps; unfold set_cell_, set_queue, qcells; cbn; do 2 f_equal; mem_eq).
  - rewrite set_same by done. rewrite Hnull. done.
Qed.
Ltac call_hook ::= first [erewrite src_reset by eassumption | rewrite src_access by eassumption].
Lemma src_get d m qb sb eb q : queue_at m qb sb q -> eb <> qb -> eb <> sb -> (exists v, heap m !! eb = Some [v]) ->
  call (S (S (S d))) "mu_queue_get" [VP qb 0; VP eb 0] m =
    let* '(b, e, q) := mu_queue_get p q in Ok (truth b, Tbool, set_cell_ (set_queue m qb sb q) eb (rep e)).
Proof.
  intros H He1 He2 Hv. erewrite call_S by reflexivity. csteps. change (VI 1) with (truth true). erewrite src_access by eassumption.
  unfold mu_queue_get. destruct (access_queue p q true) as [[[b e] q']| |]; csteps; done.
Qed.
Lemma src_peek d m qb sb eb q : queue_at m qb sb q -> eb <> qb -> eb <> sb -> (exists v, heap m !! eb = Some [v]) ->
  call (S (S (S d))) "mu_queue_peek" [VP qb 0; VP eb 0] m =
    let* '(b, e, q) := mu_queue_peek p q in Ok (truth b, Tbool, set_cell_ (set_queue m qb sb q) eb (rep e)).
Proof.
  intros H He1 He2 Hv. erewrite call_S by reflexivity. csteps. change (VI 0) with (truth false). erewrite src_access by eassumption.
  unfold mu_queue_peek. destruct (access_queue p q false) as [[[b e] q']| |]; csteps; done.
Qed.
(** a queue object of any content, and storage of any items *)
Lemma src_init d m qb sb c st cap : heap m !! qb = Some c -> length c = 4%nat -> heap m !! sb = Some (rep <$> st) -> qb <> sb ->
  0 <= cap < size_mod p ->
  call (S (S d)) "mu_queue_init" [VP qb 0; VP sb 0; VI cap] m =
    Ok (VP qb 0, Tptr (Tstruct "mu_queue_t"), set_queue m qb sb (mu_queue_init st cap)).
Proof.
  intros H1 Hl H2 Hne Hc. destruct c as [|c0 [|c1 [|c2 [|c3 [|]]]]]; try discriminate Hl. 
  erewrite call_S by reflexivity. csteps.
  erewrite call_S by reflexivity. csteps.  unfold set_queue, qcells; cbn. do 2 f_equal. mem_eq.
Qed.
End queue.
