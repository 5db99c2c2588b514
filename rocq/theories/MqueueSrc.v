(** * mu_mqueue: the translated source does what the model says, function by function *)
From Verif Require Import CSym SrcMqueue QueueModel MqueueModel TaskSrc.
Open Scope string_scope. Open Scope Z_scope.

(** a task pointer: [0] is NULL, [t] otherwise the object of that number *)
Definition tv (t : Z) : val := if t =? 0 then VI 0 else VP (Z.to_nat t) 0.
Lemma tv_defined t : defined (tv t) = Ok (tv t).
Proof. unfold tv. destruct (t =? 0); done. Qed.
Lemma tv_true t : is_true (tv t) = Ok (negb (t =? 0)).
Proof. unfold tv. destruct (t =? 0); done. Qed.
(** ** the part of put and get before the notification *)
Definition put_core (p : plat) (m : mmq) (x : Z) : res (bool * mmq) :=
  if negb (mu_mqueue_is_full m) then
    let* s := st (m_store m) (m_index m) x in
    let* i := umod (to_size p (m_index m + 1)) (m_cap m) in
    Ok (true, MkM s (m_cap m) (to_size p (m_cnt m + 1)) i (m_on_put m) (m_on_get m))
  else Ok (false, m).
Definition get_core (p : plat) (m : mmq) (fetch : bool) : res (bool * Z * mmq) :=
  if negb (mu_mqueue_is_empty m) then
    let idx := to_size p (to_size p (m_cap m + m_index m) - m_cnt m) in
    let idx := if m_cap m <=? idx then to_size p (idx - m_cap m) else idx in
    let* e := ld (m_store m) idx in
    Ok (true, e, if fetch then MkM (m_store m) (m_cap m) (to_size p (m_cnt m - 1)) (m_index m) (m_on_put m) (m_on_get m) else m)
  else Ok (false, 0, m).
Lemma put_is_core p {W} (call : Z -> mmq -> W -> res (mmq * W)) upd m w x :
  mu_mqueue_put p call upd m w x =
  let* '(b, m) := put_core p m x in
  if b : bool then if negb (m_on_put m =? 0) then let* '(m, w) := call (m_on_put m) m (upd w) in Ok (true, m, w) else Ok (true, m, upd w)
  else Ok (false, m, w).
Proof.
  unfold mu_mqueue_put, put_core. destruct (negb (mu_mqueue_is_full m)); [|done]. destruct (st _ _ _); cbn; try done. destruct (umod _ _); cbn; done.
Qed.
Lemma get_is_core p {W} (call : Z -> mmq -> W -> res (mmq * W)) upd m w fetch :
  maccess_queue p call upd m w fetch =
  let* '(b, e, m) := get_core p m fetch in
  if b : bool then
    if fetch then if negb (m_on_get m =? 0) then let* '(m, w) := call (m_on_get m) m (upd e w) in Ok (true, e, m, w) else Ok (true, e, m, upd e w)
    else Ok (true, e, m, w)
  else Ok (false, e, m, w).
Proof.
  unfold maccess_queue, get_core. destruct (negb (mu_mqueue_is_empty m)); [|done]. cbv zeta. destruct (ld _ _); cbn; try done. destruct fetch; done.
Qed.

Section mqueue.
Context (p : plat) (fuel : nat) (ext : string -> list val -> mem -> res (val * ty * mem))
  (ext_ptr : val -> list val -> mem -> res (val * ty * mem)).
Notation call d := (call p mqueue_prog fuel ext ext_ptr d).
(** how an item, a number in the model, appears in memory *)
Context (rep : Z -> val) (Hrep : forall x, defined (rep x) = Ok (rep x)) (Hnull : rep 0 = VI 0).

Definition mcells (sb : nat) (q : mmq) : list val :=
  [VP sb 0; VI (m_cap q); VI (m_cnt q); VI (m_index q); tv (m_on_put q); tv (m_on_get q)].
(** the queue object is block [qb], its storage block [sb] *)
Record mq_at (m : mem) (qb sb : nat) (q : mmq) : Prop := {
  ma_obj : heap m !! qb = Some (mcells sb q);
  ma_store : heap m !! sb = Some (rep <$> m_store q);
  ma_ne : qb <> sb;
  ma_cap : 0 <= m_cap q < size_mod p; ma_cnt : 0 <= m_cnt q < size_mod p; ma_idx : 0 <= m_index q < size_mod p }.
Definition set_mq (m : mem) (qb sb : nat) (q : mmq) : mem :=
  MkMem (<[qb := mcells sb q]> (<[sb := rep <$> m_store q]> (heap m))) (next m).
Definition set_item (m : mem) (eb : nat) (x : Z) : mem := MkMem (<[eb := [rep x]]> (heap m)) (next m).
Lemma set_same m qb sb q : mq_at m qb sb q -> set_mq m qb sb q = m.
Proof.
  intros [H1 H2 _ _ _ _]. unfold set_mq. destruct m as [h n]. cbn in *.
  rewrite (insert_id h sb), (insert_id h qb) by done. done.
Qed.
Ltac start H := destruct H as [H1 H2 Hne Hc Hn Hi]; unfold mcells in *; erewrite call_S by reflexivity.
Ltac tvd := match goal with |- context [defined (tv ?t)] => rewrite (tv_defined t) | |- context [is_true (tv ?t)] => rewrite (tv_true t) end.
Ltac cs := repeat first [tvd | cstep | hstep].

Lemma src_is_full d m qb sb q : mq_at m qb sb q ->
  call (S d) "mu_mqueue_is_full" [VP qb 0] m = Ok (truth (mu_mqueue_is_full q), Tbool, m).
Proof. intros H. start H. repeat cstep. done. Qed.
Lemma src_is_empty d m qb sb q : mq_at m qb sb q ->
  call (S d) "mu_mqueue_is_empty" [VP qb 0] m = Ok (truth (mu_mqueue_is_empty q), Tbool, m).
Proof. intros H. start H. repeat cstep. done. Qed.
Lemma src_capacity d m qb sb q : mq_at m qb sb q ->
  call (S d) "mu_mqueue_capacity" [VP qb 0] m = Ok (VI (mu_mqueue_capacity q), Tsize, m).
Proof. intros H. start H. repeat cstep. done. Qed.
Lemma src_count d m qb sb q : mq_at m qb sb q ->
  call (S d) "mu_mqueue_count" [VP qb 0] m = Ok (VI (mu_mqueue_count q), Tsize, m).
Proof. intros H. start H. repeat cstep. done. Qed.
Lemma src_reset d m qb sb q : mq_at m qb sb q ->
  call (S d) "mu_mqueue_reset" [VP qb 0] m = Ok (VP qb 0, Tptr (Tstruct "mu_mqueue_t"), set_mq m qb sb (mu_mqueue_reset q)).
Proof. intros H. start H. repeat cstep. unfold set_mq, mcells; cbn. do 2 f_equal. mem_eq. Qed.
Lemma src_init d m qb sb c st cap t1 t2 : heap m !! qb = Some c -> length c = 6%nat -> heap m !! sb = Some (rep <$> st) -> qb <> sb ->
  0 <= cap < size_mod p ->
  call (S (S d)) "mu_mqueue_init" [VP qb 0; VP sb 0; VI cap; tv t1; tv t2] m =
    Ok (VP qb 0, Tptr (Tstruct "mu_mqueue_t"), set_mq m qb sb (mu_mqueue_init st cap t1 t2)).
Proof.
  intros H1 Hl H2 Hne Hc. destruct c as [|c0 [|c1 [|c2 [|c3 [|c4 [|c5 [|]]]]]]]; try discriminate Hl.
  erewrite call_S by reflexivity. cs.
  erewrite call_S by reflexivity. cs. unfold set_mq, mcells; cbn. do 2 f_equal. mem_eq.
Qed.
(** the notification: mu_task_call of a task that is not NULL *)
Definition notify (d : nat) (t : Z) (m : mem) : res mem :=
  if t =? 0 then Ok m else let* '(_, _, m) := call d "mu_task_call" [VP (Z.to_nat t) 0] m in Ok m.
Ltac call_hook ::= first [erewrite src_is_full by eassumption | erewrite src_is_empty by eassumption].
Ltac cs ::= repeat first [tvd | cstep | hstep].
Lemma src_put d m qb sb q x : mq_at m qb sb q ->
  call (S (S d)) "mu_mqueue_put" [VP qb 0; rep x] m =
    let* '(b, q) := put_core p q x in
    if b : bool then let* m := notify (S d) (m_on_put q) (set_mq m qb sb q) in Ok (truth true, Tbool, m)
    else Ok (truth false, Tbool, m).
Proof.
  intros H. pose proof H as H'. start H. cs. unfold put_core. destruct (mu_mqueue_is_full q) eqn:Hf; cbn [negb]; cs.
  - done.
  - destruct (st (m_store q) (m_index q) x) as [s'| |] eqn:E; [| |by apply st_noNF in E].
    + pose proof (st_bounds _ _ _ _ E). cs. unfold umod. destruct (m_cap q =? 0) eqn:E0; cs; [done|].
      apply Z.eqb_neq in E0. pose proof (Z.mod_pos_bound (to_size p (m_index q + 1)) (m_cap q) ltac:(lia)).
      rewrite (to_size_id p (_ mod _)) by lia. cbn [bind]. unfold notify. cbn [m_on_put].
      destruct (m_on_put q =? 0) eqn:Et; cbn [negb]; unfold set_mq, mcells, tv; cbn [m_store m_cap m_cnt m_index m_on_put m_on_get]; rewrite ?Et; cs; [done|].
      match goal with |- context [CLang.call _ _ _ _ _ _ _ _ ?m'] => destruct (call (S d) "mu_task_call" [VP (Z.to_nat (m_on_put q)) 0] m') as [[[v t] m2]| |] end; cs; done.
    + pose proof (st_UB _ _ _ E). destruct (decide (m_index q = Z.of_nat (length (m_store q)))).
      * cs. done.
      * rewrite ptr_in_ub by (rewrite fmap_length in *; lia). cs. done.
Qed.
(** reading item [idx]: by cases on whether it exists *)
Ltac at_item q tac :=
  lazymatch goal with |- context [ptr_in _ _ ?idx] =>
    let e := fresh "e" in let E := fresh "E" in
    destruct (ld (m_store q) idx) as [e| |] eqn:E;
    [ pose proof (ld_bounds _ _ _ E); cs; tac
    | pose proof (ld_UB _ _ E); destruct (decide (idx = Z.of_nat (length (m_store q))));
      [ cs; reflexivity | rewrite ptr_in_ub by (rewrite fmap_length in *; lia); cs; reflexivity ]
    | exfalso; eapply ld_noNF; eassumption ]
  end.
Lemma src_access d m qb sb eb q fetch : mq_at m qb sb q -> eb <> qb -> eb <> sb -> (exists v, heap m !! eb = Some [v]) ->
  call (S (S d)) "access_queue" [VP qb 0; VP eb 0; truth fetch] m =
    let* '(b, e, q) := get_core p q fetch in
    let m := set_item (set_mq m qb sb q) eb e in
    let* m := if b && fetch then notify (S d) (m_on_get q) m else Ok m in Ok (truth b, Tbool, m).
Proof.
  intros H He1 He2 Hv. pose proof Hv as [v Hv']. pose proof H as H'. start H. cs. unfold get_core.
  destruct (mu_mqueue_is_empty q) eqn:Hf; cbn [negb]; cs.
  - rewrite set_same by done. unfold set_item. rewrite Hnull. done.
  - destruct (m_cap q <=? _) eqn:E; cs;
      at_item q ltac:(destruct fetch; cs;
        [unfold notify; cbn [m_on_get]; destruct (m_on_get q =? 0) eqn:Et; cbn [negb bind]; unfold set_mq, mcells, tv; cbn [m_store m_cap m_cnt m_index m_on_put m_on_get]; rewrite ?Et; cs; [unfold set_item, set_mq, mcells, tv; cbn; rewrite ?Et; cbn; do 2 f_equal; mem_eq|] |unfold set_item, set_mq, mcells; cbn; do 2 f_equal; mem_eq]).
    all: cbn [andb]; match goal with |- context [set_item ?a ?b ?c] =>
      match goal with |- context [CLang.call _ _ _ _ _ _ _ _ (MkMem ?h ?n)] => replace (set_item a b c) with (MkMem h n) by (unfold set_item; cbn [heap next]; mem_eq) end end.
    all: match goal with |- context [CLang.call _ _ _ _ _ _ _ _ ?m'] => destruct (call (S d) "mu_task_call" [VP (Z.to_nat (m_on_get q)) 0] m') as [[[v' t'] m2]| |] end; cs; done.
Qed.
Lemma src_get d m qb sb eb q : mq_at m qb sb q -> eb <> qb -> eb <> sb -> (exists v, heap m !! eb = Some [v]) ->
  call (S (S (S d))) "mu_mqueue_get" [VP qb 0; VP eb 0] m =
    let* '(b, e, q) := get_core p q true in
    let m := set_item (set_mq m qb sb q) eb e in
    let* m := if b : bool then notify (S d) (m_on_get q) m else Ok m in Ok (truth b, Tbool, m).
Proof.
  intros H He1 He2 Hv. erewrite call_S by reflexivity. csteps. change (VI 1) with (truth true). erewrite src_access by eassumption.
  destruct (get_core p q true) as [[[b e] q']| |]; cbn [bind]; [|csteps; done|csteps; done]. rewrite andb_true_r. cbv zeta.
  match goal with |- context [if b then ?x else ?y] => destruct (if b then x else y) end; csteps; done.
Qed.
Lemma src_peek d m qb sb eb q : mq_at m qb sb q -> eb <> qb -> eb <> sb -> (exists v, heap m !! eb = Some [v]) ->
  call (S (S (S d))) "mu_mqueue_peek" [VP qb 0; VP eb 0] m =
    let* '(b, e, q) := get_core p q false in Ok (truth b, Tbool, set_item (set_mq m qb sb q) eb e).
Proof.
  intros H He1 He2 Hv. erewrite call_S by reflexivity. csteps. change (VI 0) with (truth false). erewrite src_access by eassumption.
  destruct (get_core p q false) as [[[b e] q']| |]; cbn [bind]; [|csteps; done|csteps; done]. rewrite andb_false_r. csteps. done.
Qed.
End mqueue.
