(** * Property C107: the text of mu_queue.c, run by the rules of C, is the bounded FIFO *)
From Verif Require Import CSym SrcQueue QueueModel FifoSpec Ring QueueProofs QueueProps QueueSrc.
Open Scope string_scope. Open Scope Z_scope.

Section source.
Context (p : plat) (fuel : nat) (ext : string -> list val -> mem -> res (val * ty * mem))
  (ext_ptr : val -> list val -> mem -> res (val * ty * mem)).
(** a call of a function of mu_queue.c; calls nest at most three deep *)
Definition qcall (f : string) (vs : list val) (m : mem) : res (val * mem) :=
  let* '(v, _, m) := call p queue_prog fuel ext ext_ptr 3 f vs m in Ok (v, m).
Definition as_bool (v : val) : res bool := match v with VI 0 => Ok false | VI 1 => Ok true | _ => UB end.
(** one call by a user whose queue is object [qb] and whose variable [void *item] is object [eb] *)
Definition src_op (qb eb : nat) (op : qop) (m : mem) : res (qobs * mem) :=
  match op with
  | QPut x => let* '(v, m) := qcall "mu_queue_put" [VP qb 0; VI x] m in let* b := as_bool v in Ok (QBool b, m)
  | QGet => let* '(v, m) := qcall "mu_queue_get" [VP qb 0; VP eb 0] m in let* b := as_bool v in
            let* e := load_mem m eb 0 in let* x := num e in Ok (QItem b x, m)
  | QPeek => let* '(v, m) := qcall "mu_queue_peek" [VP qb 0; VP eb 0] m in let* b := as_bool v in
             let* e := load_mem m eb 0 in let* x := num e in Ok (QItem b x, m)
  | QReset => let* '(v, m) := qcall "mu_queue_reset" [VP qb 0] m in Ok (QUnit, m)
  | QCount => let* '(v, m) := qcall "mu_queue_count" [VP qb 0] m in let* n := num v in Ok (QNum n, m)
  | QCapacity => let* '(v, m) := qcall "mu_queue_capacity" [VP qb 0] m in let* n := num v in Ok (QNum n, m)
  | QIsEmpty => let* '(v, m) := qcall "mu_queue_is_empty" [VP qb 0] m in let* b := as_bool v in Ok (QBool b, m)
  | QIsFull => let* '(v, m) := qcall "mu_queue_is_full" [VP qb 0] m in let* b := as_bool v in Ok (QBool b, m)
  end.
Fixpoint src_ops (qb eb : nat) (ops : list qop) (m : mem) : res (list qobs * mem) :=
  match ops with
  | [] => Ok ([], m)
  | op :: ops => let* '(o, m) := src_op qb eb op m in let* '(os, m) := src_ops qb eb ops m in Ok (o :: os, m)
  end.

(** ** the user's program: init, then any calls *)
Definition untouched (m m' : mem) (bs : list nat) : Prop :=
  next m' = next m /\ forall b, ~ In b bs -> heap m' !! b = heap m !! b.

Lemma as_bool_truth b : as_bool (truth b) = Ok b. Proof. destruct b; reflexivity. Qed.
Notation qat := (queue_at p VI).
Lemma VI_def : forall x : Z, defined (VI x) = Ok (VI x). Proof. done. Qed.

Lemma put_range q x b q' : 0 <= q_cap q < size_mod p -> 0 <= q_cnt q < size_mod p -> 0 <= q_index q < size_mod p ->
  mu_queue_put p q x = Ok (b, q') -> 0 <= q_cap q' < size_mod p /\ 0 <= q_cnt q' < size_mod p /\ 0 <= q_index q' < size_mod p.
Proof.
  intros Hc Hn Hi. unfold mu_queue_put. destruct (negb _); [|intros [= _ <-]; done].
  destruct (st _ _ _); cbn; try done. unfold umod. destruct (Z.eqb_spec (q_cap q) 0); cbn; try done.
  intros [= _ <-]. cbn. split; [done|]. split; [apply to_size_range|].
  pose proof (Z.mod_pos_bound (to_size p (q_index q + 1)) (q_cap q)). lia.
Qed.
Lemma access_range q f b e q' : 0 <= q_cap q < size_mod p -> 0 <= q_cnt q < size_mod p -> 0 <= q_index q < size_mod p ->
  access_queue p q f = Ok (b, e, q') -> 0 <= q_cap q' < size_mod p /\ 0 <= q_cnt q' < size_mod p /\ 0 <= q_index q' < size_mod p.
Proof.
  intros Hc Hn Hi. unfold access_queue. destruct (negb _); [|intros [= _ _ <-]; done].
  destruct (ld _ _); cbn; try done. destruct f; intros [= _ _ <-]; cbn; split_and!; try lia; apply to_size_range.
Qed.
Lemma set_at m qb sb q q' : qat m qb sb q -> 0 <= q_cap q' < size_mod p -> 0 <= q_cnt q' < size_mod p ->
  0 <= q_index q' < size_mod p -> qat (set_queue VI m qb sb q') qb sb q'.
Proof.
  intros [H1 H2 Hne _ _ _] Hc Hn Hi. split; try done; cbn.
  - by rewrite lookup_insert.
  - rewrite lookup_insert_ne by done. by rewrite lookup_insert.
Qed.
Lemma set_cell_at m qb sb eb q v : qat m qb sb q -> eb <> qb -> eb <> sb -> qat (set_cell_ m eb v) qb sb q.
Proof. intros [H1 H2 Hne Hc Hn Hi] He1 He2. split; try done; cbn; by rewrite lookup_insert_ne. Qed.
Lemma set_queue_other m qb sb q : untouched m (set_queue VI m qb sb q) [qb; sb].
Proof. split; [done|]. intros b Hb. cbn. rewrite !lookup_insert_ne by (intros ->; apply Hb; cbn; tauto). done. Qed.

Lemma op_ok m qb sb eb q op v0 o q' : qat m qb sb q -> eb <> qb -> eb <> sb -> heap m !! eb = Some [v0] ->
  qrun1 p q op = Ok (o, q') ->
  exists m' v1, src_op qb eb op m = Ok (o, m') /\ qat m' qb sb q' /\ heap m' !! eb = Some [v1] /\ untouched m m' [qb; sb; eb].
Proof.
  intros Hq He1 He2 Hv E. pose proof Hq as [_ _ _ Hc Hn Hi].
  assert (Hm : untouched m m [qb; sb; eb]) by done.
  assert (Hs : forall q1, untouched m (set_queue VI m qb sb q1) [qb; sb; eb]).
  { intros q1. split; [done|]. intros b Hb. apply set_queue_other. cbn in *. tauto. }
  destruct op; cbn [qrun1] in E; unfold src_op, qcall.
  - erewrite src_put by (done || exact VI_def). destruct (mu_queue_put p q x) as [[b q1]| |] eqn:E1; cbn in E; try discriminate E.
    injection E as <- <-. cbn [bind]. rewrite as_bool_truth. cbn [bind].
    destruct (put_range _ _ _ _ Hc Hn Hi E1) as (? & ? & ?).
    eexists _, _. split; [reflexivity|]. split; [by eapply set_at|]. split; [|apply Hs].
    cbn. rewrite !lookup_insert_ne by done. exact Hv.
  - erewrite src_get by (done || exact VI_def || eauto). destruct (mu_queue_get p q) as [[[b e] q1]| |] eqn:E1; cbn in E; try discriminate E.
    injection E as <- <-. cbn [bind]. rewrite as_bool_truth. cbn [bind].
    destruct (access_range _ _ _ _ _ Hc Hn Hi E1) as (? & ? & ?).
    unfold load_mem. cbn. rewrite lookup_insert. cbn. eexists _, _. split; [reflexivity|].
    split; [apply set_cell_at; [by eapply set_at|done|done]|]. split; [cbn; apply lookup_insert|].
    split; [done|]. intros b' Hb. cbn in *. rewrite !lookup_insert_ne by (intros ->; tauto). done.
  - erewrite src_peek by (done || exact VI_def || eauto). destruct (mu_queue_peek p q) as [[[b e] q1]| |] eqn:E1; cbn in E; try discriminate E.
    injection E as <- <-. cbn [bind]. rewrite as_bool_truth. cbn [bind].
    destruct (access_range _ _ _ _ _ Hc Hn Hi E1) as (? & ? & ?).
    unfold load_mem. cbn. rewrite lookup_insert. cbn. eexists _, _. split; [reflexivity|].
    split; [apply set_cell_at; [by eapply set_at|done|done]|]. split; [cbn; apply lookup_insert|].
    split; [done|]. intros b' Hb. cbn in *. rewrite !lookup_insert_ne by (intros ->; tauto). done.
  - injection E as <- <-. erewrite src_reset by (done || exact VI_def). cbn [bind].
    eexists _, _. split; [reflexivity|]. pose proof (size_mod_pos p). split; [eapply set_at; [done|done|cbn; lia..]|].
    split; [|apply Hs]. cbn. rewrite !lookup_insert_ne by done. exact Hv.
  - injection E as <- <-. erewrite src_count by (done || exact VI_def). cbn. eauto 10.
  - injection E as <- <-. erewrite src_capacity by (done || exact VI_def). cbn. eauto 10.
  - injection E as <- <-. erewrite src_is_empty by (done || exact VI_def). cbn [bind]. rewrite as_bool_truth. cbn. eauto 10.
  - injection E as <- <-. erewrite src_is_full by (done || exact VI_def). cbn [bind]. rewrite as_bool_truth. cbn. eauto 10.
Qed.

Lemma ops_ok ops : forall m qb sb eb q v0 os q', qat m qb sb q -> eb <> qb -> eb <> sb -> heap m !! eb = Some [v0] ->
  qrun p q ops = Ok (os, q') ->
  exists m', src_ops qb eb ops m = Ok (os, m') /\ untouched m m' [qb; sb; eb] /\ qat m' qb sb q'.
Proof.
  induction ops as [|op ops IH]; intros m qb sb eb q v0 os q' Hq He1 He2 Hv E; cbn in E.
  - injection E as <- <-. exists m. done.
  - destruct (qrun1 p q op) as [[o q1]| |] eqn:E1; cbn in E; try discriminate E.
    destruct (qrun p q1 ops) as [[os1 q2]| |] eqn:E2; cbn in E; try discriminate E. injection E as <- <-.
    destruct (op_ok _ _ _ _ _ _ _ _ _ Hq He1 He2 Hv E1) as (m1 & v1 & Hs & Hq1 & Hv1 & Hu1).
    destruct (IH _ _ _ _ _ _ _ _ Hq1 He1 He2 Hv1 E2) as (m2 & Hs2 & Hu2 & Hq2).
    exists m2. cbn. rewrite Hs. cbn. rewrite Hs2. split; [done|]. split; [|done].
    destruct Hu1 as [Hn1 Hu1], Hu2 as [Hn2 Hu2]. split; [congruence|]. intros b Hb. rewrite Hu2, Hu1 by done. done.
Qed.
End source.

(** ** C107: in any memory with a queue object [qb], an array [sb] of [cap] pointers (of any
    contents) and a variable [eb]: after [mu_queue_init], every sequence of calls returns what the
    bounded FIFO returns, without undefined behaviour, and changes no other object. *)
Theorem C107_source_fifo : forall p fuel ext ext_ptr m qb sb eb c items v0 ops,
  heap m !! qb = Some c -> length c = 4%nat -> heap m !! sb = Some (VI <$> items) -> heap m !! eb = Some [v0] ->
  qb <> sb -> eb <> qb -> eb <> sb ->
  let cap := Z.of_nat (length items) in valid_cap p cap ->
  exists m1 m2, qcall p fuel ext ext_ptr "mu_queue_init" [VP qb 0; VP sb 0; VI cap] m = Ok (VP qb 0, m1) /\
    src_ops p fuel ext ext_ptr qb eb ops m1 = Ok (fst (fifo_run cap [] ops), m2) /\
    untouched m m2 [qb; sb; eb].
Proof.
  intros p fuel ext ext_ptr m qb sb eb c items v0 ops H1 Hl H2 H3 Hne He1 He2 cap Hv.
  assert (Hcap : 0 <= cap < size_mod p) by (destruct Hv; unfold size_max in *; destruct p; cbn in *; lia).
  pose proof (size_mod_pos p).
  assert (E : qcall p fuel ext ext_ptr "mu_queue_init" [VP qb 0; VP sb 0; VI cap] m
              = Ok (VP qb 0, set_queue VI m qb sb (mu_queue_init items cap))).
  { unfold qcall. erewrite src_init by (done || exact VI_def). done. }
  destruct (C08_queue_refines_fifo p items cap ops Hv eq_refl) as (q' & Hq & _).
  eapply (ops_ok p fuel ext ext_ptr) in Hq as (m2 & Hs & Hu & _).
  - eexists _, m2. split; [exact E|]. split; [exact Hs|]. destruct Hu as [Hn Hu]. split; [done|].
    intros b Hb. rewrite Hu by done. apply set_queue_other. cbn in *. tauto.
  - split; cbn; try done; try lia; [apply lookup_insert|]. rewrite lookup_insert_ne by done. apply lookup_insert.
  - done.
  - done.
  - cbn. rewrite !lookup_insert_ne by done. exact H3.
Qed.
Print Assumptions C107_source_fifo.
(** the hypotheses are met, and the source can be run *)
Example C107_example :
  let m := MkMem (<[10%nat := [VU; VU; VU; VU]]> (<[11%nat := [VI 7; VI 7]]> (<[12%nat := [VU]]> ∅))) 20 in
  let none1 := fun _ _ _ => UB in let none2 := fun _ _ _ => UB in
  (let* '(_, m1) := qcall P32 0 none1 none2 "mu_queue_init" [VP 10 0; VP 11 0; VI 2] m in
   let* '(os, _) := src_ops P32 0 none1 none2 10 12 [QPut 1; QPut 2; QPut 3; QGet; QPut 4; QPeek; QGet; QGet; QGet; QCount] m1 in Ok os) =
    Ok [QBool true; QBool true; QBool false; QItem true 1; QBool true; QItem true 2; QItem true 2; QItem true 4; QItem false 0; QNum 0].
Proof. vm_compute. reflexivity. Qed.

(** the functions one by one: what the source does is what the model of C08 and C09 says, including
    when it is undefined *)
Theorem C107_source_is_model : forall p fuel ext ext_ptr m qb sb eb q v0,
  queue_at p VI m qb sb q -> heap m !! eb = Some [v0] -> eb <> qb -> eb <> sb ->
  let run f vs := call p queue_prog fuel ext ext_ptr 3 f vs m in
  let pair := fun '(b, q') => (truth b, Tbool, set_queue VI m qb sb q') in
  let triple := fun '(b, e, q') => (truth b, Tbool, set_cell_ (set_queue VI m qb sb q') eb (VI e)) in
  let map_res {A B} (f : A -> B) (r : res A) := let* a := r in Ok (f a) in
  (forall x, run "mu_queue_put" [VP qb 0; VI x] = map_res pair (mu_queue_put p q x)) /\
  run "mu_queue_get" [VP qb 0; VP eb 0] = map_res triple (mu_queue_get p q) /\
  run "mu_queue_peek" [VP qb 0; VP eb 0] = map_res triple (mu_queue_peek p q) /\
  run "mu_queue_reset" [VP qb 0] = Ok (VP qb 0, Tptr (Tstruct "mu_queue_t"), set_queue VI m qb sb (mu_queue_reset q)) /\
  run "mu_queue_count" [VP qb 0] = Ok (VI (mu_queue_count q), Tsize, m) /\
  run "mu_queue_capacity" [VP qb 0] = Ok (VI (mu_queue_capacity q), Tsize, m) /\
  run "mu_queue_is_empty" [VP qb 0] = Ok (truth (mu_queue_is_empty q), Tbool, m) /\
  run "mu_queue_is_full" [VP qb 0] = Ok (truth (mu_queue_is_full q), Tbool, m).
Proof.
  intros p fuel ext ext_ptr m qb sb eb q v0 Hq Hv He1 He2 run pair triple map_res. unfold run, pair, triple, map_res.
  split_and!.
  - intros x. erewrite src_put by (done || exact VI_def). destruct (mu_queue_put p q x) as [[]| |]; done.
  - erewrite src_get by (done || exact VI_def || eauto). destruct (mu_queue_get p q) as [[[]]| |]; done.
  - erewrite src_peek by (done || exact VI_def || eauto). destruct (mu_queue_peek p q) as [[[]]| |]; done.
  - erewrite src_reset by (done || exact VI_def). done.
  - erewrite src_count by (done || exact VI_def). done.
  - erewrite src_capacity by (done || exact VI_def). done.
  - erewrite src_is_empty by (done || exact VI_def). done.
  - erewrite src_is_full by (done || exact VI_def). done.
Qed.
Print Assumptions C107_source_is_model.
