(** * Property C112: the text of mu_mqueue.c and mu_task.c, run by the rules of C by a program
    whose notification tasks call the same queue again *)
From Verif Require Import CSym SrcMqueue FifoSpec Ring QueueModel MqueueModel MqueueSpec MqueueProofs MqueueProps TaskSrc MqueueSrc.
Open Scope string_scope. Open Scope Z_scope.
Notation length := List.length.

(** ** What a user program can see of a run, in time order, and how it writes it down *)
Inductive uev :=
| UCall (op : qop)              (* it calls a function of the queue *)
| UNotify (t : Z)               (* the function of task [t] is entered *)
| UDone (t : Z)                 (* ... and returns *)
| URet (op : qop) (o : qobs).   (* the call returns *)
Definition op_code (op : qop) : list Z :=
  match op with QPut x => [1; x] | QGet => [2; 0] | QPeek => [3; 0] | QReset => [4; 0] | QCount => [5; 0]
  | QCapacity => [6; 0] | QIsEmpty => [7; 0] | QIsFull => [8; 0] end.
Definition obs_code (o : qobs) : list Z :=
  match o with QBool b => [1; Z.b2z b; 0] | QItem b v => [2; Z.b2z b; v] | QNum n => [3; n; 0] | QUnit => [4; 0; 0] end.
Definition uev_code (e : uev) : list Z :=
  match e with
  | UCall op => [1] ++ op_code op ++ [0; 0; 0]
  | UNotify t => [2; t; 0; 0; 0; 0]
  | UDone t => [3; t; 0; 0; 0; 0]
  | URet op o => [4] ++ op_code op ++ obs_code o
  end%list.
Definition enc (e : uev) : list val := VI <$> uev_code e.
Definition encs (l : list uev) : list val := concat (enc <$> l).
Lemma enc_length e : length (enc e) = 6%nat.
Proof. destruct e as [op|t|t|op o]; try destruct op; try destruct o; reflexivity. Qed.
Lemma op_code_inj a b : op_code a = op_code b -> a = b.
Proof. destruct a, b; cbn; intros H; try discriminate H; try done. by injection H as ->. Qed.
Lemma obs_code_inj a b : obs_code a = obs_code b -> a = b.
Proof. destruct a as [[]|[]| |], b as [[]|[]| |]; cbn; intros H; try discriminate H; try done; injection H as ->; done. Qed.
Lemma enc_inj a b : enc a = enc b -> a = b.
Proof.
  intros H. assert (uev_code a = uev_code b) as H'.
  { revert H. unfold enc. generalize (uev_code a), (uev_code b). induction l as [|x l IH]; intros [|y l'] H; try discriminate H; [done|].
    cbn in H. injection H as -> H. f_equal. by apply IH. }
  clear H. destruct a as [op|t|t|op o], b as [op'|t'|t'|op' o']; cbn in H'; try discriminate H'.
  - apply (f_equal (firstn 3)) in H'. f_equal. apply op_code_inj. destruct op, op'; cbn in *; congruence.
  - injection H' as ->. done.
  - injection H' as ->. done.
  - assert (op_code op = op_code op' /\ obs_code o = obs_code o') as [H1 H2].
    { injection H' as H'. assert (length (op_code op) = length (op_code op')) as Hl by (destruct op, op'; done).
      apply app_inj_1 in H'; done. }
    f_equal; [by apply op_code_inj|by apply obs_code_inj].
Qed.
Lemma encs_app a b : (encs (a ++ b) = encs a ++ encs b)%list.
Proof. unfold encs. rewrite fmap_app, concat_app. done. Qed.
Lemma encs_1 e : encs [e] = enc e.
Proof. unfold encs. cbn. apply app_nil_r. Qed.
Lemma encs_length l : length (encs l) = (6 * length l)%nat.
Proof. induction l as [|e l IH]; [done|]. change (encs (e :: l)) with (enc e ++ encs l)%list. rewrite app_length, IH, enc_length. cbn [length]. lia. Qed.
(** nothing is lost in what the program writes down *)
Theorem C112_log_reads_back : forall a b, encs a = encs b -> a = b.
Proof.
  induction a as [|x a IH]; intros [|y b] H; [done| | |].
  - apply (f_equal length) in H. rewrite !encs_length in H. cbn in H. lia.
  - apply (f_equal length) in H. rewrite !encs_length in H. cbn in H. lia.
  - change (encs (x :: a)) with (enc x ++ encs a)%list in H. change (encs (y :: b)) with (enc y ++ encs b)%list in H.
    apply app_inj_1 in H; [|by rewrite !enc_length]. destruct H as [H1 H2]. apply enc_inj in H1 as ->. f_equal. by apply IH.
Qed.
(** what the program sees of a trace of the specification: that a call takes effect is not visible *)
Definition seen (e : mev) : uev :=
  match e with EUpd op _ => UCall op | ENotify t => UNotify t | EDone t => UDone t | ERet op o => URet op o end.

Section source.
Context (p : plat) (fuel : nat) (ext : string -> list val -> mem -> res (val * ty * mem)).
(** the queue, its storage, the program's log; [sigma] is the program: what it does next, from what it has written down *)
Context (qb sb lb : nat) (sigma : list val -> option qop).

Definition log (m : mem) : list val := match heap m !! lb with Some l => l | None => [] end.
Definition say (e : uev) (m : mem) : mem := MkMem (<[lb := (log m ++ enc e)%list]> (heap m)) (next m).
Definition as_bool (v : val) : res bool := match v with VI 0 => Ok false | VI 1 => Ok true | _ => UB end.
(** a block of C with one local variable, uninitialized on entry, gone on exit *)
Definition local {A} (k : nat -> mem -> res (A * mem)) (m : mem) : res (A * mem) :=
  let* '(o, m') := k (next m) (MkMem (<[next m := [VU]]> (heap m)) (S (next m))) in
  Ok (o, MkMem (delete (next m) (heap m')) (next m)).

(** one call by the user; [code fn args m] is what the function pointers of the user do *)
Section one.
Context (code : val -> list val -> mem -> res (val * ty * mem)).
Definition mqcall (f : string) (vs : list val) (m : mem) : res (val * mem) :=
  let* '(v, _, m) := call p mqueue_prog fuel ext code 3 f vs m in Ok (v, m).
Definition src_op (op : qop) (m : mem) : res (qobs * mem) :=
  match op with
  | QPut x => let* '(v, m) := mqcall "mu_mqueue_put" [VP qb 0; VI x] m in let* b := as_bool v in Ok (QBool b, m)
  | QGet => local (fun eb m => let* '(v, m) := mqcall "mu_mqueue_get" [VP qb 0; VP eb 0] m in let* b := as_bool v in
            let* e := load_mem m eb 0 in let* x := num e in Ok (QItem b x, m)) m
  | QPeek => local (fun eb m => let* '(v, m) := mqcall "mu_mqueue_peek" [VP qb 0; VP eb 0] m in let* b := as_bool v in
             let* e := load_mem m eb 0 in let* x := num e in Ok (QItem b x, m)) m
  | QReset => let* '(v, m) := mqcall "mu_mqueue_reset" [VP qb 0] m in Ok (QUnit, m)
  | QCount => let* '(v, m) := mqcall "mu_mqueue_count" [VP qb 0] m in let* n := num v in Ok (QNum n, m)
  | QCapacity => let* '(v, m) := mqcall "mu_mqueue_capacity" [VP qb 0] m in let* n := num v in Ok (QNum n, m)
  | QIsEmpty => let* '(v, m) := mqcall "mu_mqueue_is_empty" [VP qb 0] m in let* b := as_bool v in Ok (QBool b, m)
  | QIsFull => let* '(v, m) := mqcall "mu_mqueue_is_full" [VP qb 0] m in let* b := as_bool v in Ok (QBool b, m)
  end.
End one.

(** the function of a task: note the entry, run the program, note the exit *)
Definition task_fn (run : mem -> res mem) (fn : val) (args : list val) (m : mem) : res (val * ty * mem) :=
  match args with
  | [VP t 0] => let* m := run (say (UNotify (Z.of_nat t)) m) in Ok (VI 0, Tvoid, say (UDone (Z.of_nat t)) m)
  | _ => UB
  end.
(** the code in control - the main program or the function of a task *)
Fixpoint src_body (n : nat) (m : mem) : res mem :=
  match sigma (log m) with
  | None => Ok m
  | Some op =>
    match n with
    | O => NoFuel
    | S n =>
      let* '(o, m) := src_op (task_fn (src_body n)) op (say (UCall op) m) in
      src_body n (say (URet op o) m)
    end
  end.

(** ** The invariant *)
Definition untouched (m m' : mem) (bs : list nat) : Prop :=
  next m' = next m /\ forall b, ~ In b bs -> heap m' !! b = heap m !! b.
Definition task_at (m : mem) (t : Z) : Prop :=
  t = 0 \/ 0 < t /\ ~ In (Z.to_nat t) [qb; sb; lb] /\ exists fn s info, heap m !! Z.to_nat t = Some [fn; s; info] /\ defined fn = Ok fn.
Record rel (m : mem) (q : mmq) (tr : list mev) : Prop := {
  r_q : mq_at p VI m qb sb q;
  r_log : heap m !! lb = Some (encs (seen <$> tr));
  r_hook : heap m !! 1%nat = Some [VI 0];
  r_fresh : forall b, (next m <= b)%nat -> heap m !! b = None;
  r_put : task_at m (m_on_put q);
  r_get : task_at m (m_on_get q) }.
Context (Hlq : lb <> qb) (Hls : lb <> sb) (Hl1 : lb <> 1%nat) (Hq1 : qb <> 1%nat) (Hs1 : sb <> 1%nat).

Lemma untouched_trans m1 m2 m3 bs : untouched m1 m2 bs -> untouched m2 m3 bs -> untouched m1 m3 bs.
Proof. intros [H1 H2] [H3 H4]. split; [congruence|]. intros b Hb. rewrite H4, H2 by done. done. Qed.
Lemma task_kept m m' t : untouched m m' [qb; sb; lb] -> task_at m t -> task_at m' t.
Proof. intros [_ H] [->|(Hp & Hn & fn & s & i & E & D)]; [by left|]. right. split; [done|]. split; [done|]. exists fn, s, i. rewrite H by done. done. Qed.
Lemma rel_below m q tr b c : rel m q tr -> heap m !! b = Some c -> (b < next m)%nat.
Proof. intros H E. destruct (decide (b < next m)%nat); [done|]. rewrite (r_fresh _ _ _ H) in E by lia. done. Qed.
(** the whole rest of the invariant survives changes of the three objects *)
Lemma rel_make m q tr m' q' tr' : rel m q tr -> untouched m m' [qb; sb; lb] -> same_conf q q' ->
  mq_at p VI m' qb sb q' -> heap m' !! lb = Some (encs (seen <$> tr')) -> rel m' q' tr'.
Proof.
  intros H U (Hc & Hp & Hg) Hq Hl. split; [done|done|..].
  - destruct U as [_ U]. rewrite U; [apply H|]. cbn. intuition.
  - intros b Hb. destruct U as [Un U]. rewrite Un in Hb.
    assert (~ In b [qb; sb; lb]). { pose proof (ma_obj _ _ _ _ _ _ (r_q _ _ _ H)) as E1. pose proof (ma_store _ _ _ _ _ _ (r_q _ _ _ H)) as E2.
      pose proof (r_log _ _ _ H) as E3. apply (rel_below _ _ _ _ _ H) in E1, E2, E3. cbn. intros [<-|[<-|[<-|[]]]]; lia. }
    rewrite U by done. apply H. done.
  - rewrite Hp. eapply task_kept; [done|apply H].
  - rewrite Hg. eapply task_kept; [done|apply H].
Qed.
Lemma mq_at_lookup m m' q : mq_at p VI m qb sb q -> heap m' !! qb = heap m !! qb -> heap m' !! sb = heap m !! sb -> mq_at p VI m' qb sb q.
Proof. intros [H1 H2 Hne Hc Hn Hi] E1 E2. split; congruence || done. Qed.
Lemma say_rel m q tr e : rel m q tr -> rel (say (seen e) m) q (tr ++ [e]) /\ untouched m (say (seen e) m) [qb; sb; lb].
Proof.
  intros H. assert (U : untouched m (say (seen e) m) [qb; sb; lb]).
  { split; [done|]. intros b Hb. cbn. rewrite lookup_insert_ne; [done|]. cbn in Hb. intuition. }
  split; [|done]. eapply rel_make; [done|done|done| |].
  - eapply mq_at_lookup; [apply H|..]; cbn; rewrite lookup_insert_ne; done.
  - cbn. rewrite lookup_insert. unfold log. rewrite (r_log _ _ _ H). rewrite fmap_app, encs_app. change (seen <$> [e]) with [seen e]. rewrite encs_1. done.
Qed.
Lemma set_rel m q tr q' : rel m q tr -> same_conf q q' -> 0 <= m_cnt q' < size_mod p -> 0 <= m_index q' < size_mod p ->
  rel (set_mq VI m qb sb q') q' tr /\ untouched m (set_mq VI m qb sb q') [qb; sb; lb].
Proof.
  intros H Hs Hn Hi. assert (U : untouched m (set_mq VI m qb sb q') [qb; sb; lb]).
  { split; [done|]. intros b Hb. cbn. cbn in Hb. rewrite !lookup_insert_ne by intuition. done. }
  split; [|done]. eapply rel_make; [done|done|done| |].
  - destruct (r_q _ _ _ H) as [H1 H2 Hne Hc _ _]. split; [| |done| |done|done].
    + cbn. by rewrite lookup_insert.
    + cbn. rewrite lookup_insert_ne by done. by rewrite lookup_insert.
    + destruct Hs as [-> _]. done.
  - cbn. rewrite !lookup_insert_ne by done. apply H.
Qed.
Lemma item_rel m q tr eb v x : rel m q tr -> heap m !! eb = Some [v] -> eb <> 1%nat -> ~ In eb [qb; sb; lb] ->
  rel (set_item VI m eb x) q tr.
Proof.
  intros H He H1 Hn. cbn in Hn.
  assert (T : forall t, task_at m t -> task_at (set_item VI m eb x) t).
  { intros t [->|(Hp & Hd & fn & s & i & E & D)]; [by left|]. right. split; [done|]. split; [done|]. exists fn, s, i. split; [|done]. cbn.
    rewrite lookup_insert_ne; [done|]. intros ->. rewrite E in He. discriminate He. }
  split.
  - eapply mq_at_lookup; [apply H|..]; cbn; rewrite lookup_insert_ne by intuition; done.
  - cbn. rewrite lookup_insert_ne by intuition. apply H.
  - cbn. rewrite lookup_insert_ne by done. apply H.
  - intros b Hb. cbn in *. pose proof (rel_below _ _ _ _ _ H He). rewrite lookup_insert_ne by lia. by apply H.
  - apply T, H. - apply T, H.
Qed.
Lemma local_rel m q tr : rel m q tr ->
  rel (MkMem (<[next m := [VU]]> (heap m)) (S (next m))) q tr /\ next m <> 1%nat /\ ~ In (next m) [qb; sb; lb].
Proof.
  intros H. pose proof (rel_below _ _ _ _ _ H (r_hook _ _ _ H)).
  pose proof (rel_below _ _ _ _ _ H (r_log _ _ _ H)).
  pose proof (rel_below _ _ _ _ _ H (ma_obj _ _ _ _ _ _ (r_q _ _ _ H))).
  pose proof (rel_below _ _ _ _ _ H (ma_store _ _ _ _ _ _ (r_q _ _ _ H))).
  split; [|split; [lia|cbn; intuition lia]].
  assert (T : forall t, task_at m t -> task_at (MkMem (<[next m := [VU]]> (heap m)) (S (next m))) t).
  { intros t [->|(Hp & Hd & fn & s & i & E & D)]; [by left|]. right. split; [done|]. split; [done|]. exists fn, s, i. split; [|done]. cbn.
    pose proof (rel_below _ _ _ _ _ H E). rewrite lookup_insert_ne by lia. done. }
  split.
  - eapply mq_at_lookup; [apply H|..]; cbn; rewrite lookup_insert_ne by lia; done.
  - cbn. rewrite lookup_insert_ne by lia. apply H.
  - cbn. rewrite lookup_insert_ne by lia. apply H.
  - intros b Hb. cbn in *. rewrite lookup_insert_ne by lia. apply H. lia.
  - apply T, H. - apply T, H.
Qed.
Lemma exit_rel m q tr eb v : rel m q tr -> next m = S eb -> heap m !! eb = Some [v] -> eb <> 1%nat -> ~ In eb [qb; sb; lb] ->
  rel (MkMem (delete eb (heap m)) eb) q tr.
Proof.
  intros H Hx He H1 Hn. cbn in Hn.
  assert (T : forall t, task_at m t -> task_at (MkMem (delete eb (heap m)) eb) t).
  { intros t [->|(Hp & Hd & fn & s & i & E & D)]; [by left|]. right. split; [done|]. split; [done|]. exists fn, s, i. split; [|done]. cbn.
    rewrite lookup_delete_ne; [done|]. intros ->. rewrite E in He. discriminate He. }
  split.
  - eapply mq_at_lookup; [apply H|..]; cbn; rewrite lookup_delete_ne by intuition; done.
  - cbn. rewrite lookup_delete_ne by intuition. apply H.
  - cbn. rewrite lookup_delete_ne by done. apply H.
  - intros b Hb. cbn in *. destruct (decide (b = eb)) as [->|]; [apply lookup_delete|]. rewrite lookup_delete_ne by done. apply H. lia.
  - apply T, H. - apply T, H.
Qed.

(** ** Simulation *)
Definition sims {A} (r : res (mmq * list mev)) (s : res (A * mem)) (a : A) (m : mem) : Prop :=
  match r with
  | Ok (q', tr') => exists m', s = Ok (a, m') /\ rel m' q' tr' /\ untouched m m' [qb; sb; lb]
  | UB => s = UB
  | NoFuel => s = NoFuel
  end.
Definition cb_sim (cb : Z -> mmq -> list mev -> res (mmq * list mev)) (code : val -> list val -> mem -> res (val * ty * mem)) : Prop :=
  forall t m q tr fn, 0 < t -> rel m q tr -> sims (cb t q tr) (code fn [VP (Z.to_nat t) 0] m) (VI 0, Tvoid) m.

Section op.
Context (cb : Z -> mmq -> list mev -> res (mmq * list mev)) (code : val -> list val -> mem -> res (val * ty * mem)) (Hcb : cb_sim cb code).
(** the notification *)
Lemma notify_sim d m q tr t : rel m q tr -> task_at m t ->
  sims (if t =? 0 then Ok (q, tr) else cb t q tr) (let* m := notify p fuel ext code (S d) t m in Ok (tt, m)) tt m.
Proof.
  intros H [->|(Hp & Hn & fn & s & i & E & D)].
  - cbn. exists m. done.
  - unfold notify. destruct (Z.eqb_spec t 0); [lia|].
    erewrite src_call_nohook; [|apply H|exact E|exact D].
    pose proof (Hcb t m q tr fn Hp H) as Hc. destruct (cb t q tr) as [[q' tr']| |]; cbn in *.
    + destruct Hc as (m' & -> & Hr & U). cbn. exists m'. done.
    + rewrite Hc. done.
    + rewrite Hc. done.
Qed.
Lemma put_core_conf q x b q' : 0 <= m_cap q < size_mod p -> 0 <= m_cnt q < size_mod p -> 0 <= m_index q < size_mod p ->
  put_core p q x = Ok (b, q') -> same_conf q q' /\ 0 <= m_cnt q' < size_mod p /\ 0 <= m_index q' < size_mod p /\ (b = false -> q' = q).
Proof.
  intros Hc Hn Hi. unfold put_core. destruct (negb _); [|intros [= <- <-]; done].
  destruct (st _ _ _); cbn; try done. unfold umod. destruct (Z.eqb_spec (m_cap q) 0); cbn; try done.
  intros [= <- <-]. cbn. split; [done|]. split; [apply to_size_range|]. split; [|done].
  pose proof (Z.mod_pos_bound (to_size p (m_index q + 1)) (m_cap q)). lia.
Qed.
Lemma get_core_conf q f b e q' : 0 <= m_cap q < size_mod p -> 0 <= m_cnt q < size_mod p -> 0 <= m_index q < size_mod p ->
  get_core p q f = Ok (b, e, q') -> same_conf q q' /\ 0 <= m_cnt q' < size_mod p /\ 0 <= m_index q' < size_mod p /\
    (b = false -> q' = q /\ e = 0) /\ (f = false -> q' = q).
Proof.
  intros Hc Hn Hi. unfold get_core. destruct (negb _); [|intros [= <- <- <-]; done].
  destruct (ld _ _); cbn; try done. destruct f; intros [= <- <- <-]; cbn; split_and!; try done; try lia; apply to_size_range.
Qed.
Lemma as_bool_truth b : as_bool (truth b) = Ok b. Proof. destruct b; reflexivity. Qed.
Lemma VI_def : forall x : Z, defined (VI x) = Ok (VI x). Proof. done. Qed.

Lemma op_sim op m q tr : rel m q tr ->
  sims (do_call p cb op q tr) (let* '(o, m) := src_op code op (say (UCall op) m) in Ok (tt, say (URet op o) m)) tt m.
Proof.
  intros H.
  (* the beginning, for whatever result *)
  assert (H0 : forall o, rel (say (UCall op) m) q (tr ++ [EUpd op o])) by (intros o; apply (say_rel m q tr (EUpd op o)); done).
  assert (U0 : untouched m (say (UCall op) m) [qb; sb; lb]) by (apply (say_rel m q tr (EUpd op QUnit)); done).
  set (m0 := say (UCall op) m) in *. clearbody m0.
  (* the end *)
  assert (Hend : forall o m' q' tr', rel m' q' tr' -> untouched m m' [qb; sb; lb] ->
    sims (Ok (q', (tr' ++ [ERet op o])%list)) (Ok (tt, say (URet op o) m')) tt m).
  { intros o m' q' tr' H' U'. destruct (say_rel m' q' tr' (ERet op o) H') as [H2 U2]. cbn. eexists. split; [reflexivity|]. split; [done|]. by eapply untouched_trans. }
  assert (Hq0 : mq_at p VI m0 qb sb q) by apply (H0 QUnit).
  pose proof Hq0 as [_ _ _ Hc Hn Hi]. unfold do_call, src_op, mqcall, noupd.
  destruct op.
  - erewrite src_put by (exact VI_def || done). rewrite put_is_core.
    destruct (put_core p q x) as [[b q']| |] eqn:E; cbn [bind]; [|done|done].
    destruct (put_core_conf _ _ _ _ Hc Hn Hi E) as (Hs & Hn' & Hi' & Hb). destruct b.
    + destruct (set_rel _ _ _ q' (H0 (QBool true)) Hs Hn' Hi') as [H1 U1].
      pose proof (notify_sim 1 _ _ _ _ H1 (r_put _ _ _ H1)) as Hx.
      destruct (m_on_put q' =? 0); cbn [negb].
      * destruct Hx as (m' & Hx & H2 & U2). destruct (notify _ _ _ _ _ _ _); cbn in Hx; try discriminate Hx. injection Hx as ->.
        cbn [bind]. rewrite as_bool_truth. cbn [bind]. apply Hend; [done|]. do 2 (eapply untouched_trans; [done|]). done.
      * destruct (cb (m_on_put q') q' (tr ++ [EUpd (QPut x) (QBool true)])) as [[q2 tr2]| |]; cbn [sims] in Hx.
        -- destruct Hx as (m' & Hx & H2 & U2). destruct (notify _ _ _ _ _ _ _); cbn in Hx; try discriminate Hx. injection Hx as ->.
           cbn [bind]. rewrite as_bool_truth. cbn [bind]. apply Hend; [done|]. do 2 (eapply untouched_trans; [done|]). done.
        -- destruct (notify _ _ _ _ _ _ _); cbn in Hx; try discriminate Hx. done.
        -- destruct (notify _ _ _ _ _ _ _); cbn in Hx; try discriminate Hx. done.
    + rewrite Hb by done. cbn [bind]. rewrite as_bool_truth. cbn [bind]. apply Hend; done.
  - unfold mu_mqueue_get. rewrite get_is_core. unfold local.
    assert (HL : forall o, rel (MkMem (<[next m0 := [VU]]> (heap m0)) (S (next m0))) q (tr ++ [EUpd QGet o])) by (intros o; apply local_rel; done).
    destruct (local_rel _ _ _ (H0 QUnit)) as (_ & He1 & He). pose proof He as He'. cbn in He'.
    erewrite src_get; [|exact VI_def|done|apply (HL QUnit)|intuition|intuition|exists VU; cbn; apply lookup_insert].
    set (eb := next m0) in *. set (ml := MkMem (<[eb := [VU]]> (heap m0)) (S eb)) in *.
    assert (Hlv : heap ml !! eb = Some [VU]) by (cbn; apply lookup_insert).
    destruct (get_core p q true) as [[[b e] q']| |] eqn:E; cbn [bind]; [|done|done].
    destruct (get_core_conf _ _ _ _ _ Hc Hn Hi E) as (Hs & Hn' & Hi' & Hb & _).
    (* leaving the block *)
    assert (Hexit : forall q2 tr2 m', rel m' q2 tr2 -> untouched (set_item VI (set_mq VI ml qb sb q') eb e) m' [qb; sb; lb] ->
      sims (Ok (q2, (tr2 ++ [ERet QGet (QItem b e)])%list))
        (let* '(o, m) := let* '(o, m'0) := let* '(v, m) := let* '(v, _, m) := Ok (truth b, Tbool, m') in Ok (v, m) in
            let* b := as_bool v in let* e := load_mem m eb 0 in let* x := num e in Ok (QItem b x, m) in
            Ok (o, MkMem (delete eb (heap m'0)) eb) in Ok (tt, say (URet QGet o) m)) tt m).
    { intros q2 tr2 m' H2 [U2n U2]. assert (He2 : heap m' !! eb = Some [VI e]) by (rewrite U2 by done; cbn; apply lookup_insert).
      cbn [bind]. rewrite as_bool_truth. unfold load_mem. rewrite He2. cbn [bind ofopt].
      change (ld [VI e] 0) with (Ok (VI e)). cbn [bind num]. apply Hend.
      - eapply exit_rel; [done|rewrite U2n; done|done|done|done].
      - eapply untouched_trans; [done|]. split; [done|]. intros b' Hb'. cbn. destruct (decide (b' = eb)) as [->|Hne].
        + rewrite lookup_delete. symmetry. apply (H0 QUnit). subst eb. done.
        + rewrite lookup_delete_ne, U2 by done. cbn. rewrite lookup_insert_ne by done. cbn in Hb'. rewrite !lookup_insert_ne by intuition. done. }
    destruct b.
    + assert (H1 : rel (set_item VI (set_mq VI ml qb sb q') eb e) q' (tr ++ [EUpd QGet (QItem true e)])).
      { destruct (set_rel _ _ _ q' (HL (QItem true e)) Hs Hn' Hi') as [H1 U1]. eapply item_rel; [done| |done|done].
        destruct U1 as [_ U1]. rewrite U1 by done. done. }
      pose proof (notify_sim 0 _ _ _ _ H1 (r_get _ _ _ H1)) as Hx.
      destruct (m_on_get q' =? 0); cbn [negb].
      * destruct Hx as (m' & Hx & H2 & U2). destruct (notify _ _ _ _ _ _ _); cbn in Hx; try discriminate Hx. injection Hx as ->.
        apply (Hexit q' (tr ++ [EUpd QGet (QItem true e)])%list m'); done.
      * destruct (cb (m_on_get q') q' (tr ++ [EUpd QGet (QItem true e)])%list) as [[q2 tr2]| |]; cbn [sims] in Hx.
        -- destruct Hx as (m' & Hx & H2 & U2). destruct (notify _ _ _ _ _ _ _); cbn in Hx; try discriminate Hx. injection Hx as ->.
           apply (Hexit q2 tr2 m'); done.
        -- destruct (notify _ _ _ _ _ _ _); cbn in Hx; try discriminate Hx. done.
        -- destruct (notify _ _ _ _ _ _ _); cbn in Hx; try discriminate Hx. done.
    + destruct (Hb eq_refl) as [-> ->]. apply (Hexit q (tr ++ [EUpd QGet (QItem false 0)])%list); [|done].
      rewrite (set_same p) by apply (HL QUnit). eapply item_rel; [apply HL|done|done|done].
  - unfold mu_mqueue_peek. rewrite get_is_core. unfold local.
    assert (HL : forall o, rel (MkMem (<[next m0 := [VU]]> (heap m0)) (S (next m0))) q (tr ++ [EUpd QPeek o])) by (intros o; apply local_rel; done).
    destruct (local_rel _ _ _ (H0 QUnit)) as (_ & He1 & He). pose proof He as He'. cbn in He'.
    erewrite src_peek; [|exact VI_def|done|apply (HL QUnit)|intuition|intuition|exists VU; cbn; apply lookup_insert].
    set (eb := next m0) in *. set (ml := MkMem (<[eb := [VU]]> (heap m0)) (S eb)) in *.
    assert (Hlv : heap ml !! eb = Some [VU]) by (cbn; apply lookup_insert).
    destruct (get_core p q false) as [[[b e] q']| |] eqn:E; cbn [bind]; [|done|done].
    destruct (get_core_conf _ _ _ _ _ Hc Hn Hi E) as (Hs & Hn' & Hi' & _ & Hb). rewrite Hb by done. clear Hb.
    rewrite (set_same p) by apply (HL QUnit).
    replace (let* '(b0, e0, m1, tr0) := if b then Ok (true, e, q, tr) else Ok (false, e, q, tr) in
             Ok (m1, ((tr0 ++ [EUpd QPeek (QItem b0 e0)]) ++ [ERet QPeek (QItem b0 e0)])))%list
      with (Ok (q, ((tr ++ [EUpd QPeek (QItem b e)]) ++ [ERet QPeek (QItem b e)]))%list : res (mmq * list mev)) by (destruct b; done).
    cbn [bind]. rewrite as_bool_truth. unfold load_mem. cbn [bind]. cbn [set_item heap]. rewrite lookup_insert. cbn [ofopt bind].
    change (ld [VI e] 0) with (Ok (VI e)). cbn [bind num]. apply Hend.
    + eapply exit_rel; [apply item_rel with (v := VU); [apply HL|done..]|done| |done|done]. cbn. apply lookup_insert.
    + eapply untouched_trans; [done|]. split; [done|]. intros b' Hb'. cbn. destruct (decide (b' = eb)) as [->|Hne].
      * rewrite lookup_delete. symmetry. apply (H0 QUnit). subst eb. done.
      * rewrite lookup_delete_ne, !lookup_insert_ne by done. done.
  - erewrite src_reset by done. cbn [bind]. pose proof (size_mod_pos p).
    destruct (set_rel _ _ _ (mu_mqueue_reset q) (H0 QUnit)) as [H9 U1]; [done|cbn; lia|cbn; lia|].
    apply Hend; [done|]. by eapply untouched_trans.
  - erewrite src_count by done. cbn [bind num]. apply Hend; done.
  - erewrite src_capacity by done. cbn [bind num]. apply Hend; done.
  - erewrite src_is_empty by done. cbn [bind]. rewrite as_bool_truth. cbn [bind]. apply Hend; done.
  - erewrite src_is_full by done. cbn [bind]. rewrite as_bool_truth. cbn [bind]. apply Hend; done.
Qed.
End op.

Notation msigma := (fun tr => sigma (encs (seen <$> tr))).
Lemma body_sim n : forall m q tr, rel m q tr ->
  sims (body p msigma n q tr) (let* m := src_body n m in Ok (tt, m)) tt m.
Proof.
  induction n as [|n IH]; intros m q tr H; cbn [body src_body].
  - unfold log. rewrite (r_log _ _ _ H). destruct (sigma _); cbn; [done|]. exists m. done.
  - unfold log. rewrite (r_log _ _ _ H). destruct (sigma _) as [op|]; cbn [bind]; [|exists m; done].
    pose proof (op_sim (fun t m tr => let* '(m, tr) := body p msigma n m (tr ++ [ENotify t]) in Ok (m, (tr ++ [EDone t])%list))
      (task_fn (src_body n))) as Hop.
    specialize (Hop ltac:(intros t m1 q1 tr1 fn Ht H1; cbn [task_fn]; rewrite Z2Nat.id by lia;
      destruct (say_rel m1 q1 tr1 (ENotify t) H1) as [H2 U2]; pose proof (IH _ _ _ H2) as Hb; cbn [seen] in Hb, U2;
      destruct (body p msigma n q1 (tr1 ++ [ENotify t])) as [[q3 tr3]| |]; cbn [sims bind] in *;
      [ destruct Hb as (m3 & Hb & H3 & U3); destruct (src_body n _); cbn in Hb; try discriminate Hb; injection Hb as ->;
        destruct (say_rel m3 q3 tr3 (EDone t) H3) as [H4 U4]; cbn; eexists; split; [reflexivity|]; split; [done|];
        do 2 (eapply untouched_trans; [done|]); done
      | destruct (src_body n _); cbn in Hb; try discriminate Hb; done
      | destruct (src_body n _); cbn in Hb; try discriminate Hb; done ])).
    specialize (Hop op m q tr H).
    destruct (do_call _ _ _ _ _) as [[q1 tr1]| |]; cbn [sims bind] in Hop |- *.
    + destruct Hop as (m1 & Hop & H1 & U1). destruct (src_op _ _ _) as [[o m2]| |]; cbn in Hop; try discriminate Hop. injection Hop as <-.
      cbn [bind]. pose proof (IH _ _ _ H1) as Hb. destruct (body p msigma n q1 tr1) as [[q3 tr3]| |]; cbn [sims] in *; try done.
      destruct Hb as (m3 & Hb & H3 & U3). exists m3. split; [done|]. split; [done|]. by eapply untouched_trans.
    + destruct (src_op _ _ _) as [[o m2]| |]; cbn in Hop; try discriminate Hop. done.
    + destruct (src_op _ _ _) as [[o m2]| |]; cbn in Hop; try discriminate Hop. done.
Qed.
End source.

(** ** C112.  In any memory with a queue object [qb], an array [sb] of [cap] items, a log [lb], no call
    hook installed, and [on_put], [on_get] each NULL or a task with any function pointer: after
    [mu_mqueue_init], the program [sigma] - main code and tasks, which call the same queue again to any
    depth - never meets undefined behaviour.  If it stops, what it has written down is what it sees of a
    well-formed trace whose updates are a history of the bounded FIFO, and no object other than the
    queue, its storage and the log is changed. *)
Theorem C112_source_reentrant : forall p fuel ext qb sb lb sigma on_put on_get items m c n,
  heap m !! qb = Some c -> length c = 6%nat -> heap m !! sb = Some (VI <$> items) -> heap m !! lb = Some [] ->
  heap m !! 1%nat = Some [VI 0] ->
  NoDup [1%nat; qb; sb; lb] -> (forall b, (next m <= b)%nat -> heap m !! b = None) ->
  task_at qb sb lb m on_put -> task_at qb sb lb m on_get ->
  let cap := Z.of_nat (length items) in valid_cap p cap ->
  exists m1, mqcall p fuel ext (fun _ _ _ => UB) "mu_mqueue_init" [VP qb 0; VP sb 0; VI cap; tv on_put; tv on_get] m = Ok (VP qb 0, m1) /\
  (src_body p fuel ext qb lb sigma n m1 = NoFuel \/
   exists m2 tr, src_body p fuel ext qb lb sigma n m1 = Ok m2 /\
     heap m2 !! lb = Some (encs (seen <$> tr)) /\
     wf_body on_put on_get tr /\ fst (fifo_run cap [] (upd_ops tr)) = upd_obs tr /\
     untouched m m2 [qb; sb; lb]).
Proof.
  intros p fuel ext qb sb lb sigma on_put on_get items m c n H1 Hl H2 H3 Hh Hd Hf Hp Hg cap Hv.
  assert (Hcap : 0 <= cap < size_mod p) by (destruct Hv; unfold size_max in *; destruct p; cbn in *; lia).
  pose proof (size_mod_pos p).
  assert (Hd' : qb <> 1%nat /\ sb <> 1%nat /\ lb <> 1%nat /\ qb <> sb /\ lb <> qb /\ lb <> sb).
  { repeat (apply NoDup_cons in Hd as [Hx Hd]; rewrite ?not_elem_of_cons in Hx; revert Hx). intuition. }
  destruct Hd' as (Hq1 & Hs1 & Hl1 & Hne & Hlq & Hls).
  exists (set_mq VI m qb sb (mu_mqueue_init items cap on_put on_get)). split.
  { unfold mqcall. erewrite src_init by (done || exact VI_def). done. }
  set (m1 := set_mq VI m qb sb (mu_mqueue_init items cap on_put on_get)).
  assert (U : untouched m m1 [qb; sb; lb]).
  { split; [done|]. intros b Hb. cbn. cbn in Hb. rewrite !lookup_insert_ne by intuition. done. }
  assert (Hr : rel p qb sb lb m1 (mu_mqueue_init items cap on_put on_get) []).
  { split.
    - split; cbn; try done; try lia; [apply lookup_insert|]. rewrite lookup_insert_ne by done. apply lookup_insert.
    - cbn. rewrite !lookup_insert_ne by done. done.
    - cbn. rewrite !lookup_insert_ne by done. done.
    - intros b Hb. destruct U as [Un U]. rewrite Un in Hb. cbn. rewrite !lookup_insert_ne; [by apply Hf|..]; intros <-;
        rewrite Hf in * by done; discriminate.
    - eapply task_kept; done.
    - eapply task_kept; done. }
  pose proof (body_sim p fuel ext qb sb lb sigma Hlq Hls Hl1 Hq1 Hs1 n _ _ _ Hr) as Hb.
  destruct (C11_mqueue_reentrant p items cap on_put on_get (fun tr => sigma (encs (seen <$> tr))) n Hv eq_refl) as [E|(q & tr & E & Hw & Hfi & _)];
    rewrite E in Hb; cbn [sims] in Hb.
  - left. destruct (src_body _ _ _ _ _ _ _ _); cbn in Hb; try discriminate Hb. done.
  - destruct Hb as (m2 & Hb & Hr2 & U2). destruct (src_body _ _ _ _ _ _ _ _) as [m3| |]; cbn in Hb; try discriminate Hb. injection Hb as ->.
    right. exists m2, tr. split; [done|]. split; [apply Hr2|]. split; [done|]. split; [done|]. by eapply untouched_trans.
Qed.
Print Assumptions C112_source_reentrant.
(** ... and a program that stops after some number of events is executed completely *)
Theorem C112_source_completes : forall p fuel ext qb sb lb sigma on_put on_get items m c N,
  heap m !! qb = Some c -> length c = 6%nat -> heap m !! sb = Some (VI <$> items) -> heap m !! lb = Some [] ->
  heap m !! 1%nat = Some [VI 0] ->
  NoDup [1%nat; qb; sb; lb] -> (forall b, (next m <= b)%nat -> heap m !! b = None) ->
  task_at qb sb lb m on_put -> task_at qb sb lb m on_get ->
  let cap := Z.of_nat (length items) in valid_cap p cap ->
  (forall l, (N <= length l)%nat -> sigma (encs l) = None) ->
  exists m1 m2, mqcall p fuel ext (fun _ _ _ => UB) "mu_mqueue_init" [VP qb 0; VP sb 0; VI cap; tv on_put; tv on_get] m = Ok (VP qb 0, m1) /\
    src_body p fuel ext qb lb sigma (S N) m1 = Ok m2.
Proof.
  intros p fuel ext qb sb lb sigma on_put on_get items m c N H1 Hl H2 H3 Hh Hd Hf Hp Hg cap Hv HN.
  assert (Hcap : 0 <= cap < size_mod p) by (destruct Hv; unfold size_max in *; destruct p; cbn in *; lia).
  pose proof (size_mod_pos p).
  assert (Hd' : qb <> 1%nat /\ sb <> 1%nat /\ lb <> 1%nat /\ qb <> sb /\ lb <> qb /\ lb <> sb).
  { repeat (apply NoDup_cons in Hd as [Hx Hd]; rewrite ?not_elem_of_cons in Hx; revert Hx). intuition. }
  destruct Hd' as (Hq1 & Hs1 & Hl1 & Hne & Hlq & Hls).
  exists (set_mq VI m qb sb (mu_mqueue_init items cap on_put on_get)).
  set (m1 := set_mq VI m qb sb (mu_mqueue_init items cap on_put on_get)).
  assert (U : untouched m m1 [qb; sb; lb]).
  { split; [done|]. intros b Hb. cbn. cbn in Hb. rewrite !lookup_insert_ne by intuition. done. }
  assert (Hr : rel p qb sb lb m1 (mu_mqueue_init items cap on_put on_get) []).
  { split.
    - split; cbn; try done; try lia; [apply lookup_insert|]. rewrite lookup_insert_ne by done. apply lookup_insert.
    - cbn. rewrite !lookup_insert_ne by done. done.
    - cbn. rewrite !lookup_insert_ne by done. done.
    - intros b Hb. destruct U as [Un U]. rewrite Un in Hb. cbn. rewrite !lookup_insert_ne; [by apply Hf|..]; intros <-;
        rewrite Hf in * by done; discriminate.
    - eapply task_kept; done.
    - eapply task_kept; done. }
  pose proof (body_sim p fuel ext qb sb lb sigma Hlq Hls Hl1 Hq1 Hs1 (S N) _ _ _ Hr) as Hb.
  destruct (C11_mqueue_reentrant_completes p items cap on_put on_get (fun tr => sigma (encs (seen <$> tr))) N Hv eq_refl) as (q & tr & E).
  { intros tr Htr. apply HN. rewrite fmap_length. done. }
  rewrite E in Hb; cbn [sims] in Hb. destruct Hb as (m2 & Hb & _).
  destruct (src_body _ _ _ _ _ _ _ _) as [m3| |]; cbn in Hb; try discriminate Hb.
  exists m3. split; [|done]. unfold mqcall. erewrite src_init by (done || exact VI_def). done.
Qed.
Print Assumptions C112_source_completes.

(** the hypotheses are met, and the source can be run: the program of the example of C11, as a program
    over its log.  Task 100 is the object 100, with function pointer 7; task 200 has function pointer 8. *)
Definition ex_src_sigma (l : list val) : option qop :=
  if (72 <=? Z.of_nat (length l)) then None
  else match l with
  | [] => Some (QPut 1)
  | _ => match drop (length l - 6) l with
         | VI 2 :: VI 100 :: _ => Some QGet
         | VI 2 :: VI 200 :: _ => Some (QPut 5)
         | _ => None
         end
  end.
Definition ex_src_mem : mem :=
  MkMem (<[1%nat := [VI 0]]> (<[10%nat := [VU; VU; VU; VU; VU; VU]]> (<[11%nat := [VI 3; VI 3]]> (<[12%nat := []]>
    (<[100%nat := [VP 7 0; VI 0; VI 0]]> (<[200%nat := [VP 8 0; VI 0; VI 0]]> ∅)))))) 300.
Example C112_example :
  (let* '(_, m) := mqcall P32 0 (fun _ _ _ => UB) (fun _ _ _ => UB) "mu_mqueue_init" [VP 10 0; VP 11 0; VI 2; tv 100; tv 200] ex_src_mem in
   let* m := src_body P32 0 (fun _ _ _ => UB) 10 12 ex_src_sigma 20 m in Ok (heap m !! 12%nat)) =
  Ok (Some (encs [UCall (QPut 1); UNotify 100; UCall QGet; UNotify 200; UCall (QPut 5); UNotify 100; UCall QGet; UNotify 200;
   UCall (QPut 5); UNotify 100; UCall QGet; UNotify 200;
   UDone 200; URet QGet (QItem true 5); UDone 100; URet (QPut 5) (QBool true);
   UDone 200; URet QGet (QItem true 5); UDone 100; URet (QPut 5) (QBool true);
   UDone 200; URet QGet (QItem true 1); UDone 100; URet (QPut 1) (QBool true)])).
Proof. vm_compute. reflexivity. Qed.
Example C112_example_hyps : NoDup [1%nat; 10%nat; 11%nat; 12%nat] /\ task_at 10 11 12 ex_src_mem 100 /\ task_at 10 11 12 ex_src_mem 200 /\
  (forall b, (300 <= b)%nat -> heap ex_src_mem !! b = None).
Proof.
  split; [|split; [|split]].
  - repeat constructor; rewrite ?not_elem_of_cons; repeat split; try lia; apply not_elem_of_nil.
  - right. split; [lia|]. split; [cbn; intuition lia|]. exists (VP 7 0), (VI 0), (VI 0). vm_compute. done.
  - right. split; [lia|]. split; [cbn; intuition lia|]. exists (VP 8 0), (VI 0), (VI 0). vm_compute. done.
  - intros b Hb. cbn [heap ex_src_mem]. rewrite !lookup_insert_ne by lia. apply lookup_empty.
Qed.
