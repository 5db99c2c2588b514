(** * Properties C12-C15 (mu_spsc) *)
From Verif Require Import CSem FifoSpec SpscModel SpscProofs.

(** ** C12 *)
Theorem C12_spsc_init : forall q store size, 0 <= size <= 65535 ->
  ((exists k, 1 <= k /\ size = 2 ^ k) ->
     exists q', mu_spsc_init q store size = (SPSC_NONE, q') /\
       s_store q' = store /\ mu_spsc_capacity q' = size - 1 /\ mu_spsc_get q' = Ok (SPSC_EMPTY, NULL, q')) /\
  (~ (exists k, 1 <= k /\ size = 2 ^ k) -> mu_spsc_init q store size = (SPSC_SIZE, q)).
Proof.
  intros q store size Hs. unfold mu_spsc_init. split.
  - intros (k & Hk & Hsz).
    assert (2 <= size) by (rewrite Hsz; change 2 with (2 ^ 1) at 1; apply Z.pow_le_mono_r; lia).
    destruct (Z.ltb_spec size 2); [lia|].
    assert (IS_POWER_OF_TWO size = true) as ->.
    { unfold IS_POWER_OF_TWO. rewrite Hsz, pow2_land by lia. done. }
    simpl. eexists. split; [done|]. split; [done|]. split; [|done].
    unfold mu_spsc_capacity, to_u16; simpl. apply Z.mod_small. lia.
  - intros Hno. destruct (Z.ltb_spec size 2); [done|].
    destruct (IS_POWER_OF_TWO size) eqn:Hp; [|done]. exfalso. apply Hno.
    apply Z.eqb_eq in Hp. destruct (land_pow2 size) as (k & Hk & Hsz); [lia|done|].
    exists k. split; [|done]. destruct (Z.eq_dec k 0); [|lia]. subst k. change (2 ^ 0) with 1 in Hsz. lia.
Qed.
Print Assumptions C12_spsc_init.
Example C12_example : fst (mu_spsc_init (MkS [] 0 0 0) [0;0;0;0] 4) = SPSC_NONE /\
  fst (mu_spsc_init (MkS [] 0 0 0) [0;0;0] 3) = SPSC_SIZE /\ fst (mu_spsc_init (MkS [] 0 0 0) [0] 1) = SPSC_SIZE.
Proof. vm_compute. done. Qed.

(** ** C13 *)
Inductive sop := SPut (x : Z) | SGet | SReset | SCapacity.
Definition sop_q (o : sop) : qop := match o with SPut x => QPut x | SGet => QGet | SReset => QReset | SCapacity => QCapacity end.
Definition err_ok (e : spsc_err) : bool := match e with SPSC_NONE => true | _ => false end.
(** sequential driver; an error code other than the expected one shows up as
    [QUnit], which no specification step produces for these calls *)
Definition srun1 (q : spsc) (o : sop) : res (qobs * spsc) :=
  match o with
  | SPut x => let* '(e, q) := mu_spsc_put q x in
      Ok (match e with SPSC_NONE => QBool true | SPSC_FULL => QBool false | _ => QUnit end, q)
  | SGet => let* '(e, v, q) := mu_spsc_get q in
      Ok (match e with SPSC_NONE => QItem true v | SPSC_EMPTY => QItem false v | _ => QUnit end, q)
  | SReset => let '(e, q) := mu_spsc_reset q in Ok (match e with SPSC_NONE => QUnit | _ => QBool false end, q)
  | SCapacity => Ok (QNum (mu_spsc_capacity q), q)
  end.
Fixpoint srun (q : spsc) (os : list sop) : res (list qobs * spsc) :=
  match os with
  | [] => Ok ([], q)
  | o :: os => let* '(r, q) := srun1 q o in let* '(rs, q) := srun q os in Ok (r :: rs, q)
  end.

Lemma srun_ok size : forall ops q l, srep size q l ->
  exists q', srun q ops = Ok (fst (fifo_run (size - 1) l (map sop_q ops)), q') /\
    srep size q' (snd (fifo_run (size - 1) l (map sop_q ops))).
Proof.
  induction ops as [|o ops IH]; intros q l Hr; [by exists q|].
  assert (H1 : exists q1, srun1 q o = Ok (fst (fifo_step (size - 1) l (sop_q o)), q1) /\
     srep size q1 (snd (fifo_step (size - 1) l (sop_q o)))).
  { destruct o; simpl.
    - destruct (spsc_put_ok size q l x Hr) as (e & q' & -> & [(H1 & -> & H2)|(H1 & -> & ->)]); simpl;
      destruct (Z.ltb_spec (Z.of_nat (length l)) (size - 1)); try lia; eauto.
    - destruct (spsc_get_ok size q l Hr) as [(-> & ->)|(x & l' & q' & -> & -> & H)]; simpl; eauto.
    - eexists. split; [done|]. by apply (reset_rep size q l).
    - exists q. split; [|done]. destruct Hr as (_ & Hm & _). unfold mu_spsc_capacity. by rewrite Hm. }
  destruct H1 as (q1 & HE1 & Hr1). cbn [srun map fifo_run]. rewrite HE1. cbn [bind].
  destruct (fifo_step (size - 1) l (sop_q o)) as [o1 l1]. cbn [fst snd] in *.
  destruct (IH q1 l1 Hr1) as (q2 & -> & Hr2). simpl.
  destruct (fifo_run (size - 1) l1 (map sop_q ops)) as [os l2]. simpl in *. eauto.
Qed.

Theorem C13_spsc_sequential_fifo : forall q store size q0 ops,
  0 <= size <= 65535 -> Z.of_nat (length store) = size ->
  mu_spsc_init q store size = (SPSC_NONE, q0) ->
  exists q', srun q0 ops = Ok (fst (fifo_run (size - 1) [] (map sop_q ops)), q').
Proof.
  intros q store size q0 ops Hs Hl Hi.
  destruct (srun_ok size ops q0 []) as (q' & HE & _); [|eauto]. eapply init_rep; eauto.
Qed.
Print Assumptions C13_spsc_sequential_fifo.
Example C13_example : exists q', srun (snd (mu_spsc_init (MkS [] 0 0 0) [0;0;0;0] 4))
   [SPut 1; SPut 2; SPut 3; SPut 4; SGet; SPut 5; SGet; SGet; SGet; SGet; SCapacity] =
   Ok ([QBool true; QBool true; QBool true; QBool false; QItem true 1; QBool true; QItem true 2; QItem true 3;
        QItem true 5; QItem false 0; QNum 3], q').
Proof. eexists. vm_compute. reflexivity. Qed.

(** ** C14: every schedule of the single memory accesses of one producer and one
    consumer.  Each response is emitted by an access of its own call; the responses
    in that order are a legal history of the FIFO of capacity [size - 1]. *)
Theorem C14_spsc_linearizable : forall q store size q0 schedule,
  0 <= size <= 65535 -> Z.of_nat (length store) = size ->
  mu_spsc_init q store size = (SPSC_NONE, q0) ->
  exists s evs, crun (MkC q0 PIdle CIdle) schedule = Ok (s, evs) /\
    fst (fifo_run (size - 1) [] (map fst (concat (map ev_op evs)))) = map snd (concat (map ev_op evs)).
Proof.
  intros q store size q0 schedule Hs Hl Hi.
  destruct (crun_ok size schedule (MkC q0 PIdle CIdle) []) as (s & evs & l & HE & _ & Hf).
  - split; [|done]. eapply init_rep; eauto.
  - exists s, evs. split; [done|]. rewrite Hf. done.
Qed.
Print Assumptions C14_spsc_linearizable.

(** Consequence: the items taken are a prefix of the items put, in order: none
    lost, duplicated, reordered or invented. *)
Fixpoint put_items (evs : list sev) : list Z :=
  match evs with [] => [] | RespPut x true :: r => x :: put_items r | _ :: r => put_items r end.
Fixpoint got_items (evs : list sev) : list Z :=
  match evs with [] => [] | RespGet true x :: r => x :: got_items r | _ :: r => got_items r end.

Theorem C14_spsc_in_order : forall q store size q0 schedule,
  0 <= size <= 65535 -> Z.of_nat (length store) = size ->
  mu_spsc_init q store size = (SPSC_NONE, q0) ->
  exists s evs rest, crun (MkC q0 PIdle CIdle) schedule = Ok (s, evs) /\
    put_items evs = got_items evs ++ rest /\ Z.of_nat (length rest) <= size - 1.
Proof.
  intros q store size q0 schedule Hs Hl Hi.
  destruct (crun_ok size schedule (MkC q0 PIdle CIdle) []) as (s & evs & l & HE & (Hr & _) & Hf).
  - split; [|done]. eapply init_rep; eauto.
  - exists s, evs, l. split; [done|].
    pose proof (srep_bounds size _ _ Hr) as Hb. split; [|lia].
    assert (G : forall evs l0 l, fifo_run (size - 1) l0 (map fst (concat (map ev_op evs))) = (map snd (concat (map ev_op evs)), l) ->
      l0 ++ put_items evs = got_items evs ++ l).
    { clear. induction evs as [|e evs IH]; intros l0 l H; simpl in *.
      - injection H as ->. rewrite app_nil_r. done.
      - destruct e as [x|x b| |b v]; simpl in *.
        + by apply IH.
        + destruct (Z.of_nat (length l0) <? size - 1);
          destruct (fifo_run (size - 1) _ (map fst (concat (map ev_op evs)))) as [os l1] eqn:E;
          injection H as <- H2 <-; subst os; specialize (IH _ _ E); rewrite <- IH; [|done].
          rewrite <- app_assoc. done.
        + by apply IH.
        + destruct l0 as [|y l0];
          destruct (fifo_run (size - 1) _ (map fst (concat (map ev_op evs)))) as [os l1] eqn:E;
          injection H as <- <- H2 <-; subst os; specialize (IH _ _ E); simpl in *; rewrite <- IH; done. }
    specialize (G evs [] l Hf). done.
Qed.
Print Assumptions C14_spsc_in_order.

(** The micro-step machine is the same program as the sequential functions: a call
    run without interference does exactly what the C function does. *)
Theorem C14_put_microsteps : forall q c x,
  exists n, match mu_spsc_put q x with
  | Ok (e, q') => crun (MkC q PIdle c) (LPut x :: repeat LP n) = Ok (MkC q' PIdle c, [InvPut x; RespPut x (err_ok e)])
  | _ => crun (MkC q PIdle c) (LPut x :: repeat LP n) = UB
  end.
Proof.
  intros q c x. unfold mu_spsc_put.
  destruct (Z.eqb_spec (to_u16 (Z.land (s_tail q + 1) (s_mask q))) (s_head q)) as [He|Hne].
  - exists 2%nat. simpl. apply Z.eqb_eq in He. rewrite He. done.
  - exists 5%nat. apply Z.eqb_neq in Hne. simpl. rewrite Hne. simpl.
    destruct (st (s_store q) (s_tail q) x) eqn:E; simpl; rewrite ?E; simpl; try done.
    unfold st in E. destruct (_ && _); done.
Qed.
Print Assumptions C14_put_microsteps.
Theorem C14_get_microsteps : forall q pp,
  exists n, match mu_spsc_get q with
  | Ok (e, v, q') => crun (MkC q pp CIdle) (LGet :: repeat LC n) = Ok (MkC q' pp CIdle, [InvGet; RespGet (err_ok e) v])
  | _ => crun (MkC q pp CIdle) (LGet :: repeat LC n) = UB
  end.
Proof.
  intros q pp. unfold mu_spsc_get.
  destruct (Z.eqb_spec (s_head q) (s_tail q)) as [He|Hne].
  - exists 2%nat. simpl. apply Z.eqb_eq in He. rewrite He. done.
  - exists 6%nat. apply Z.eqb_neq in Hne. simpl. rewrite Hne. simpl.
    destruct (ld (s_store q) (s_head q)) eqn:E; simpl; rewrite ?E; simpl; try done.
    unfold ld in E. destruct (_ <? _); [done|]. destruct (_ !! _); done.
Qed.
Print Assumptions C14_get_microsteps.

Example C14_example : exists s, crun (MkC (snd (mu_spsc_init (MkS [] 0 0 0) [0;0] 2)) PIdle CIdle)
  [LPut 7; LP; LGet; LP; LC; LP; LP; LC; LP; LPut 8; LGet; LP; LC; LP; LC; LC; LC; LC; LC; LPut 9; LP; LP] =
  Ok (s, [InvPut 7; InvGet; RespGet false 0; RespPut 7 true; InvPut 8; InvGet; RespPut 8 false; RespGet true 7; InvPut 9]).
Proof. eexists. vm_compute. reflexivity. Qed.

(** ** C15 *)
(** In every reachable state, if the producer is about to write a slot and the
    consumer is about to read one, they are different slots. *)
Theorem C15_spsc_no_slot_race : forall q store size q0 schedule s evs item nt t h,
  0 <= size <= 65535 -> Z.of_nat (length store) = size ->
  mu_spsc_init q store size = (SPSC_NONE, q0) ->
  crun (MkC q0 PIdle CIdle) schedule = Ok (s, evs) ->
  c_p s = PWriteSlot item nt t -> c_c s = CReadSlot h -> t <> h.
Proof.
  intros q store size q0 schedule s evs item nt t h Hs Hl Hi HE Hp Hc.
  destruct (crun_ok size schedule (MkC q0 PIdle CIdle) []) as (s' & evs' & l & HE' & (Hr & Hpi & Hci) & Hf).
  { split; [|done]. eapply init_rep; eauto. }
  rewrite HE in HE'. injection HE' as <- <-. rewrite Hp in Hpi. rewrite Hc in Hci. simpl in *.
  destruct Hpi as (_ & _ & ->), Hci as (-> & Hne). intros Heq. apply Hne.
  apply (empty_iff size (c_q s) l Hr). done.
Qed.
Print Assumptions C15_spsc_no_slot_race.

(** From the consumer's successful emptiness check until its head update, no
    producer access changes the slot being fetched. *)
Definition fetching (c : cpc) : Prop :=
  match c with CLoadHead2 | CReadSlot _ | CLoadHead3 _ | CStoreHead _ _ => True | _ => False end.
Theorem C15_spsc_slot_stable : forall q store size q0 schedule s evs s' evs',
  0 <= size <= 65535 -> Z.of_nat (length store) = size ->
  mu_spsc_init q store size = (SPSC_NONE, q0) ->
  crun (MkC q0 PIdle CIdle) schedule = Ok (s, evs) ->
  fetching (c_c s) -> cstep s LP = Ok (s', evs') ->
  s_head (c_q s') = s_head (c_q s) /\
  s_store (c_q s') !! Z.to_nat (s_head (c_q s)) = s_store (c_q s) !! Z.to_nat (s_head (c_q s)).
Proof.
  intros q store size q0 schedule s evs s' evs' Hs Hl Hi HE Hfe Hst.
  destruct (crun_ok size schedule (MkC q0 PIdle CIdle) []) as (s1 & evs1 & l & HE' & (Hr & Hpi & Hci) & Hf).
  { split; [|done]. eapply init_rep; eauto. }
  rewrite HE in HE'. injection HE' as <- <-.
  pose proof (srep_bounds size _ _ Hr) as Hb.
  assert (Hne : s_head (c_q s) <> s_tail (c_q s)).
  { intros Heq. apply (empty_iff size _ l Hr) in Heq. subst l.
    destruct (c_c s); simpl in *; try done; naive_solver. }
  destruct s as [qq pp cc]; simpl in *. destruct pp; simpl in *; try (injection Hst as <- <-; done).
  - destruct (_ =? _); injection Hst as <- <-; done.
  - destruct Hpi as (_ & _ & ->). rewrite st_ok in Hst by lia. simpl in Hst. injection Hst as <- <-. simpl.
    split; [done|]. apply list_lookup_insert_ne. lia.
Qed.
Print Assumptions C15_spsc_slot_stable.
Example C15_example : exists s evs, crun (MkC (snd (mu_spsc_init (MkS [] 0 0 0) [0;0;0;0] 4)) PIdle CIdle)
  [LPut 7; LP; LP; LP; LP; LP; LPut 8; LP; LP; LP; LGet; LC; LC; LC] = Ok (s, evs) /\
  c_p s = PWriteSlot 8 2 1 /\ c_c s = CReadSlot 0.
Proof. eexists _, _. vm_compute. done. Qed.
