(** * Re-entrant executions of mu_mqueue *)
From Verif Require Import CSem FifoSpec Ring QueueModel MqueueModel MqueueSpec.

Definition mrep (p : plat) (m : mmq) (l : list Z) : Prop :=
  ringrep p (m_store m) (m_cap m) (m_cnt m) (m_index m) l.

(** ** The machine: the code in control (the main program, or a notification
    task) consults [sigma] with everything that happened so far: [Some op] = it
    calls [op] on the queue, [None] = it returns.  The world is the trace. *)
Section exec.
Context (p : plat) (sigma : list mev -> option qop).

Definition noupd (op : qop) (o : qobs) (tr : list mev) : list mev := tr ++ [EUpd op o].

(** one call by the code in control; [call] runs a notification task *)
Definition do_call (call : Z -> mmq -> list mev -> res (mmq * list mev))
    (op : qop) (m : mmq) (tr : list mev) : res (mmq * list mev) :=
  let ret (o : qobs) (m : mmq) (tr : list mev) := Ok (m, tr ++ [ERet op o]) in
  match op with
  | QPut x =>
    let* '(b, m, tr) := mu_mqueue_put p call (noupd op (QBool true)) m tr x in
    if b : bool then ret (QBool b) m tr else ret (QBool b) m (noupd op (QBool b) tr)
  | QGet =>
    let* '(b, e, m, tr) := mu_mqueue_get p call (fun e => noupd op (QItem true e)) m tr in
    if b : bool then ret (QItem b e) m tr else ret (QItem b e) m (noupd op (QItem b e) tr)
  | QPeek =>
    let* '(b, e, m, tr) := mu_mqueue_peek p call (fun e => noupd op (QItem true e)) m tr in
    ret (QItem b e) m (noupd op (QItem b e) tr)
  | QReset => ret QUnit (mu_mqueue_reset m) (noupd op QUnit tr)
  | QCount => ret (QNum (mu_mqueue_count m)) m (noupd op (QNum (mu_mqueue_count m)) tr)
  | QCapacity => ret (QNum (mu_mqueue_capacity m)) m (noupd op (QNum (mu_mqueue_capacity m)) tr)
  | QIsEmpty => ret (QBool (mu_mqueue_is_empty m)) m (noupd op (QBool (mu_mqueue_is_empty m)) tr)
  | QIsFull => ret (QBool (mu_mqueue_is_full m)) m (noupd op (QBool (mu_mqueue_is_full m)) tr)
  end.

Fixpoint body (fuel : nat) (m : mmq) (tr : list mev) : res (mmq * list mev) :=
  match sigma tr with
  | None => Ok (m, tr)
  | Some op =>
    match fuel with
    | O => NoFuel
    | S f =>
      let* '(m, tr) := do_call (fun t m tr =>
          let* '(m, tr) := body f m (tr ++ [ENotify t]) in
          Ok (m, tr ++ [EDone t])) op m tr in
      body f m tr
    end
  end.
End exec.

Lemma upd_ops_app t1 t2 : upd_ops (t1 ++ t2) = upd_ops t1 ++ upd_ops t2.
Proof. induction t1 as [|[] t1 IH]; simpl; try done. by rewrite IH. Qed.
Lemma upd_obs_app t1 t2 : upd_obs (t1 ++ t2) = upd_obs t1 ++ upd_obs t2.
Proof. induction t1 as [|[] t1 IH]; simpl; try done. by rewrite IH. Qed.

Section proofs.
Context (p : plat) (sigma : list mev -> option qop).

(** state/trace agreement: the updates in [tr] are a legal FIFO history that ends in [l] *)
Definition agree (m : mmq) (tr : list mev) : Prop :=
  exists l, mrep p m l /\ fifo_run (m_cap m) [] (upd_ops tr) = (upd_obs tr, l).

Definition same_conf (m m' : mmq) : Prop :=
  m_cap m' = m_cap m /\ m_on_put m' = m_on_put m /\ m_on_get m' = m_on_get m.

Lemma agree_upd m m' tr op o l :
  same_conf m m' -> mrep p m l -> fifo_run (m_cap m) [] (upd_ops tr) = (upd_obs tr, l) ->
  fst (fifo_step (m_cap m) l op) = o ->
  mrep p m' (snd (fifo_step (m_cap m) l op)) -> agree m' (tr ++ [EUpd op o]).
Proof.
  intros (Hc & _) Hr Hf Ho Hr'. exists (snd (fifo_step (m_cap m) l op)). split; [done|].
  rewrite upd_ops_app, upd_obs_app. simpl. rewrite Hc, fifo_run_app, Hf. simpl.
  destruct (fifo_step (m_cap m) l op) as [o' l'] eqn:E. simpl in *. subst. done.
Qed.

Lemma agree_silent m tr e : agree m tr -> (forall op o, e <> EUpd op o) -> agree m (tr ++ [e]).
Proof.
  intros (l & Hr & Hf) Hne. exists l. split; [done|]. rewrite upd_ops_app, upd_obs_app.
  destruct e; simpl; rewrite ?app_nil_r; try done. destruct (Hne op o eq_refl).
Qed.

(** good outcome of running from [m, tr] *)
Definition good (wf : list mev -> Prop) (m : mmq) (tr : list mev) (r : res (mmq * list mev)) : Prop :=
  r = NoFuel \/ exists m' ext, r = Ok (m', tr ++ ext) /\ same_conf m m' /\ agree m' (tr ++ ext) /\ wf ext.

Lemma same_conf_refl m : same_conf m m. Proof. done. Qed.
Lemma same_conf_trans m1 m2 m3 : same_conf m1 m2 -> same_conf m2 m3 -> same_conf m1 m3.
Proof. intros (?&?&?) (?&?&?). unfold same_conf. split_and!; congruence. Qed.

Definition good_cb (call : Z -> mmq -> list mev -> res (mmq * list mev)) : Prop :=
  forall t m tr, agree m tr ->
    good (fun ext => exists b, ext = ENotify t :: b ++ [EDone t] /\ wf_body (m_on_put m) (m_on_get m) b) m tr (call t m tr).

Lemma do_call_good call op m tr : good_cb call -> agree m tr ->
  good (wf_call (m_on_put m) (m_on_get m)) m tr (do_call p call op m tr).
Proof.
  intros Hcb Ha. pose proof Ha as (l & Hr & Hf). pose proof (ring_bounds _ _ _ _ _ _ Hr) as Hb.
  (* quiet calls *)
  assert (Hq : forall m' o, same_conf m m' -> fst (fifo_step (m_cap m) l op) = o ->
     mrep p m' (snd (fifo_step (m_cap m) l op)) -> notify_of (m_on_put m) (m_on_get m) op o = 0 ->
     good (wf_call (m_on_put m) (m_on_get m)) m tr (Ok (m', (tr ++ [EUpd op o]) ++ [ERet op o]))).
  { intros m' o Hs Ho Hr' Hn. right. exists m', [EUpd op o; ERet op o].
    split. { rewrite <- app_assoc. done. } split; [done|]. split; [|by constructor].
    rewrite (app_assoc tr [EUpd op o] [ERet op o] : tr ++ [EUpd op o; ERet op o] = _).
    apply agree_silent; [|done]. eapply agree_upd; eauto. }
  (* notifying calls *)
  assert (Hn : forall m' o t, same_conf m m' -> fst (fifo_step (m_cap m) l op) = o ->
     mrep p m' (snd (fifo_step (m_cap m) l op)) -> notify_of (m_on_put m) (m_on_get m) op o = t -> t <> 0 ->
     good (wf_call (m_on_put m) (m_on_get m)) m tr
       (let* '(m2, tr2) := call t m' (tr ++ [EUpd op o]) in Ok (m2, tr2 ++ [ERet op o]))).
  { intros m' o t Hs Ho Hr' Hnt Ht0.
    assert (Ha' : agree m' (tr ++ [EUpd op o])) by (eapply agree_upd; eauto).
    destruct (Hcb t m' _ Ha') as [->|(m2 & ext & -> & Hs2 & Ha2 & (b & -> & Hwb))]; [by left|]. simpl.
    right. exists m2, (EUpd op o :: ENotify t :: b ++ [EDone t; ERet op o]).
    assert (Heq : ((tr ++ [EUpd op o]) ++ ENotify t :: b ++ [EDone t]) ++ [ERet op o] =
                  tr ++ EUpd op o :: ENotify t :: b ++ [EDone t; ERet op o]).
    { rewrite <- !app_assoc. simpl. rewrite <- !app_assoc. done. }
    split; [f_equal; f_equal; exact Heq|].
    split; [eapply same_conf_trans; eauto|]. split.
    - rewrite <- Heq. apply agree_silent; [done|done].
    - destruct Hs as (_ & Hp & Hg). rewrite Hp, Hg in Hwb. apply wc_notify; done. }
  destruct op; simpl do_call; unfold noupd.
  - (* put *)
    unfold mu_mqueue_put, mu_mqueue_is_full.
    destruct (Z.eqb_spec (m_cnt m) (m_cap m)) as [He|Hne]; simpl negb; cbv iota.
    + simpl. apply (Hq m (QBool false)); simpl; [done| | |done];
      destruct (Z.ltb_spec (Z.of_nat (length l)) (m_cap m)); try lia; done.
    + destruct (ring_put p _ _ _ _ _ x Hr) as (s' & -> & Hr'); [lia|]. simpl.
      unfold umod. destruct (Z.eqb_spec (m_cap m) 0); [lia|]. simpl.
      rewrite !to_size_id by lia.
      set (m' := MkM s' (m_cap m) (m_cnt m + 1) ((m_index m + 1) mod m_cap m) (m_on_put m) (m_on_get m)).
      assert (Hstep : fifo_step (m_cap m) l (QPut x) = (QBool true, l ++ [x])).
      { simpl. destruct (Z.ltb_spec (Z.of_nat (length l)) (m_cap m)); [done|lia]. }
      destruct (Z.eqb_spec (m_on_put m) 0) as [Hz|Hnz]; simpl.
      * apply (Hq m' (QBool true)); [done|by rewrite Hstep|rewrite Hstep; done|simpl; done].
      * specialize (Hn m' (QBool true) (m_on_put m)). rewrite Hstep in Hn.
        specialize (Hn ltac:(done) eq_refl Hr' eq_refl Hnz).
        destruct (call (m_on_put m) m' (tr ++ [EUpd (QPut x) (QBool true)])) as [[m2 tr2]| |]; simpl in *; done.
  - (* get *)
    unfold mu_mqueue_get, maccess_queue, mu_mqueue_is_empty.
    destruct l as [|x l].
    + simpl in Hb. destruct (Z.eqb_spec (m_cnt m) 0); [|lia]. simpl.
      apply (Hq m (QItem false 0)); done.
    + simpl in Hb. destruct (Z.eqb_spec (m_cnt m) 0); [lia|]. simpl.
      pose proof (ring_oldest p _ _ _ _ _ _ Hr) as Ho. unfold ring_idx in Ho. simpl in Ho. rewrite Ho. simpl.
      rewrite to_size_id by lia.
      pose proof (ring_get p _ _ _ _ _ _ Hr) as Hr'.
      set (m' := MkM (m_store m) (m_cap m) (m_cnt m - 1) (m_index m) (m_on_put m) (m_on_get m)).
      destruct (Z.eqb_spec (m_on_get m) 0) as [Hz|Hnz]; simpl.
      * apply (Hq m' (QItem true x)); done.
      * specialize (Hn m' (QItem true x) (m_on_get m) ltac:(done) eq_refl Hr' eq_refl Hnz).
        destruct (call (m_on_get m) m' (tr ++ [EUpd QGet (QItem true x)])) as [[m2 tr2]| |]; simpl in *; done.
  - (* peek *)
    unfold mu_mqueue_peek, maccess_queue, mu_mqueue_is_empty.
    destruct l as [|x l].
    + simpl in Hb. destruct (Z.eqb_spec (m_cnt m) 0); [|lia]. simpl.
      apply (Hq m (QItem false 0)); done.
    + simpl in Hb. destruct (Z.eqb_spec (m_cnt m) 0); [lia|]. simpl.
      pose proof (ring_oldest p _ _ _ _ _ _ Hr) as Ho. unfold ring_idx in Ho. simpl in Ho. rewrite Ho. simpl.
      apply (Hq m (QItem true x)); done.
  - apply (Hq (mu_mqueue_reset m) QUnit); try done. eapply ring_reset; done.
  - apply (Hq m); try done. simpl. unfold mu_mqueue_count. f_equal. lia.
  - apply (Hq m); done.
  - apply (Hq m); try done. simpl. unfold mu_mqueue_is_empty. f_equal.
    destruct l; simpl in *; destruct (Z.eqb_spec (m_cnt m) 0); done || lia.
  - apply (Hq m); try done. simpl. unfold mu_mqueue_is_full. f_equal. f_equal. lia.
Qed.

Lemma body_good : forall fuel m tr, agree m tr ->
  good (wf_body (m_on_put m) (m_on_get m)) m tr (body p sigma fuel m tr).
Proof.
  induction fuel as [|f IH]; intros m tr Ha; simpl; destruct (sigma tr) as [op|].
  - by left.
  - right. exists m, []. rewrite app_nil_r. split_and!; try done. constructor.
  - pose proof (do_call_good (fun t m0 tr0 =>
          let* '(m1, tr1) := body p sigma f m0 (tr0 ++ [ENotify t]) in Ok (m1, tr1 ++ [EDone t])) op m tr) as Hd.
    destruct Hd as [->|(m1 & e1 & -> & Hs1 & Ha1 & Hw1)].
    + intros t m0 tr0 Ha0.
      destruct (IH m0 (tr0 ++ [ENotify t])) as [->|(m1 & ext & -> & Hs1 & Ha1 & Hw1)].
      { apply agree_silent; done. } { by left. }
      simpl. right. exists m1, (ENotify t :: ext ++ [EDone t]).
      assert (Heq : ((tr0 ++ [ENotify t]) ++ ext) ++ [EDone t] = tr0 ++ ENotify t :: ext ++ [EDone t]).
      { rewrite <- !app_assoc. done. }
      split; [by rewrite Heq|]. split; [done|]. split; [|eauto]. rewrite <- Heq. apply agree_silent; done.
    + done.
    + by left.
    + simpl. destruct (IH m1 (tr ++ e1) Ha1) as [->|(m2 & e2 & -> & Hs2 & Ha2 & Hw2)]; [by left|].
      right. exists m2, (e1 ++ e2). rewrite (app_assoc tr). split; [done|].
      split; [eapply same_conf_trans; eauto|]. split; [done|].
      apply wb_call; [done|]. destruct Hs1 as (_ & Hp & Hg). rewrite Hp, Hg in Hw2. done.
  - right. exists m, []. rewrite app_nil_r. split_and!; try done. constructor.
Qed.

(** a program that stops acting after [N] events is executed completely *)
Lemma body_terminates N : (forall tr, (N <= length tr)%nat -> sigma tr = None) ->
  forall fuel m tr, agree m tr -> (N - length tr < fuel)%nat -> body p sigma fuel m tr <> NoFuel.
Proof.
  intros HN. induction fuel as [|f IH]; intros m tr Ha Hf; [lia|]. simpl.
  destruct (sigma tr) as [op|] eqn:Es; [|done].
  assert (HlN : (length tr < N)%nat).
  { destruct (decide (N <= length tr)%nat); [|lia]. rewrite HN in Es by done. done. }
  set (call := fun t m0 tr0 => let* '(m1, tr1) := body p sigma f m0 (tr0 ++ [ENotify t]) in Ok (m1, tr1 ++ [EDone t])).
  assert (Hcb : good_cb call).
  { intros t m0 tr0 Ha0. unfold call.
    destruct (body_good f m0 (tr0 ++ [ENotify t])) as [->|(m1 & ext & -> & Hs1 & Ha1 & Hw1)].
    { apply agree_silent; done. } { by left. }
    simpl. right. exists m1, (ENotify t :: ext ++ [EDone t]).
    assert (Heq : ((tr0 ++ [ENotify t]) ++ ext) ++ [EDone t] = tr0 ++ ENotify t :: ext ++ [EDone t]).
    { rewrite <- !app_assoc. done. }
    split; [by rewrite Heq|]. split; [done|]. split; [|eauto]. rewrite <- Heq. apply agree_silent; done. }
  assert (Hcn : forall t m0 tr0, agree m0 tr0 -> (length tr < length tr0)%nat -> call t m0 tr0 <> NoFuel).
  { intros t m0 tr0 Ha0 Hl0. unfold call.
    specialize (IH m0 (tr0 ++ [ENotify t])). rewrite app_length in IH. simpl in IH.
    destruct (body p sigma f m0 (tr0 ++ [ENotify t])) as [[m1 tr1]| |]; simpl; try done.
    intros _. apply IH; [apply agree_silent; done|lia|done]. }
  assert (Hdn : do_call p call op m tr <> NoFuel).
  { destruct Ha as (l & Hr & Hf'). pose proof (ring_bounds _ _ _ _ _ _ Hr) as Hb.
    assert (Hcn' : forall o t m', same_conf m m' -> fst (fifo_step (m_cap m) l op) = o ->
      mrep p m' (snd (fifo_step (m_cap m) l op)) -> call t m' (tr ++ [EUpd op o]) <> NoFuel).
    { intros o t m' ? ? ?. apply Hcn; [eapply agree_upd; eauto|]. rewrite app_length; simpl; lia. }
    destruct op; simpl; unfold noupd.
    - unfold mu_mqueue_put, mu_mqueue_is_full.
      destruct (Z.eqb_spec (m_cnt m) (m_cap m)) as [He|Hne]; simpl negb; cbv iota; [done|].
      destruct (ring_put p _ _ _ _ _ x Hr) as (s' & -> & Hr'); [lia|]. simpl.
      unfold umod. destruct (Z.eqb_spec (m_cap m) 0); [lia|]. simpl.
      destruct (Z.eqb_spec (m_on_put m) 0); simpl; [done|].
      match goal with |- bind (bind (call ?t ?m' ?tr') _) _ <> _ => 
        assert (Hx : call t m' tr' <> NoFuel); [|destruct (call t m' tr') as [[? ?]| |]; simpl; done] end.
      rewrite !to_size_id by lia.
      apply Hcn'; [done| |]; simpl; destruct (Z.ltb_spec (Z.of_nat (length l)) (m_cap m)); try lia; done.
    - unfold mu_mqueue_get, maccess_queue, mu_mqueue_is_empty.
      destruct l as [|x l].
      + simpl in Hb. destruct (Z.eqb_spec (m_cnt m) 0); [|lia]. simpl. done.
      + simpl in Hb. destruct (Z.eqb_spec (m_cnt m) 0); [lia|]. simpl.
        pose proof (ring_oldest p _ _ _ _ _ _ Hr) as Ho. unfold ring_idx in Ho. simpl in Ho. rewrite Ho. simpl.
        destruct (Z.eqb_spec (m_on_get m) 0); simpl; [done|].
        match goal with |- bind (bind (call ?t ?m' ?tr') _) _ <> _ => 
          assert (Hx : call t m' tr' <> NoFuel); [|destruct (call t m' tr') as [[? ?]| |]; simpl; done] end.
        rewrite !to_size_id by lia.
        apply Hcn'; [done|done|]. simpl. eapply ring_get; done.
    - unfold mu_mqueue_peek, maccess_queue, mu_mqueue_is_empty.
      destruct (Z.eqb_spec (m_cnt m) 0); simpl; [done|].
      match goal with |- context [ld ?a ?b] => unfold ld; destruct (b <? 0); [done|]; destruct (a !! Z.to_nat b); done end.
    - done. - done. - done. - done. - done. }
  destruct (do_call_good call op m tr Hcb Ha) as [?|(m1 & e1 & -> & Hs1 & Ha1 & Hw1)]; [done|].
  simpl. apply IH; [done|]. rewrite app_length.
  assert (1 <= length e1)%nat by (destruct Hw1; simpl; lia). lia.
Qed.
End proofs.
