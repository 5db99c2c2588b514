(** * Refinement of mu_queue to the bounded FIFO *)
From Verif Require Import CSem FifoSpec Ring QueueModel.

Definition qrep (p : plat) (q : mqueue) (l : list Z) : Prop :=
  ringrep p (q_store q) (q_cap q) (q_cnt q) (q_index q) l.

(** One API call of the model and what the caller sees. *)
Definition qrun1 (p : plat) (q : mqueue) (op : qop) : res (qobs * mqueue) :=
  match op with
  | QPut x => let* '(b, q') := mu_queue_put p q x in Ok (QBool b, q')
  | QGet => let* '(b, e, q') := mu_queue_get p q in Ok (QItem b e, q')
  | QPeek => let* '(b, e, q') := mu_queue_peek p q in Ok (QItem b e, q')
  | QReset => Ok (QUnit, mu_queue_reset q)
  | QCount => Ok (QNum (mu_queue_count q), q)
  | QCapacity => Ok (QNum (mu_queue_capacity q), q)
  | QIsEmpty => Ok (QBool (mu_queue_is_empty q), q)
  | QIsFull => Ok (QBool (mu_queue_is_full q), q)
  end.

Fixpoint qrun (p : plat) (q : mqueue) (ops : list qop) : res (list qobs * mqueue) :=
  match ops with
  | [] => Ok ([], q)
  | op :: ops => let* '(o, q) := qrun1 p q op in
                 let* '(os, q) := qrun p q ops in Ok (o :: os, q)
  end.

Section proofs.
Context (p : plat).

Lemma put_ok q l x : qrep p q l ->
  exists b q', mu_queue_put p q x = Ok (b, q') /\ q_cap q' = q_cap q /\
   ((Z.of_nat (length l) < q_cap q /\ b = true /\ qrep p q' (l ++ [x])) \/
    (Z.of_nat (length l) = q_cap q /\ b = false /\ q' = q)).
Proof.
  intros Hr. pose proof (ring_bounds _ _ _ _ _ _ Hr) as Hb.
  unfold mu_queue_put, mu_queue_is_full.
  destruct (Z.eqb_spec (q_cnt q) (q_cap q)) as [He|Hne]; simpl.
  - exists false, q. split_and!; try done. right. split_and!; try done. lia.
  - destruct (ring_put p _ _ _ _ _ x Hr) as (s' & -> & Hr'); [lia|]. simpl.
    unfold umod. destruct (Z.eqb_spec (q_cap q) 0); [lia|]. simpl.
    eexists _, _. split; [done|]. split; [done|]. left. split; [lia|]. split; [done|].
    unfold qrep; simpl. rewrite !to_size_id by lia. done.
Qed.

Lemma access_ok q l fetch : qrep p q l ->
  (l = [] /\ access_queue p q fetch = Ok (false, 0, q)) \/
  (exists x l' q', l = x :: l' /\ access_queue p q fetch = Ok (true, x, q') /\ q_cap q' = q_cap q /\
     if fetch then qrep p q' l' else q' = q).
Proof.
  intros Hr. pose proof (ring_bounds _ _ _ _ _ _ Hr) as Hb.
  unfold access_queue, mu_queue_is_empty.
  destruct l as [|x l].
  - left. split; [done|]. simpl in *. destruct (Z.eqb_spec (q_cnt q) 0); [done|lia].
  - right. simpl in *. destruct (Z.eqb_spec (q_cnt q) 0); [lia|]. simpl.
    pose proof (ring_oldest p _ _ _ _ _ _ Hr) as Ho. unfold ring_idx in Ho. simpl in Ho. rewrite Ho. simpl.
    eexists x, l, _. split; [done|]. split; [done|]. destruct fetch; [|done]. split; [done|].
    unfold qrep; simpl. rewrite to_size_id by lia. eapply ring_get; done.
Qed.

Lemma qrun1_ok q l op : qrep p q l ->
  exists q', qrun1 p q op = Ok (fst (fifo_step (q_cap q) l op), q') /\ q_cap q' = q_cap q /\
    qrep p q' (snd (fifo_step (q_cap q) l op)).
Proof.
  intros Hr. pose proof (ring_bounds _ _ _ _ _ _ Hr) as Hb. destruct op; simpl.
  - destruct (put_ok q l x Hr) as (b & q' & -> & Hc & [(H1 & -> & H2)|(H1 & -> & ->)]); simpl.
    + destruct (Z.ltb_spec (Z.of_nat (length l)) (q_cap q)); [|lia]. eexists; split_and!; done.
    + destruct (Z.ltb_spec (Z.of_nat (length l)) (q_cap q)); [lia|]. eexists; split_and!; done.
  - unfold mu_queue_get. destruct (access_ok q l true Hr) as [(-> & ->)|(x & l' & q' & -> & -> & Hc & Hr')]; simpl; eexists; split_and!; done.
  - unfold mu_queue_peek. destruct (access_ok q l false Hr) as [(-> & ->)|(x & l' & q' & -> & -> & Hc & ->)]; simpl; eexists; split_and!; done.
  - eexists; split_and!; try done. eapply ring_reset; done.
  - unfold mu_queue_count. eexists; split_and!; try done. repeat f_equal. lia.
  - eexists; split_and!; done.
  - unfold mu_queue_is_empty. eexists; split_and!; try done. repeat f_equal.
    destruct l; simpl in *; destruct (Z.eqb_spec (q_cnt q) 0); done || lia.
  - unfold mu_queue_is_full. eexists; split_and!; try done. repeat f_equal. lia.
Qed.

Lemma qrun_ok : forall ops q l, qrep p q l ->
  exists q', qrun p q ops = Ok (fst (fifo_run (q_cap q) l ops), q') /\ q_cap q' = q_cap q /\
    qrep p q' (snd (fifo_run (q_cap q) l ops)).
Proof.
  induction ops as [|op ops IH]; intros q l Hr; simpl.
  - eexists; split_and!; done.
  - destruct (qrun1_ok q l op Hr) as (q1 & -> & Hc1 & Hr1). simpl.
    destruct (fifo_step (q_cap q) l op) as [o l1] eqn:E1. simpl in *.
    destruct (IH q1 l1 Hr1) as (q2 & -> & Hc2 & Hr2). rewrite Hc1 in *.
    destruct (fifo_run (q_cap q) l1 ops) as [os l2] eqn:E2. simpl in *.
    eexists. split_and!; done.
Qed.
End proofs.

(** conservation, on the specification *)
Lemma fifo_conserve cap : forall ops l os l', ~ In QReset ops ->
  fifo_run cap l ops = (os, l') -> gets_of ops os ++ l' = l ++ puts_of ops os.
Proof.
  induction ops as [|op ops IH]; intros l os l' Hno H; simpl in H.
  - injection H as <- <-. simpl. rewrite app_nil_r. done.
  - destruct (fifo_step cap l op) as [o l1] eqn:E1. destruct (fifo_run cap l1 ops) as [os1 l2] eqn:E2.
    injection H as <- <-.
    assert (Hno' : ~ In QReset ops) by (intros ?; apply Hno; right; done).
    specialize (IH l1 os1 l2 Hno' E2).
    destruct op; simpl in *.
    + destruct (Z.of_nat (length l) <? cap); injection E1 as <- <-; simpl; rewrite IH; [|done].
      rewrite <- app_assoc. done.
    + destruct l as [|x l]; injection E1 as <- <-; simpl; rewrite IH; done.
    + destruct l as [|x l]; injection E1 as <- <-; simpl; rewrite IH; done.
    + exfalso; apply Hno; by left.
    + injection E1 as <- <-; done.
    + injection E1 as <- <-; done.
    + injection E1 as <- <-; done.
    + injection E1 as <- <-; done.
Qed.
