(** * Properties C08, C09 (mu_queue) *)
From Verif Require Import CSem FifoSpec Ring QueueModel QueueProofs.

(** ** C08: any history of calls returns what the bounded FIFO returns; no UB. *)
Theorem C08_queue_refines_fifo : forall p storage cap ops,
  valid_cap p cap -> Z.of_nat (length storage) = cap ->
  exists q', qrun p (mu_queue_init storage cap) ops = Ok (fst (fifo_run cap [] ops), q') /\
    mu_queue_count q' = Z.of_nat (length (snd (fifo_run cap [] ops))) /\
    Z.of_nat (length (q_store q')) = cap.
Proof.
  intros p storage cap ops Hv Hl.
  destruct (qrun_ok p ops (mu_queue_init storage cap) []) as (q' & HE & Hc & Hr).
  { by apply ring_init. }
  exists q'. split; [exact HE|]. destruct (ring_bounds _ _ _ _ _ _ Hr) as (_ & _ & _ & H1 & H2 & _).
  simpl in *. split; [exact H1|]. congruence.
Qed.
Print Assumptions C08_queue_refines_fifo.

Example C08_example : qrun P32 (mu_queue_init [7;7;7] 3)
  [QPut 1; QPut 2; QGet; QPut 3; QPut 4; QPut 5; QIsFull; QPeek; QGet; QGet; QGet; QGet; QCount] =
  Ok ([QBool true; QBool true; QItem true 1; QBool true; QBool true; QBool false; QBool true; QItem true 2;
       QItem true 2; QItem true 3; QItem true 4; QItem false NULL; QNum 0], MkQ [4;2;3] 3 0 1).
Proof. vm_compute. reflexivity. Qed.
Example C08_example_cap0 : qrun P32 (mu_queue_init [] 0) [QPut 1; QGet; QIsFull; QIsEmpty] =
  Ok ([QBool false; QItem false NULL; QBool true; QBool true], MkQ [] 0 0 0).
Proof. vm_compute. reflexivity. Qed.

(** ** C09: gets ++ still queued = puts, in order.  What is still queued is what
    a run of [get] calls returns, so it is stated through the API: draining. *)
Theorem C09_queue_conserves : forall p storage cap ops,
  valid_cap p cap -> Z.of_nat (length storage) = cap -> ~ In QReset ops ->
  exists os q, qrun p (mu_queue_init storage cap) ops = Ok (os, q) /\
    exists left, gets_of ops os ++ left = puts_of ops os /\
      Z.of_nat (length left) = mu_queue_count q /\
      exists q', qrun p q (repeat QGet (length left)) = Ok (map (QItem true) left, q') /\ mu_queue_is_empty q' = true.
Proof.
  intros p storage cap ops Hv Hl Hno.
  destruct (qrun_ok p ops (mu_queue_init storage cap) []) as (q & HE & Hc & Hr); [by apply ring_init|].
  simpl in *. destruct (fifo_run cap [] ops) as [os l] eqn:E. simpl in *.
  exists os, q. split; [done|]. exists l. split.
  { pose proof (fifo_conserve cap ops [] os l Hno E). done. }
  split. { destruct (ring_bounds _ _ _ _ _ _ Hr) as (_ & _ & _ & H1 & _). done. }
  destruct (qrun_ok p (repeat QGet (length l)) q l Hr) as (q' & HE' & Hc' & Hr').
  assert (G : forall c k, fifo_run c k (repeat QGet (length k)) = (map (QItem true) k, [])).
  { clear. intros c. induction k as [|x k IH]; [done|]. simpl. rewrite IH. done. }
  rewrite G in HE', Hr'. exists q'. split; [done|].
  destruct (ring_bounds _ _ _ _ _ _ Hr') as (_ & _ & _ & H1 & _). simpl in H1.
  unfold mu_queue_is_empty. rewrite H1. done.
Qed.
Print Assumptions C09_queue_conserves.
Example C09_example : exists os q, qrun P64 (mu_queue_init [0;0] 2) [QPut 1; QPut 2; QPut 3; QGet; QPut 4] = Ok (os, q)
  /\ puts_of [QPut 1; QPut 2; QPut 3; QGet; QPut 4] os = [1;2;4] /\ gets_of [QPut 1; QPut 2; QPut 3; QGet; QPut 4] os = [1].
Proof. eexists _, _. vm_compute. done. Qed.
