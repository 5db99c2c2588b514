(** * Properties C10, C11 (mu_mqueue) *)
From Verif Require Import CSem FifoSpec Ring QueueModel MqueueModel MqueueSpec MqueueProofs.

(** ** C11 (and C10).  [sigma] is the whole program: main code and notification
    tasks, which may call back into the same queue to any depth.  No execution has
    undefined behaviour; in every execution the queue updates form a legal history of
    the bounded FIFO, and the trace is well formed: each call takes effect once,
    then notifies exactly the right task exactly once (if the call succeeded and a
    task is installed), then returns the result it had when it took effect. *)
Theorem C11_mqueue_reentrant : forall p storage cap on_put on_get sigma fuel,
  valid_cap p cap -> Z.of_nat (length storage) = cap ->
  body p sigma fuel (mu_mqueue_init storage cap on_put on_get) [] = NoFuel \/
  exists m tr, body p sigma fuel (mu_mqueue_init storage cap on_put on_get) [] = Ok (m, tr) /\
    wf_body on_put on_get tr /\
    fst (fifo_run cap [] (upd_ops tr)) = upd_obs tr /\
    mu_mqueue_count m = Z.of_nat (length (snd (fifo_run cap [] (upd_ops tr)))).
Proof.
  intros p storage cap on_put on_get sigma fuel Hv Hl.
  destruct (body_good p sigma fuel (mu_mqueue_init storage cap on_put on_get) []) as [?|(m & tr & HE & (Hc & _) & (l & Hr & Hf) & Hw)].
  - exists []. split; [by apply ring_init|done].
  - by left.
  - right. exists m, tr. simpl in *. rewrite Hc in Hf. rewrite Hf. split_and!; try done.
    destruct (ring_bounds _ _ _ _ _ _ Hr) as (_ & _ & _ & H1 & _). done.
Qed.
Print Assumptions C11_mqueue_reentrant.

(** Executions that perform finitely many calls complete (so the first case of the
    theorem above is only about programs that never stop calling). *)
Theorem C11_mqueue_reentrant_completes : forall p storage cap on_put on_get sigma N,
  valid_cap p cap -> Z.of_nat (length storage) = cap ->
  (forall tr, (N <= length tr)%nat -> sigma tr = None) ->
  exists m tr, body p sigma (S N) (mu_mqueue_init storage cap on_put on_get) [] = Ok (m, tr).
Proof.
  intros p storage cap on_put on_get sigma N Hv Hl HN.
  assert (Ha : agree p (mu_mqueue_init storage cap on_put on_get) []).
  { exists []. split; [by apply ring_init|done]. }
  destruct (C11_mqueue_reentrant p storage cap on_put on_get sigma (S N) Hv Hl) as [H|(m & tr & HE & _)]; [|eauto].
  exfalso. eapply (body_terminates p sigma N HN (S N)); eauto. simpl. lia.
Qed.
Print Assumptions C11_mqueue_reentrant_completes.

(** ** C10: notification tasks that do not touch the queue.  [ntasks] is the list of
    tasks notified, newest last. *)
Definition log_task (t : Z) (m : mmq) (w : list (Z * Z)) : res (mmq * list (Z * Z)) :=
  Ok (m, w ++ [(t, mu_mqueue_count m)]).

Definition mrun1 (p : plat) (op : qop) (m : mmq) (w : list (Z * Z)) : res (qobs * mmq * list (Z * Z)) :=
  match op with
  | QPut x => let* '(b, m, w) := mu_mqueue_put p log_task id m w x in Ok (QBool b, m, w)
  | QGet => let* '(b, e, m, w) := mu_mqueue_get p log_task (fun _ => id) m w in Ok (QItem b e, m, w)
  | QPeek => let* '(b, e, m, w) := mu_mqueue_peek p log_task (fun _ => id) m w in Ok (QItem b e, m, w)
  | QReset => Ok (QUnit, mu_mqueue_reset m, w)
  | QCount => Ok (QNum (mu_mqueue_count m), m, w)
  | QCapacity => Ok (QNum (mu_mqueue_capacity m), m, w)
  | QIsEmpty => Ok (QBool (mu_mqueue_is_empty m), m, w)
  | QIsFull => Ok (QBool (mu_mqueue_is_full m), m, w)
  end.
Fixpoint mrun (p : plat) (ops : list qop) (m : mmq) (w : list (Z * Z)) : res (list qobs * mmq * list (Z * Z)) :=
  match ops with
  | [] => Ok ([], m, w)
  | op :: ops => let* '(o, m, w) := mrun1 p op m w in
                 let* '(os, m, w) := mrun p ops m w in Ok (o :: os, m, w)
  end.

(** Spec: the notifications a history must produce: the task, and the number of
    items in the queue when it is called. *)
Definition notification1 (on_put on_get : Z) (op : qop) (o : qobs) (n : Z) : list (Z * Z) :=
  if notify_of on_put on_get op o =? 0 then [] else [(notify_of on_put on_get op o, n)].
Fixpoint notifications (cap on_put on_get : Z) (l : list Z) (ops : list qop) : list (Z * Z) :=
  match ops with
  | [] => []
  | op :: ops =>
    let '(o, l') := fifo_step cap l op in
    notification1 on_put on_get op o (Z.of_nat (length l')) ++ notifications cap on_put on_get l' ops
  end.

Lemma mrun_ok p ops : forall m l w, mrep p m l ->
  exists m', mrun p ops m w = Ok (fst (fifo_run (m_cap m) l ops), m',
       w ++ notifications (m_cap m) (m_on_put m) (m_on_get m) l ops) /\
    mrep p m' (snd (fifo_run (m_cap m) l ops)).
Proof.
  induction ops as [|op ops IH]; intros m l w Hr.
  { exists m. simpl. rewrite app_nil_r. done. }
  assert (H1 : exists m1, mrun1 p op m w = Ok (fst (fifo_step (m_cap m) l op), m1,
       w ++ notification1 (m_on_put m) (m_on_get m) op (fst (fifo_step (m_cap m) l op))
              (Z.of_nat (length (snd (fifo_step (m_cap m) l op))))) /\
       same_conf m m1 /\ mrep p m1 (snd (fifo_step (m_cap m) l op))).
  { pose proof (ring_bounds _ _ _ _ _ _ Hr) as Hb. unfold notification1. destruct op; simpl; rewrite ?app_nil_r.
    - unfold mu_mqueue_put, mu_mqueue_is_full.
      destruct (Z.eqb_spec (m_cnt m) (m_cap m)) as [He|Hne]; simpl negb; cbv iota; simpl bind.
      + destruct (Z.ltb_spec (Z.of_nat (length l)) (m_cap m)); [lia|]. simpl. rewrite app_nil_r. by exists m.
      + destruct (ring_put p _ _ _ _ _ x Hr) as (s' & -> & Hr'); [lia|]. simpl.
        unfold umod. destruct (Z.eqb_spec (m_cap m) 0); [lia|]. simpl.
        rewrite !to_size_id by lia.
        destruct (Z.ltb_spec (Z.of_nat (length l)) (m_cap m)); [|lia]. simpl.
        destruct (Z.eqb_spec (m_on_put m) 0) as [Hz|Hnz]; simpl.
        * rewrite app_nil_r. eexists. split; [done|]. split; done.
        * exists (MkM s' (m_cap m) (m_cnt m + 1) ((m_index m + 1) mod m_cap m) (m_on_put m) (m_on_get m)).
          split; [|done]. unfold id, mu_mqueue_count. simpl.
          rewrite app_length. simpl. repeat f_equal. lia.
    - unfold mu_mqueue_get, maccess_queue, mu_mqueue_is_empty.
      destruct l as [|x l].
      + simpl in Hb. destruct (Z.eqb_spec (m_cnt m) 0); [|lia]. simpl. rewrite app_nil_r. by exists m.
      + simpl in Hb. destruct (Z.eqb_spec (m_cnt m) 0); [lia|]. simpl.
        pose proof (ring_oldest p _ _ _ _ _ _ Hr) as Ho. unfold ring_idx in Ho. simpl in Ho. rewrite Ho. simpl.
        rewrite to_size_id by lia. pose proof (ring_get p _ _ _ _ _ _ Hr) as Hr'.
        destruct (Z.eqb_spec (m_on_get m) 0) as [Hz|Hnz]; simpl.
        * rewrite app_nil_r. eexists. split; [done|]. split; done.
        * exists (MkM (m_store m) (m_cap m) (m_cnt m - 1) (m_index m) (m_on_put m) (m_on_get m)).
          split; [|done]. unfold id, mu_mqueue_count. simpl.
          repeat f_equal. lia.
    - unfold mu_mqueue_peek, maccess_queue, mu_mqueue_is_empty.
      destruct l as [|x l].
      + simpl in Hb. destruct (Z.eqb_spec (m_cnt m) 0); [|lia]. simpl. by exists m.
      + simpl in Hb. destruct (Z.eqb_spec (m_cnt m) 0); [lia|]. simpl.
        pose proof (ring_oldest p _ _ _ _ _ _ Hr) as Ho. unfold ring_idx in Ho. simpl in Ho. rewrite Ho. simpl.
        by exists m.
    - eexists. split_and!; try done. eapply ring_reset; done.
    - exists m. split_and!; try done. unfold mu_mqueue_count. repeat f_equal. lia.
    - exists m. done.
    - exists m. split_and!; try done. unfold mu_mqueue_is_empty. repeat f_equal.
      destruct l; simpl in *; destruct (Z.eqb_spec (m_cnt m) 0); done || lia.
    - exists m. split_and!; try done. unfold mu_mqueue_is_full. repeat f_equal. lia. }
  destruct H1 as (m1 & HE1 & (Hc & Hp & Hg) & Hr1). cbn [mrun fifo_run notifications]. rewrite HE1. cbn [bind].
  destruct (fifo_step (m_cap m) l op) as [o l1] eqn:E1. cbn [fst snd] in *.
  destruct (IH m1 l1 (w ++ notification1 (m_on_put m) (m_on_get m) op o (Z.of_nat (length l1))) Hr1) as (m2 & HE2 & Hr2).
  rewrite Hc, Hp, Hg in *. rewrite HE2. cbn [bind].
  destruct (fifo_run (m_cap m) l1 ops) as [os l2]. simpl in *. exists m2. rewrite <- app_assoc. done.
Qed.

Theorem C10_mqueue_fifo_notifies : forall p storage cap on_put on_get ops,
  valid_cap p cap -> Z.of_nat (length storage) = cap ->
  exists m', mrun p ops (mu_mqueue_init storage cap on_put on_get) [] =
     Ok (fst (fifo_run cap [] ops), m', notifications cap on_put on_get [] ops) /\
    mu_mqueue_count m' = Z.of_nat (length (snd (fifo_run cap [] ops))).
Proof.
  intros p storage cap on_put on_get ops Hv Hl.
  destruct (mrun_ok p ops (mu_mqueue_init storage cap on_put on_get) [] []) as (m' & HE & Hr); [by apply ring_init|].
  exists m'. split; [exact HE|]. destruct (ring_bounds _ _ _ _ _ _ Hr) as (_ & _ & _ & H1 & _). done.
Qed.
Print Assumptions C10_mqueue_fifo_notifies.

Example C10_example : mrun P32 [QPut 7; QPut 8; QPeek; QPut 9; QGet; QGet; QGet] (mu_mqueue_init [0;0] 2 100 200) [] =
  Ok ([QBool true; QBool true; QItem true 7; QBool false; QItem true 7; QItem true 8; QItem false 0],
      MkM [7;8] 2 0 0 100 200, [(100,1);(100,2);(200,1);(200,0)]).
Proof. vm_compute. reflexivity. Qed.

(** A re-entrant program: the on_put task gets the item at once, the on_get task
    puts 5 more, as long as the history is short. *)
Definition ex_sigma (tr : list mev) : option qop :=
  if (12 <=? Z.of_nat (length tr)) then None
  else match last tr with
  | None => Some (QPut 1)
  | Some (ENotify 100) => Some QGet
  | Some (ENotify 200) => Some (QPut 5)
  | _ => None
  end.
Example C11_example : exists m, body P32 ex_sigma 20 (mu_mqueue_init [0;0] 2 100 200) [] = Ok (m,
  [EUpd (QPut 1) (QBool true); ENotify 100; EUpd QGet (QItem true 1); ENotify 200;
   EUpd (QPut 5) (QBool true); ENotify 100; EUpd QGet (QItem true 5); ENotify 200;
   EUpd (QPut 5) (QBool true); ENotify 100; EUpd QGet (QItem true 5); ENotify 200;
   EDone 200; ERet QGet (QItem true 5); EDone 100; ERet (QPut 5) (QBool true);
   EDone 200; ERet QGet (QItem true 5); EDone 100; ERet (QPut 5) (QBool true);
   EDone 200; ERet QGet (QItem true 1); EDone 100; ERet (QPut 1) (QBool true)]).
Proof. eexists. vm_compute. reflexivity. Qed.
