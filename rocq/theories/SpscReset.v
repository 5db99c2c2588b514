(** * mu_spsc_reset among concurrent puts and gets (property C63) *)
From Verif Require Import CSem FifoSpec SpscModel SpscProofs SpscProps.

(** mu_spsc.c:56-60, one access at a time: q->head = 0; q->tail = 0.  The two accesses may
    be made by any thread. *)
Inductive rlabel := RL (l : label) | RHead | RTail.
Definition set_q (s : conc) (q : spsc) : conc := MkC q (c_p s) (c_c s).
Definition rstep (s : conc) (l : rlabel) : res (conc * list (qop * qobs)) :=
  let q := c_q s in
  match l with
  | RL l => let* '(s', evs) := cstep s l in Ok (s', concat (map ev_op evs))
  | RHead => Ok (set_q s (MkS (s_store q) (s_mask q) 0 (s_tail q)), [])
  | RTail => Ok (set_q s (MkS (s_store q) (s_mask q) (s_head q) 0), [(QReset, QUnit)])
  end.
Fixpoint rrun (s : conc) (ls : list rlabel) : res (conc * list (qop * qobs)) :=
  match ls with
  | [] => Ok (s, [])
  | l :: ls => let* '(s, e1) := rstep s l in
               let* '(s, e2) := rrun s ls in Ok (s, e1 ++ e2)
  end.

(** Discipline: the two accesses of a reset are made with no put and no get in progress.
    A schedule is a list of segments; before each [RHead; RTail] both threads are idle. *)
Inductive disciplined : conc -> list rlabel -> Prop :=
| disc_nil s : disciplined s []
| disc_step s l ls : (forall s' evs, rstep s (RL l) = Ok (s', evs) -> disciplined s' ls) ->
    disciplined s (RL l :: ls)
| disc_reset s ls : c_p s = PIdle -> c_c s = CIdle ->
    disciplined (set_q s (snd (mu_spsc_reset (c_q s)))) ls -> disciplined s (RHead :: RTail :: ls).

Lemma rrun_ok size : forall ls s l, disciplined s ls -> inv size s l ->
  exists s' evs l', rrun s ls = Ok (s', evs) /\ inv size s' l' /\
    fifo_run (size - 1) l (map fst evs) = (map snd evs, l').
Proof.
  intros ls s l Hd. revert l. induction Hd as [s|s lab ls _ IH|s ls Hp Hc _ IH]; intros l Hi.
  - eexists _, _, _. done.
  - destruct (cstep_ok size s l lab Hi) as (s1 & e1 & l1 & E1 & Hi1 & Hf1). cbn [rrun rstep].
    rewrite E1. cbn [bind]. destruct (IH s1 (concat (map ev_op e1))) with (l := l1) as (s2 & e2 & l2 & -> & Hi2 & Hf2).
    + simpl. rewrite E1. done.
    + done.
    + simpl. eexists _, _, l2. split; [done|]. split; [done|].
      rewrite !map_app, fifo_run_app, Hf1, Hf2. done.
  - destruct s as [q p c]. simpl in *. subst p c. destruct Hi as (Hr & _). simpl in Hr.
    destruct (IH []) as (s2 & e2 & l2 & HE & Hi2 & Hf2).
    { split; [|done]. by apply (reset_rep size q l). }
    exists s2, ((QReset, QUnit) :: e2), l2. split.
    { change (rrun (MkC q PIdle CIdle) (RHead :: RTail :: ls)) with
        (let* '(s, e2) := (let* '(s, e2) := rrun (set_q (MkC q PIdle CIdle) (snd (mu_spsc_reset q))) ls in
                           Ok (s, (QReset, QUnit) :: e2)) in Ok (s, e2)).
      unfold set_q, mu_spsc_reset in *; cbn [snd c_p c_c c_q] in *. rewrite HE. done. }
    split; [done|]. simpl. rewrite Hf2. done.
Qed.

(** ** C63 *)
Theorem C63_spsc_quiescent_reset : forall q store size q0 schedule,
  0 <= size <= 65535 -> Z.of_nat (length store) = size ->
  mu_spsc_init q store size = (SPSC_NONE, q0) ->
  disciplined (MkC q0 PIdle CIdle) schedule ->
  exists s evs, rrun (MkC q0 PIdle CIdle) schedule = Ok (s, evs) /\
    fst (fifo_run (size - 1) [] (map fst evs)) = map snd evs.
Proof.
  intros q store size q0 sch Hs Hl Hi Hd.
  destruct (rrun_ok size sch (MkC q0 PIdle CIdle) [] Hd) as (s & evs & l & HE & _ & Hf).
  - split; [|done]. eapply init_rep; eauto.
  - exists s, evs. split; [done|]. rewrite Hf. done.
Qed.
Print Assumptions C63_spsc_quiescent_reset.

Definition rput (x : Z) : list rlabel := RL (LPut x) :: repeat (RL LP) 5.
Definition rget : list rlabel := RL LGet :: repeat (RL LC) 6.
Definition rq4 : spsc := snd (mu_spsc_init (MkS [] 0 0 0) [0;0;0;0] 4).
Example C63_example : exists s,
  disciplined (MkC rq4 PIdle CIdle) (rput 1 ++ rput 2 ++ rget ++ [RHead; RTail] ++ rget ++ rput 3 ++ rget) /\
  rrun (MkC rq4 PIdle CIdle) (rput 1 ++ rput 2 ++ rget ++ [RHead; RTail] ++ rget ++ rput 3 ++ rget) =
  Ok (s, [(QPut 1, QBool true); (QPut 2, QBool true); (QGet, QItem true 1); (QReset, QUnit);
          (QGet, QItem false 0); (QPut 3, QBool true); (QGet, QItem true 3)]).
Proof.
  eexists. split; [|vm_compute; reflexivity].
  cbv [rput rget repeat app rq4].
  repeat (first [apply disc_nil | apply disc_reset; [reflexivity|reflexivity|]
    | apply disc_step; let s := fresh in let e := fresh in let H := fresh in intros s e H; vm_compute in H; injection H as <- <-]).
Qed.

(** A reset while a put is between its full check and its tail store: two items already
    taken are handed out again, after the reset. *)
Definition reset_race : list rlabel :=
  rput 1 ++ rput 2 ++ rget ++ rget ++
  [RL (LPut 3); RL LP; RL LP; RL LP; RL LP] ++ [RHead; RTail] ++ [RL LP] ++ rget ++ rget ++ rget.
Theorem C63_spsc_reset_race_duplicates : exists s,
  rrun (MkC rq4 PIdle CIdle) reset_race =
    Ok (s, [(QPut 1, QBool true); (QPut 2, QBool true); (QGet, QItem true 1); (QGet, QItem true 2);
            (QReset, QUnit); (QPut 3, QBool true); (QGet, QItem true 1); (QGet, QItem true 2); (QGet, QItem true 3)]).
Proof. eexists. vm_compute. reflexivity. Qed.
Print Assumptions C63_spsc_reset_race_duplicates.

(** A reset while a get is between its empty check and its head store: the queue that
    the reset emptied reports three items nobody put since. *)
Definition reset_race_get : list rlabel :=
  rput 1 ++ rput 2 ++ [RL LGet; RL LC; RL LC; RL LC; RL LC; RL LC] ++ [RHead; RTail] ++ [RL LC] ++ rget ++ rget ++ rget.
Theorem C63_spsc_reset_race_get : exists s,
  rrun (MkC rq4 PIdle CIdle) reset_race_get =
    Ok (s, [(QPut 1, QBool true); (QPut 2, QBool true); (QReset, QUnit); (QGet, QItem true 1);
            (QGet, QItem true 2); (QGet, QItem true 0); (QGet, QItem true 0)]).
Proof. eexists. vm_compute. reflexivity. Qed.
Print Assumptions C63_spsc_reset_race_get.
