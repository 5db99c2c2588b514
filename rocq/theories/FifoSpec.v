(** * Specification: a bounded FIFO queue (used for mu_queue, mu_mqueue, mu_spsc).
    Nothing here refers to a model. *)
From stdpp Require Import base list numbers.
From Coq Require Import ZArith.
Open Scope Z_scope.

Inductive qop := QPut (x : Z) | QGet | QPeek | QReset | QCount | QCapacity | QIsEmpty | QIsFull.

(** What the caller sees; [QItem b v] is the returned flag and the value stored
    through the out-pointer. *)
Inductive qobs := QBool (b : bool) | QItem (b : bool) (v : Z) | QNum (n : Z) | QUnit.

Definition NULL : Z := 0.

(** One call on a FIFO of capacity [cap] holding [l], oldest item first. *)
Definition fifo_step (cap : Z) (l : list Z) (op : qop) : qobs * list Z :=
  match op with
  | QPut x => if Z.of_nat (length l) <? cap then (QBool true, l ++ [x]) else (QBool false, l)
  | QGet => match l with [] => (QItem false NULL, []) | x :: l' => (QItem true x, l') end
  | QPeek => match l with [] => (QItem false NULL, []) | x :: _ => (QItem true x, l) end
  | QReset => (QUnit, [])
  | QCount => (QNum (Z.of_nat (length l)), l)
  | QCapacity => (QNum cap, l)
  | QIsEmpty => (QBool (match l with [] => true | _ => false end), l)
  | QIsFull => (QBool (Z.of_nat (length l) =? cap), l)
  end.

Fixpoint fifo_run (cap : Z) (l : list Z) (ops : list qop) : list qobs * list Z :=
  match ops with
  | [] => ([], l)
  | op :: ops =>
    let '(o, l) := fifo_step cap l op in
    let '(os, l) := fifo_run cap l ops in (o :: os, l)
  end.

(** The items put / taken successfully in a history of calls and results. *)
Fixpoint puts_of (ops : list qop) (os : list qobs) : list Z :=
  match ops, os with
  | QPut x :: ops, QBool true :: os => x :: puts_of ops os
  | _ :: ops, _ :: os => puts_of ops os
  | _, _ => []
  end.
Fixpoint gets_of (ops : list qop) (os : list qobs) : list Z :=
  match ops, os with
  | QGet :: ops, QItem true x :: os => x :: gets_of ops os
  | _ :: ops, _ :: os => gets_of ops os
  | _, _ => []
  end.

Lemma fifo_run_app cap ops1 : forall l ops2,
  fifo_run cap l (ops1 ++ ops2) =
    let '(o1, l1) := fifo_run cap l ops1 in
    let '(o2, l2) := fifo_run cap l1 ops2 in (o1 ++ o2, l2).
Proof.
  induction ops1 as [|op ops1 IH]; intros l ops2; simpl.
  - destruct (fifo_run cap l ops2); done.
  - destruct (fifo_step cap l op) as [o l1]. rewrite IH.
    destruct (fifo_run cap l1 ops1) as [o1 l2]. destruct (fifo_run cap l2 ops2) as [o2 l3]. done.
Qed.

Lemma fifo_run_length cap ops : forall l os l', fifo_run cap l ops = (os, l') -> length os = length ops.
Proof.
  induction ops as [|op ops IH]; intros l os l' H; simpl in H.
  - injection H as <- <-; done.
  - destruct (fifo_step cap l op) as [o l1]. destruct (fifo_run cap l1 ops) as [os1 l2] eqn:E.
    injection H as <- <-. simpl. f_equal. eauto.
Qed.
