(** * Specification of a byte stream over a fixed buffer: contents and a cursor that
    counts attempts modulo 2^width.  No reference to the model. *)
From stdpp Require Import base list numbers.
From Coq Require Import ZArith.
Open Scope Z_scope.

Inductive vop := VRead | VWrite (x : Z) | VReset | VSetCount (n : Z) | VCount | VCapacity | VAvailable.
(** [VByte ok o]: returned flag and what was stored through the out-pointer *)
Inductive vobs := VByte (ok : bool) (o : option Z) | VBool (ok : bool) | VNum (n : Z) | VUnit.

(** one call on contents [l] with cursor [c]; [W] = 2^width of size_t *)
Definition stream_step (W : Z) (l : list Z) (c : Z) (op : vop) : vobs * list Z * Z :=
  match op with
  | VRead => (match l !! Z.to_nat c with Some x => VByte true (Some x) | None => VByte false None end,
              l, (c + 1) mod W)
  | VWrite x => if c <? Z.of_nat (length l)
                then (VBool true, <[Z.to_nat c := x]> l, (c + 1) mod W)
                else (VBool false, l, (c + 1) mod W)
  | VReset => (VUnit, l, 0)
  | VSetCount n => (VUnit, l, n)
  | VCount => (VNum c, l, c)
  | VCapacity => (VNum (Z.of_nat (length l)), l, c)
  | VAvailable => (VNum (Z.max 0 (Z.of_nat (length l) - c)), l, c)
  end.
Fixpoint stream_run (W : Z) (l : list Z) (c : Z) (ops : list vop) : list vobs * list Z * Z :=
  match ops with
  | [] => ([], l, c)
  | op :: ops =>
    let '(o, l, c) := stream_step W l c op in
    let '(os, l, c) := stream_run W l c ops in (o :: os, l, c)
  end.
Definition vop_ok (W : Z) (op : vop) : Prop := match op with VSetCount n => 0 <= n < W | _ => True end.
