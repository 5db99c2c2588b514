(** * Specification of the bisync frame format (mu_bisync.h), independent of the model *)
From stdpp Require Import base list numbers.
From Coq Require Import ZArith.
Open Scope Z_scope.

Definition SOH : Z := 1.
Definition EOT : Z := 4.
Definition DLE : Z := 16.

Definition special (b : Z) : bool := bool_decide (b = SOH \/ b = EOT \/ b = DLE).

(** every SOH, EOT, DLE preceded by DLE *)
Fixpoint escape (l : list Z) : list Z :=
  match l with [] => [] | b :: l => (if special b then [DLE; b] else [b]) ++ escape l end.

Definition frame (src : list Z) : list Z := SOH :: escape src ++ [EOT].

(** [units raw out]: [raw] is a sequence of plain bytes (neither DLE nor EOT) and
    escaped bytes (DLE b), which stand for the bytes [out]. *)
Inductive units : list Z -> list Z -> Prop :=
| u_nil : units [] []
| u_plain b raw out : b <> DLE -> b <> EOT -> units raw out -> units (b :: raw) (b :: out)
| u_esc b raw out : units raw out -> units (DLE :: b :: raw) (b :: out).

(** write [bs] into [mem] from index 0 *)
Definition overwrite (bs mem : list Z) : list Z := bs ++ drop (length bs) mem.
