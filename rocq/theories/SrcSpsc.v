(** * The text of mulib/mu_spsc.c, translated by tools/c2v.py: do not edit.
    Each definition names the lines it translates; the meaning of the syntax is in CLang.v. *)
From Verif Require Import CLang.
Open Scope string_scope.
Open Scope Z_scope.

(** mulib/mu_spsc.c:46-54 *)
Definition src_mu_spsc_init : fdef := MkF "mu_spsc_init" (Tint false W32)
  [("q", Tptr (Tstruct "mu_spsc_t")); ("store", Tptr (Tptr Tvoid)); ("store_size", Tint false W16)]
  [] []
  (SSeq (SIf (EOr (EBin Lt (EVar "store_size") (EInt 2)) (ENot (EBin Eq (EBin BAnd (EVar "store_size") (EBin Sub (EVar "store_size") (EInt 1))) (EInt 0))))
      (SReturn (Some (EVar "MU_SPSC_ERR_SIZE")))
      SSkip)
    (SSeq (SExpr (EAssign (EArrow (EVar "q") "store") (EVar "store")))
      (SSeq (SExpr (EAssign (EArrow (EVar "q") "mask") (EBin Sub (EVar "store_size") (EInt 1))))
        (SReturn (Some (ECall "mu_spsc_reset" [EVar "q"])))))).

(** mulib/mu_spsc.c:56-60 *)
Definition src_mu_spsc_reset : fdef := MkF "mu_spsc_reset" (Tint false W32)
  [("q", Tptr (Tstruct "mu_spsc_t"))]
  [] []
  (SSeq (SExpr (EAssign (EArrow (EVar "q") "head") (EInt 0)))
    (SSeq (SExpr (EAssign (EArrow (EVar "q") "tail") (EInt 0)))
      (SReturn (Some (EVar "MU_SPSC_ERR_NONE"))))).

(** mulib/mu_spsc.c:62 *)
Definition src_mu_spsc_capacity : fdef := MkF "mu_spsc_capacity" (Tint false W16)
  [("q", Tptr (Tstruct "mu_spsc_t"))]
  [] []
  (SReturn (Some (EArrow (EVar "q") "mask"))).

(** mulib/mu_spsc.c:67-79 *)
Definition src_mu_spsc_put : fdef := MkF "mu_spsc_put" (Tint false W32)
  [("q", Tptr (Tstruct "mu_spsc_t")); ("item", Tptr Tvoid)]
  [("err", Tint false W32); ("next_tail", Tint false W16)] []
  (SSeq (SDecl "err" (Some (EVar "MU_SPSC_ERR_NONE")))
    (SSeq (SDecl "next_tail" (Some (EBin BAnd (EBin Add (EArrow (EVar "q") "tail") (EInt 1)) (EArrow (EVar "q") "mask"))))
      (SSeq (SIf (EBin Eq (EVar "next_tail") (EArrow (EVar "q") "head"))
          (SExpr (EAssign (EVar "err") (EVar "MU_SPSC_ERR_FULL")))
          (SSeq (SExpr (EAssign (EIndex (EArrow (EVar "q") "store") (EArrow (EVar "q") "tail")) (EVar "item")))
            (SExpr (EAssign (EArrow (EVar "q") "tail") (EVar "next_tail")))))
        (SReturn (Some (EVar "err")))))).

(** mulib/mu_spsc.c:84-96 *)
Definition src_mu_spsc_get : fdef := MkF "mu_spsc_get" (Tint false W32)
  [("q", Tptr (Tstruct "mu_spsc_t")); ("item", Tptr (Tptr Tvoid))]
  [("err", Tint false W32)] []
  (SSeq (SDecl "err" (Some (EVar "MU_SPSC_ERR_NONE")))
    (SSeq (SIf (EBin Eq (EArrow (EVar "q") "head") (EArrow (EVar "q") "tail"))
        (SSeq (SExpr (EAssign (EVar "err") (EVar "MU_SPSC_ERR_EMPTY")))
          (SExpr (EAssign (EDeref (EVar "item")) (EInt 0))))
        (SSeq (SExpr (EAssign (EDeref (EVar "item")) (EIndex (EArrow (EVar "q") "store") (EArrow (EVar "q") "head"))))
          (SExpr (EAssign (EArrow (EVar "q") "head") (EBin BAnd (EBin Add (EArrow (EVar "q") "head") (EInt 1)) (EArrow (EVar "q") "mask"))))))
      (SReturn (Some (EVar "err"))))).

(** struct types (mulib/*.h, *.c) *)
Definition spsc_prog_structs : list (string * list (list (string * ty))) :=
  [("mu_spsc_t", [[("mask", Tint false W16)]; [("head", Tint false W16)]; [("tail", Tint false W16)]; [("store", Tptr (Tptr Tvoid))]])].
Definition spsc_prog_consts : list (string * Z) :=
  [("MU_SPSC_ERR_NONE", 0); ("MU_SPSC_ERR_EMPTY", 1); ("MU_SPSC_ERR_FULL", 2); ("MU_SPSC_ERR_SIZE", 3)].
(** file scope variables: their types and the objects they are *)
Definition spsc_prog_globals : list (string * (ty * nat)) :=
  [].
Definition spsc_prog : cprog := MkProg spsc_prog_structs spsc_prog_consts spsc_prog_globals
  [src_mu_spsc_init; src_mu_spsc_reset; src_mu_spsc_capacity; src_mu_spsc_put; src_mu_spsc_get].
