(** * The text of mulib/mu_queue.c, translated by tools/c2v.py: do not edit.
    Each definition names the lines it translates; the meaning of the syntax is in CLang.v. *)
From Verif Require Import CLang.
Open Scope string_scope.
Open Scope Z_scope.

(** mulib/mu_queue.c:56-61 *)
Definition src_mu_queue_init : fdef := MkF "mu_queue_init" (Tptr (Tstruct "mu_queue_t"))
  [("queue", Tptr (Tstruct "mu_queue_t")); ("storage", Tptr (Tptr Tvoid)); ("capacity", Tsize)]
  [] []
  (SSeq (SExpr (EAssign (EArrow (EVar "queue") "storage") (EVar "storage")))
    (SSeq (SExpr (EAssign (EArrow (EVar "queue") "capacity") (EVar "capacity")))
      (SReturn (Some (ECall "mu_queue_reset" [EVar "queue"]))))).

(** mulib/mu_queue.c:63-67 *)
Definition src_mu_queue_reset : fdef := MkF "mu_queue_reset" (Tptr (Tstruct "mu_queue_t"))
  [("queue", Tptr (Tstruct "mu_queue_t"))]
  [] []
  (SSeq (SExpr (EAssign (EArrow (EVar "queue") "count") (EInt 0)))
    (SSeq (SExpr (EAssign (EArrow (EVar "queue") "index") (EInt 0)))
      (SReturn (Some (EVar "queue"))))).

(** mulib/mu_queue.c:69 *)
Definition src_mu_queue_capacity : fdef := MkF "mu_queue_capacity" Tsize
  [("queue", Tptr (Tstruct "mu_queue_t"))]
  [] []
  (SReturn (Some (EArrow (EVar "queue") "capacity"))).

(** mulib/mu_queue.c:71 *)
Definition src_mu_queue_count : fdef := MkF "mu_queue_count" Tsize
  [("queue", Tptr (Tstruct "mu_queue_t"))]
  [] []
  (SReturn (Some (EArrow (EVar "queue") "count"))).

(** mulib/mu_queue.c:73 *)
Definition src_mu_queue_is_empty : fdef := MkF "mu_queue_is_empty" Tbool
  [("queue", Tptr (Tstruct "mu_queue_t"))]
  [] []
  (SReturn (Some (EBin Eq (EArrow (EVar "queue") "count") (EInt 0)))).

(** mulib/mu_queue.c:75-77 *)
Definition src_mu_queue_is_full : fdef := MkF "mu_queue_is_full" Tbool
  [("queue", Tptr (Tstruct "mu_queue_t"))]
  [] []
  (SReturn (Some (EBin Eq (EArrow (EVar "queue") "count") (EArrow (EVar "queue") "capacity")))).

(** mulib/mu_queue.c:79-88 *)
Definition src_mu_queue_put : fdef := MkF "mu_queue_put" Tbool
  [("queue", Tptr (Tstruct "mu_queue_t")); ("element", Tptr Tvoid)]
  [] []
  (SIf (ENot (ECall "mu_queue_is_full" [EVar "queue"]))
    (SSeq (SExpr (EAssign (EIndex (EArrow (EVar "queue") "storage") (EArrow (EVar "queue") "index")) (EVar "element")))
      (SSeq (SExpr (EAssign (EArrow (EVar "queue") "index") (EBin Mod (EBin Add (EArrow (EVar "queue") "index") (EInt 1)) (EArrow (EVar "queue") "capacity"))))
        (SSeq (SExpr (EAssignOp Add (EArrow (EVar "queue") "count") (EInt 1)))
          (SReturn (Some (EInt 1))))))
    (SReturn (Some (EInt 0)))).

(** mulib/mu_queue.c:90-92 *)
Definition src_mu_queue_get : fdef := MkF "mu_queue_get" Tbool
  [("queue", Tptr (Tstruct "mu_queue_t")); ("element", Tptr (Tptr Tvoid))]
  [] []
  (SReturn (Some (ECall "access_queue" [EVar "queue"; EVar "element"; EInt 1]))).

(** mulib/mu_queue.c:94-96 *)
Definition src_mu_queue_peek : fdef := MkF "mu_queue_peek" Tbool
  [("queue", Tptr (Tstruct "mu_queue_t")); ("element", Tptr (Tptr Tvoid))]
  [] []
  (SReturn (Some (ECall "access_queue" [EVar "queue"; EVar "element"; EInt 0]))).

(** mulib/mu_queue.c:101-117 *)
Definition src_access_queue : fdef := MkF "access_queue" Tbool
  [("queue", Tptr (Tstruct "mu_queue_t")); ("element", Tptr (Tptr Tvoid)); ("fetch", Tbool)]
  [("idx", Tsize)] []
  (SIf (ENot (ECall "mu_queue_is_empty" [EVar "queue"]))
    (SSeq (SDecl "idx" (Some (EBin Sub (EBin Add (EArrow (EVar "queue") "capacity") (EArrow (EVar "queue") "index")) (EArrow (EVar "queue") "count"))))
      (SSeq (SIf (EBin Ge (EVar "idx") (EArrow (EVar "queue") "capacity"))
          (SExpr (EAssignOp Sub (EVar "idx") (EArrow (EVar "queue") "capacity")))
          SSkip)
        (SSeq (SExpr (EAssign (EDeref (EVar "element")) (EIndex (EArrow (EVar "queue") "storage") (EVar "idx"))))
          (SSeq (SIf (EVar "fetch")
              (SExpr (EAssignOp Sub (EArrow (EVar "queue") "count") (EInt 1)))
              SSkip)
            (SReturn (Some (EInt 1)))))))
    (SSeq (SExpr (EAssign (EDeref (EVar "element")) (EInt 0)))
      (SReturn (Some (EInt 0))))).

(** struct types (mulib/*.h, *.c) *)
Definition queue_prog_structs : list (string * list (list (string * ty))) :=
  [("mu_queue_t", [[("storage", Tptr (Tptr Tvoid))]; [("capacity", Tsize)]; [("count", Tsize)]; [("index", Tsize)]])].
Definition queue_prog_consts : list (string * Z) :=
  [].
(** file scope variables: their types and the objects they are *)
Definition queue_prog_globals : list (string * (ty * nat)) :=
  [].
Definition queue_prog : cprog := MkProg queue_prog_structs queue_prog_consts queue_prog_globals
  [src_mu_queue_init; src_mu_queue_reset; src_mu_queue_capacity; src_mu_queue_count; src_mu_queue_is_empty; src_mu_queue_is_full; src_mu_queue_put; src_mu_queue_get; src_mu_queue_peek; src_access_queue].
