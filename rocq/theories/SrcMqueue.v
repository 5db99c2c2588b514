(** * The text of mulib/mu_mqueue.c, mulib/mu_task.c, translated by tools/c2v.py: do not edit.
    Each definition names the lines it translates; the meaning of the syntax is in CLang.v. *)
From Verif Require Import CLang.
Open Scope string_scope.
Open Scope Z_scope.

(** mulib/mu_mqueue.c:48-56 *)
Definition src_mu_mqueue_init : fdef := MkF "mu_mqueue_init" (Tptr (Tstruct "mu_mqueue_t"))
  [("mqueue", Tptr (Tstruct "mu_mqueue_t")); ("storage", Tptr (Tptr Tvoid)); ("capacity", Tsize); ("on_put", Tptr (Tstruct "mu_task_t")); ("on_get", Tptr (Tstruct "mu_task_t"))]
  [] []
  (SSeq (SExpr (EAssign (EArrow (EVar "mqueue") "storage") (EVar "storage")))
    (SSeq (SExpr (EAssign (EArrow (EVar "mqueue") "capacity") (EVar "capacity")))
      (SSeq (SExpr (EAssign (EArrow (EVar "mqueue") "on_put") (EVar "on_put")))
        (SSeq (SExpr (EAssign (EArrow (EVar "mqueue") "on_get") (EVar "on_get")))
          (SReturn (Some (ECall "mu_mqueue_reset" [EVar "mqueue"]))))))).

(** mulib/mu_mqueue.c:58-62 *)
Definition src_mu_mqueue_reset : fdef := MkF "mu_mqueue_reset" (Tptr (Tstruct "mu_mqueue_t"))
  [("mqueue", Tptr (Tstruct "mu_mqueue_t"))]
  [] []
  (SSeq (SExpr (EAssign (EArrow (EVar "mqueue") "count") (EInt 0)))
    (SSeq (SExpr (EAssign (EArrow (EVar "mqueue") "index") (EInt 0)))
      (SReturn (Some (EVar "mqueue"))))).

(** mulib/mu_mqueue.c:64 *)
Definition src_mu_mqueue_capacity : fdef := MkF "mu_mqueue_capacity" Tsize
  [("mqueue", Tptr (Tstruct "mu_mqueue_t"))]
  [] []
  (SReturn (Some (EArrow (EVar "mqueue") "capacity"))).

(** mulib/mu_mqueue.c:66 *)
Definition src_mu_mqueue_count : fdef := MkF "mu_mqueue_count" Tsize
  [("mqueue", Tptr (Tstruct "mu_mqueue_t"))]
  [] []
  (SReturn (Some (EArrow (EVar "mqueue") "count"))).

(** mulib/mu_mqueue.c:68 *)
Definition src_mu_mqueue_is_empty : fdef := MkF "mu_mqueue_is_empty" Tbool
  [("mqueue", Tptr (Tstruct "mu_mqueue_t"))]
  [] []
  (SReturn (Some (EBin Eq (EArrow (EVar "mqueue") "count") (EInt 0)))).

(** mulib/mu_mqueue.c:70-72 *)
Definition src_mu_mqueue_is_full : fdef := MkF "mu_mqueue_is_full" Tbool
  [("mqueue", Tptr (Tstruct "mu_mqueue_t"))]
  [] []
  (SReturn (Some (EBin Eq (EArrow (EVar "mqueue") "count") (EArrow (EVar "mqueue") "capacity")))).

(** mulib/mu_mqueue.c:74-90 *)
Definition src_mu_mqueue_put : fdef := MkF "mu_mqueue_put" Tbool
  [("mqueue", Tptr (Tstruct "mu_mqueue_t")); ("element", Tptr Tvoid)]
  [] []
  (SIf (ENot (ECall "mu_mqueue_is_full" [EVar "mqueue"]))
    (SSeq (SExpr (EAssign (EIndex (EArrow (EVar "mqueue") "storage") (EArrow (EVar "mqueue") "index")) (EVar "element")))
      (SSeq (SExpr (EAssign (EArrow (EVar "mqueue") "index") (EBin Mod (EBin Add (EArrow (EVar "mqueue") "index") (EInt 1)) (EArrow (EVar "mqueue") "capacity"))))
        (SSeq (SExpr (EAssignOp Add (EArrow (EVar "mqueue") "count") (EInt 1)))
          (SSeq (SIf (EArrow (EVar "mqueue") "on_put")
              (SExpr (ECall "mu_task_call" [EArrow (EVar "mqueue") "on_put"]))
              SSkip)
            (SReturn (Some (EInt 1)))))))
    (SReturn (Some (EInt 0)))).

(** mulib/mu_mqueue.c:92-94 *)
Definition src_mu_mqueue_get : fdef := MkF "mu_mqueue_get" Tbool
  [("mqueue", Tptr (Tstruct "mu_mqueue_t")); ("element", Tptr (Tptr Tvoid))]
  [] []
  (SReturn (Some (ECall "access_queue" [EVar "mqueue"; EVar "element"; EInt 1]))).

(** mulib/mu_mqueue.c:96-98 *)
Definition src_mu_mqueue_peek : fdef := MkF "mu_mqueue_peek" Tbool
  [("mqueue", Tptr (Tstruct "mu_mqueue_t")); ("element", Tptr (Tptr Tvoid))]
  [] []
  (SReturn (Some (ECall "access_queue" [EVar "mqueue"; EVar "element"; EInt 0]))).

(** mulib/mu_mqueue.c:103-123 *)
Definition src_access_queue : fdef := MkF "access_queue" Tbool
  [("mqueue", Tptr (Tstruct "mu_mqueue_t")); ("element", Tptr (Tptr Tvoid)); ("fetch", Tbool)]
  [("idx", Tsize)] []
  (SIf (ENot (ECall "mu_mqueue_is_empty" [EVar "mqueue"]))
    (SSeq (SDecl "idx" (Some (EBin Sub (EBin Add (EArrow (EVar "mqueue") "capacity") (EArrow (EVar "mqueue") "index")) (EArrow (EVar "mqueue") "count"))))
      (SSeq (SIf (EBin Ge (EVar "idx") (EArrow (EVar "mqueue") "capacity"))
          (SExpr (EAssignOp Sub (EVar "idx") (EArrow (EVar "mqueue") "capacity")))
          SSkip)
        (SSeq (SExpr (EAssign (EDeref (EVar "element")) (EIndex (EArrow (EVar "mqueue") "storage") (EVar "idx"))))
          (SSeq (SIf (EVar "fetch")
              (SSeq (SExpr (EAssignOp Sub (EArrow (EVar "mqueue") "count") (EInt 1)))
                (SIf (EArrow (EVar "mqueue") "on_get")
                  (SExpr (ECall "mu_task_call" [EArrow (EVar "mqueue") "on_get"]))
                  SSkip))
              SSkip)
            (SReturn (Some (EInt 1)))))))
    (SSeq (SExpr (EAssign (EDeref (EVar "element")) (EInt 0)))
      (SReturn (Some (EInt 0))))).

(** mulib/mu_task.c:51-58 *)
Definition src_mu_task_init : fdef := MkF "mu_task_init" (Tptr (Tstruct "mu_task_t"))
  [("task", Tptr (Tstruct "mu_task_t")); ("fn", Tptr Tfn); ("initial_state", Tint false W32); ("user_info", Tptr Tvoid)]
  [] []
  (SSeq (SExpr (EAssign (EArrow (EVar "task") "fn") (EVar "fn")))
    (SSeq (SExpr (EAssign (EArrow (EVar "task") "state") (EVar "initial_state")))
      (SSeq (SExpr (EAssign (EArrow (EVar "task") "user_info") (EVar "user_info")))
        (SReturn (Some (EVar "task")))))).

(** mulib/mu_task.c:60-62 *)
Definition src_mu_task_install_set_state_hook : fdef := MkF "mu_task_install_set_state_hook" Tvoid
  [("fn", Tptr Tfn)]
  [] []
  (SExpr (EAssign (EVar "s_set_state_hook") (EVar "fn"))).

(** mulib/mu_task.c:64-66 *)
Definition src_mu_task_install_call_hook : fdef := MkF "mu_task_install_call_hook" Tvoid
  [("fn", Tptr Tfn)]
  [] []
  (SExpr (EAssign (EVar "s_call_hook") (EVar "fn"))).

(** mulib/mu_task.c:68-70 *)
Definition src_mu_task_install_transfer_hook : fdef := MkF "mu_task_install_transfer_hook" Tvoid
  [("fn", Tptr Tfn)]
  [] []
  (SExpr (EAssign (EVar "s_transfer_hook") (EVar "fn"))).

(** mulib/mu_task.c:72-82 *)
Definition src_mu_task_call : fdef := MkF "mu_task_call" Tvoid
  [("task", Tptr (Tstruct "mu_task_t"))]
  [] []
  (SIf (EBin Ne (EVar "task") (EInt 0))
    (SSeq (SIf (EBin Ne (EVar "s_call_hook") (EInt 0))
        (SExpr (ECall "s_call_hook" [EVar "task"]))
        SSkip)
      (SExpr (ECallPtr (EArrow (EVar "task") "fn") [EVar "task"])))
    SSkip).

(** mulib/mu_task.c:84 *)
Definition src_mu_task_get_fn : fdef := MkF "mu_task_get_fn" (Tptr Tfn)
  [("task", Tptr (Tstruct "mu_task_t"))]
  [] []
  (SReturn (Some (EArrow (EVar "task") "fn"))).

(** mulib/mu_task.c:86 *)
Definition src_mu_task_get_state : fdef := MkF "mu_task_get_state" (Tint false W32)
  [("task", Tptr (Tstruct "mu_task_t"))]
  [] []
  (SReturn (Some (EArrow (EVar "task") "state"))).

(** mulib/mu_task.c:88-99 *)
Definition src_mu_task_set_state : fdef := MkF "mu_task_set_state" (Tptr (Tstruct "mu_task_t"))
  [("task", Tptr (Tstruct "mu_task_t")); ("state", Tint false W32)]
  [] []
  (SSeq (SIf (EBin Ne (EVar "task") (EInt 0))
      (SSeq (SIf (EBin Ne (EVar "s_set_state_hook") (EInt 0))
          (SExpr (ECall "s_set_state_hook" [EVar "task"; EVar "state"]))
          SSkip)
        (SExpr (EAssign (EArrow (EVar "task") "state") (EVar "state"))))
      SSkip)
    (SReturn (Some (EVar "task")))).

(** mulib/mu_task.c:101-103 *)
Definition src_mu_task_get_user_info : fdef := MkF "mu_task_get_user_info" (Tptr Tvoid)
  [("task", Tptr (Tstruct "mu_task_t"))]
  [] []
  (SReturn (Some (EArrow (EVar "task") "user_info"))).

(** mulib/mu_task.c:105-107 *)
Definition src_mu_task_set_user_info : fdef := MkF "mu_task_set_user_info" Tvoid
  [("task", Tptr (Tstruct "mu_task_t")); ("user_info", Tptr Tvoid)]
  [] []
  (SExpr (EAssign (EArrow (EVar "task") "user_info") (EVar "user_info"))).

(** mulib/mu_task.c:109-114 *)
Definition src_mu_task_call_transfer_hook : fdef := MkF "mu_task_call_transfer_hook" Tvoid
  [("to_task", Tptr (Tstruct "mu_task_t"))]
  [] []
  (SIf (EBin Ne (EVar "s_transfer_hook") (EInt 0))
    (SExpr (ECall "s_transfer_hook" [EVar "to_task"]))
    SSkip).

(** struct types (mulib/*.h, *.c) *)
Definition mqueue_prog_structs : list (string * list (list (string * ty))) :=
  [("mu_task_t", [[("fn", Tptr Tfn)]; [("state", Tint false W32)]; [("user_info", Tptr Tvoid)]]);
   ("mu_mqueue_t", [[("storage", Tptr (Tptr Tvoid))]; [("capacity", Tsize)]; [("count", Tsize)]; [("index", Tsize)]; [("on_put", Tptr (Tstruct "mu_task_t"))]; [("on_get", Tptr (Tstruct "mu_task_t"))]])].
Definition mqueue_prog_consts : list (string * Z) :=
  [("MU_SCHED_ERR_NONE", 0); ("MU_SCHED_ERR_FULL", 1); ("MU_SCHED_ERR_NOT_FOUND", 2)].
(** file scope variables: their types and the objects they are *)
Definition mqueue_prog_globals : list (string * (ty * nat)) :=
  [("s_set_state_hook", (Tptr Tfn, 0%nat)); ("s_call_hook", (Tptr Tfn, 1%nat)); ("s_transfer_hook", (Tptr Tfn, 2%nat))].
Definition mqueue_prog : cprog := MkProg mqueue_prog_structs mqueue_prog_consts mqueue_prog_globals
  [src_mu_mqueue_init; src_mu_mqueue_reset; src_mu_mqueue_capacity; src_mu_mqueue_count; src_mu_mqueue_is_empty; src_mu_mqueue_is_full; src_mu_mqueue_put; src_mu_mqueue_get; src_mu_mqueue_peek; src_access_queue; src_mu_task_init; src_mu_task_install_set_state_hook; src_mu_task_install_call_hook; src_mu_task_install_transfer_hook; src_mu_task_call; src_mu_task_get_fn; src_mu_task_get_state; src_mu_task_set_state; src_mu_task_get_user_info; src_mu_task_set_user_info; src_mu_task_call_transfer_hook].
