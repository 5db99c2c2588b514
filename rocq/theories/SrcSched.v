(** * The text of mulib/mu_sched.c, mulib/mu_task.c, mulib/mu_queue.c, mulib/mu_spsc.c, translated by tools/c2v.py: do not edit.
    Each definition names the lines it translates; the meaning of the syntax is in CLang.v. *)
From Verif Require Import CLang.
Open Scope string_scope.
Open Scope Z_scope.

Section config.
(** mulib/mu_platform.h: sizes that a project may choose *)
Context (max_deferred max_irq max_immed : Z).

(** mulib/mu_sched.c:89-96 *)
Definition src_mu_sched_init : fdef := MkF "mu_sched_init" Tvoid
  []
  [] []
  (SSeq (SExpr (ECall "mu_spsc_init" [EAddr (EField (EVar "s_sched") "irq_tasks"); EVar "s_irq_store"; EVar "MU_SCHED_MAX_IRQ_TASKS"]))
    (SSeq (SExpr (ECall "mu_queue_init" [EAddr (EField (EVar "s_sched") "immed_tasks"); EVar "s_immed_store"; EVar "MU_SCHED_MAX_IMMED_TASKS"]))
      (SSeq (SExpr (EAssign (EField (EVar "s_sched") "deferred_task_count") (EInt 0)))
        (SSeq (SExpr (EAssign (EField (EVar "s_sched") "curr_task") (EInt 0)))
          (SExpr (EAssign (EField (EVar "s_sched") "idle_task") (EInt 0))))))).

(** mulib/mu_sched.c:98-103 *)
Definition src_mu_sched_reset : fdef := MkF "mu_sched_reset" Tvoid
  []
  [] []
  (SSeq (SExpr (ECall "mu_spsc_reset" [EAddr (EField (EVar "s_sched") "irq_tasks")]))
    (SSeq (SExpr (ECall "mu_queue_reset" [EAddr (EField (EVar "s_sched") "immed_tasks")]))
      (SSeq (SExpr (EAssign (EField (EVar "s_sched") "deferred_task_count") (EInt 0)))
        (SExpr (EAssign (EField (EVar "s_sched") "curr_task") (EInt 0)))))).

(** mulib/mu_sched.c:105-129 *)
Definition src_mu_sched_step : fdef := MkF "mu_sched_step" Tvoid
  []
  [("item", Tptr Tvoid)] []
  (SSeq (SDecl "item" (Some (ECast (Tptr Tvoid) (EAddr (EField (EVar "s_sched") "curr_task")))))
    (SSeq (SIf (EBin Eq (ECall "mu_spsc_get" [EAddr (EField (EVar "s_sched") "irq_tasks"); EVar "item"]) (EVar "MU_SPSC_ERR_NONE"))
        SSkip
        (SIf (EBin Ne (EAssign (EField (EVar "s_sched") "curr_task") (ECall "fetch_runnable_deferred_task" [])) (EInt 0))
          SSkip
          (SIf (EBin Eq (ECall "mu_queue_get" [EAddr (EField (EVar "s_sched") "immed_tasks"); ECast (Tptr (Tptr Tvoid)) (EAddr (EField (EVar "s_sched") "curr_task"))]) (EInt 1))
            SSkip
            (SExpr (EAssign (EField (EVar "s_sched") "curr_task") (EField (EVar "s_sched") "idle_task"))))))
      (SSeq (SExpr (ECall "mu_task_call" [EField (EVar "s_sched") "curr_task"]))
        (SExpr (EAssign (EField (EVar "s_sched") "curr_task") (EInt 0)))))).

(** mulib/mu_sched.c:131 *)
Definition src_mu_sched_get_idle_task : fdef := MkF "mu_sched_get_idle_task" (Tptr (Tstruct "mu_task_t"))
  []
  [] []
  (SReturn (Some (EField (EVar "s_sched") "idle_task"))).

(** mulib/mu_sched.c:133 *)
Definition src_mu_sched_set_idle_task : fdef := MkF "mu_sched_set_idle_task" Tvoid
  [("task", Tptr (Tstruct "mu_task_t"))]
  [] []
  (SExpr (EAssign (EField (EVar "s_sched") "idle_task") (EVar "task"))).

(** mulib/mu_sched.c:135 *)
Definition src_mu_sched_current_task : fdef := MkF "mu_sched_current_task" (Tptr (Tstruct "mu_task_t"))
  []
  [] []
  (SReturn (Some (EField (EVar "s_sched") "curr_task"))).

(** mulib/mu_sched.c:137-143 *)
Definition src_mu_sched_next_task : fdef := MkF "mu_sched_next_task" (Tptr (Tstruct "mu_task_t"))
  []
  [("deferred_task", Tptr (Tstruct "deferred_task_t"))] []
  (SSeq (SDecl "deferred_task" (Some (ECall "next_deferred_task" [])))
    (SSeq (SIf (EBin Eq (EVar "deferred_task") (EInt 0))
        (SReturn (Some (EInt 0)))
        SSkip)
      (SReturn (Some (EArrow (EVar "deferred_task") "task"))))).

(** mulib/mu_sched.c:145-148 *)
Definition src_mu_sched_wait : fdef := MkF "mu_sched_wait" (Tint false W32)
  [("task", Tptr (Tstruct "mu_task_t"))]
  [] []
  (SSeq (SExpr (EVar "task"))
    (SReturn (Some (EVar "MU_SCHED_ERR_NONE")))).

(** mulib/mu_sched.c:150-153 *)
Definition src_mu_sched_transfer : fdef := MkF "mu_sched_transfer" (Tint false W32)
  [("to_task", Tptr (Tstruct "mu_task_t"))]
  [] []
  (SSeq (SExpr (ECall "mu_task_call_transfer_hook" [EVar "to_task"]))
    (SReturn (Some (ECall "mu_sched_immed" [EVar "to_task"])))).

(** mulib/mu_sched.c:155-162 *)
Definition src_mu_sched_immed : fdef := MkF "mu_sched_immed" (Tint false W32)
  [("task", Tptr (Tstruct "mu_task_t"))]
  [] []
  (SIf (EBin Eq (ECall "mu_queue_put" [EAddr (EField (EVar "s_sched") "immed_tasks"); EVar "task"]) (EInt 0))
    (SReturn (Some (EVar "MU_SCHED_ERR_FULL")))
    (SReturn (Some (EVar "MU_SCHED_ERR_NONE")))).

(** mulib/mu_sched.c:164-170 *)
Definition src_mu_sched_from_isr : fdef := MkF "mu_sched_from_isr" (Tint false W32)
  [("task", Tptr (Tstruct "mu_task_t"))]
  [] []
  (SIf (EBin Eq (ECall "mu_spsc_put" [EAddr (EField (EVar "s_sched") "irq_tasks"); EVar "task"]) (EVar "MU_SPSC_ERR_FULL"))
    (SReturn (Some (EVar "MU_SCHED_ERR_FULL")))
    (SReturn (Some (EVar "MU_SCHED_ERR_NONE")))).

(** mulib/mu_sched.c:172-174 *)
Definition src_mu_sched_defer_until : fdef := MkF "mu_sched_defer_until" (Tint false W32)
  [("task", Tptr (Tstruct "mu_task_t")); ("at", Tint false W64)]
  [] []
  (SReturn (Some (ECall "defer_aux" [EVar "task"; EVar "at"]))).

(** mulib/mu_sched.c:176-179 *)
Definition src_mu_sched_defer_for : fdef := MkF "mu_sched_defer_for" (Tint false W32)
  [("task", Tptr (Tstruct "mu_task_t")); ("in", Tint true W64)]
  [("at", Tint false W64)] []
  (SSeq (SDecl "at" (Some (ECall "mu_time_offset" [ECall "mu_time_now" []; EVar "in"])))
    (SReturn (Some (ECall "defer_aux" [EVar "task"; EVar "at"])))).

(** mulib/mu_sched.c:181-200 *)
Definition src_mu_sched_remove_deferred_task : fdef := MkF "mu_sched_remove_deferred_task" (Tint false W32)
  [("task", Tptr (Tstruct "mu_task_t"))]
  [("err", Tint false W32); ("i", Tsize); ("deferred_task", Tptr (Tstruct "deferred_task_t")); ("to_move", Tsize); ("src", Tptr (Tstruct "deferred_task_t"))] []
  (SSeq (SDecl "err" (Some (EVar "MU_SCHED_ERR_NOT_FOUND")))
    (SSeq (SDecl "i" (Some (EField (EVar "s_sched") "deferred_task_count")))
      (SSeq (SLoop (EBin Gt (EVar "i") (EInt 0)) SSkip
          (SSeq (SDecl "deferred_task" (Some (EAddr (EIndex (EVar "s_deferred_tasks") (EBin Sub (EVar "i") (EInt 1))))))
            (SSeq (SIf (EBin Eq (EArrow (EVar "deferred_task") "task") (EVar "task"))
                (SSeq (SDecl "to_move" (Some (EBin Sub (EField (EVar "s_sched") "deferred_task_count") (EVar "i"))))
                  (SSeq (SIf (EBin Gt (EVar "to_move") (EInt 0))
                      (SSeq (SDecl "src" (Some (EAddr (EIndex (EVar "s_deferred_tasks") (EVar "i")))))
                        (SExpr (EMemmove (Tstruct "deferred_task_t") (EVar "deferred_task") (EVar "src") (EBin Mul (EVar "to_move") (ESizeof (Tstruct "deferred_task_t"))))))
                      SSkip)
                    (SSeq (SExpr (EAssignOp Sub (EField (EVar "s_sched") "deferred_task_count") (EInt 1)))
                      (SExpr (EAssign (EVar "err") (EVar "MU_SCHED_ERR_NONE"))))))
                SSkip)
              (SExpr (EAssignOp Sub (EVar "i") (EInt 1))))))
        (SReturn (Some (EVar "err")))))).

(** mulib/mu_sched.c:205-211 *)
Definition src_next_deferred_task : fdef := MkF "next_deferred_task" (Tptr (Tstruct "deferred_task_t"))
  []
  [("deferred_task", Tptr (Tstruct "deferred_task_t"))] []
  (SSeq (SDecl "deferred_task" (Some (EInt 0)))
    (SSeq (SIf (EBin Gt (EField (EVar "s_sched") "deferred_task_count") (EInt 0))
        (SExpr (EAssign (EVar "deferred_task") (EAddr (EIndex (EVar "s_deferred_tasks") (EBin Sub (EField (EVar "s_sched") "deferred_task_count") (EInt 1))))))
        SSkip)
      (SReturn (Some (EVar "deferred_task"))))).

(** mulib/mu_sched.c:213-228 *)
Definition src_fetch_runnable_deferred_task : fdef := MkF "fetch_runnable_deferred_task" (Tptr (Tstruct "mu_task_t"))
  []
  [("deferred_task", Tptr (Tstruct "deferred_task_t")); ("now", Tint false W64)] []
  (SSeq (SDecl "deferred_task" None)
    (SSeq (SDecl "now" (Some (ECall "mu_time_now" [])))
      (SSeq (SExpr (EAssign (EVar "deferred_task") (ECall "next_deferred_task" [])))
        (SIf (EAnd (EVar "deferred_task") (ENot (ECall "mu_time_precedes" [EVar "now"; EArrow (EVar "deferred_task") "at"])))
          (SSeq (SExpr (EAssignOp Sub (EField (EVar "s_sched") "deferred_task_count") (EInt 1)))
            (SReturn (Some (EArrow (EVar "deferred_task") "task"))))
          (SReturn (Some (EInt 0))))))).

(** mulib/mu_sched.c:230-265 *)
Definition src_defer_aux : fdef := MkF "defer_aux" (Tint false W32)
  [("task", Tptr (Tstruct "mu_task_t")); ("at", Tint false W64)]
  [("deferred_task", Tptr (Tstruct "deferred_task_t")); ("i", Tsize); ("to_move", int); ("src", Tptr (Tstruct "deferred_task_t")); ("dst", Tptr (Tstruct "deferred_task_t"))] []
  (SSeq (SDecl "deferred_task" None)
    (SSeq (SIf (EBin Eq (EField (EVar "s_sched") "deferred_task_count") (EVar "MU_SCHED_MAX_DEFERRED_TASKS"))
        (SReturn (Some (EVar "MU_SCHED_ERR_FULL")))
        SSkip)
      (SSeq (SDecl "i" (Some (EField (EVar "s_sched") "deferred_task_count")))
        (SSeq (SLoop (EBin Gt (EVar "i") (EInt 0)) SSkip
            (SSeq (SExpr (EAssign (EVar "deferred_task") (EAddr (EIndex (EVar "s_deferred_tasks") (EBin Sub (EVar "i") (EInt 1))))))
              (SSeq (SIf (ECall "mu_time_precedes" [EVar "at"; EArrow (EVar "deferred_task") "at"])
                  SBreak
                  SSkip)
                (SExpr (EAssignOp Sub (EVar "i") (EInt 1))))))
          (SSeq (SDecl "to_move" (Some (EBin Sub (EField (EVar "s_sched") "deferred_task_count") (EVar "i"))))
            (SSeq (SIf (EBin Gt (EVar "to_move") (EInt 0))
                (SSeq (SDecl "src" (Some (EAddr (EIndex (EVar "s_deferred_tasks") (EVar "i")))))
                  (SSeq (SDecl "dst" (Some (EAddr (EIndex (EVar "s_deferred_tasks") (EBin Add (EVar "i") (EInt 1))))))
                    (SExpr (EMemmove (Tstruct "deferred_task_t") (EVar "dst") (EVar "src") (EBin Mul (EVar "to_move") (ESizeof (Tstruct "deferred_task_t")))))))
                SSkip)
              (SSeq (SExpr (EAssign (EVar "deferred_task") (EAddr (EIndex (EVar "s_deferred_tasks") (EVar "i")))))
                (SSeq (SExpr (EAssign (EArrow (EVar "deferred_task") "at") (EVar "at")))
                  (SSeq (SExpr (EAssign (EArrow (EVar "deferred_task") "task") (EVar "task")))
                    (SSeq (SExpr (EAssignOp Add (EField (EVar "s_sched") "deferred_task_count") (EInt 1)))
                      (SReturn (Some (EVar "MU_SCHED_ERR_NONE"))))))))))))).

(** mulib/mu_task.c:51-58 *)
Definition src_mu_task_init : fdef := MkF "mu_task_init" (Tptr (Tstruct "mu_task_t"))
  [("task", Tptr (Tstruct "mu_task_t")); ("fn", Tptr Tfn); ("initial_state", Tint false W32); ("user_info", Tptr Tvoid)]
  [] []
  (SSeq (SExpr (EAssign (EArrow (EVar "task") "fn") (EVar "fn")))
    (SSeq (SExpr (EAssign (EArrow (EVar "task") "state") (EVar "initial_state")))
      (SSeq (SExpr (EAssign (EArrow (EVar "task") "user_info") (EVar "user_info")))
        (SReturn (Some (EVar "task")))))).

(** mulib/mu_task.c:60-62 *)
Definition src_mu_task_install_set_state_hook : fdef := MkF "mu_task_install_set_state_hook" Tvoid
  [("fn", Tptr Tfn)]
  [] []
  (SExpr (EAssign (EVar "s_set_state_hook") (EVar "fn"))).

(** mulib/mu_task.c:64-66 *)
Definition src_mu_task_install_call_hook : fdef := MkF "mu_task_install_call_hook" Tvoid
  [("fn", Tptr Tfn)]
  [] []
  (SExpr (EAssign (EVar "s_call_hook") (EVar "fn"))).

(** mulib/mu_task.c:68-70 *)
Definition src_mu_task_install_transfer_hook : fdef := MkF "mu_task_install_transfer_hook" Tvoid
  [("fn", Tptr Tfn)]
  [] []
  (SExpr (EAssign (EVar "s_transfer_hook") (EVar "fn"))).

(** mulib/mu_task.c:72-82 *)
Definition src_mu_task_call : fdef := MkF "mu_task_call" Tvoid
  [("task", Tptr (Tstruct "mu_task_t"))]
  [] []
  (SIf (EBin Ne (EVar "task") (EInt 0))
    (SSeq (SIf (EBin Ne (EVar "s_call_hook") (EInt 0))
        (SExpr (ECall "s_call_hook" [EVar "task"]))
        SSkip)
      (SExpr (ECallPtr (EArrow (EVar "task") "fn") [EVar "task"])))
    SSkip).

(** mulib/mu_task.c:84 *)
Definition src_mu_task_get_fn : fdef := MkF "mu_task_get_fn" (Tptr Tfn)
  [("task", Tptr (Tstruct "mu_task_t"))]
  [] []
  (SReturn (Some (EArrow (EVar "task") "fn"))).

(** mulib/mu_task.c:86 *)
Definition src_mu_task_get_state : fdef := MkF "mu_task_get_state" (Tint false W32)
  [("task", Tptr (Tstruct "mu_task_t"))]
  [] []
  (SReturn (Some (EArrow (EVar "task") "state"))).

(** mulib/mu_task.c:88-99 *)
Definition src_mu_task_set_state : fdef := MkF "mu_task_set_state" (Tptr (Tstruct "mu_task_t"))
  [("task", Tptr (Tstruct "mu_task_t")); ("state", Tint false W32)]
  [] []
  (SSeq (SIf (EBin Ne (EVar "task") (EInt 0))
      (SSeq (SIf (EBin Ne (EVar "s_set_state_hook") (EInt 0))
          (SExpr (ECall "s_set_state_hook" [EVar "task"; EVar "state"]))
          SSkip)
        (SExpr (EAssign (EArrow (EVar "task") "state") (EVar "state"))))
      SSkip)
    (SReturn (Some (EVar "task")))).

(** mulib/mu_task.c:101-103 *)
Definition src_mu_task_get_user_info : fdef := MkF "mu_task_get_user_info" (Tptr Tvoid)
  [("task", Tptr (Tstruct "mu_task_t"))]
  [] []
  (SReturn (Some (EArrow (EVar "task") "user_info"))).

(** mulib/mu_task.c:105-107 *)
Definition src_mu_task_set_user_info : fdef := MkF "mu_task_set_user_info" Tvoid
  [("task", Tptr (Tstruct "mu_task_t")); ("user_info", Tptr Tvoid)]
  [] []
  (SExpr (EAssign (EArrow (EVar "task") "user_info") (EVar "user_info"))).

(** mulib/mu_task.c:109-114 *)
Definition src_mu_task_call_transfer_hook : fdef := MkF "mu_task_call_transfer_hook" Tvoid
  [("to_task", Tptr (Tstruct "mu_task_t"))]
  [] []
  (SIf (EBin Ne (EVar "s_transfer_hook") (EInt 0))
    (SExpr (ECall "s_transfer_hook" [EVar "to_task"]))
    SSkip).

(** mulib/mu_queue.c:56-61 *)
Definition src_mu_queue_init : fdef := MkF "mu_queue_init" (Tptr (Tstruct "mu_queue_t"))
  [("queue", Tptr (Tstruct "mu_queue_t")); ("storage", Tptr (Tptr Tvoid)); ("capacity", Tsize)]
  [] []
  (SSeq (SExpr (EAssign (EArrow (EVar "queue") "storage") (EVar "storage")))
    (SSeq (SExpr (EAssign (EArrow (EVar "queue") "capacity") (EVar "capacity")))
      (SReturn (Some (ECall "mu_queue_reset" [EVar "queue"]))))).

(** mulib/mu_queue.c:63-67 *)
Definition src_mu_queue_reset : fdef := MkF "mu_queue_reset" (Tptr (Tstruct "mu_queue_t"))
  [("queue", Tptr (Tstruct "mu_queue_t"))]
  [] []
  (SSeq (SExpr (EAssign (EArrow (EVar "queue") "count") (EInt 0)))
    (SSeq (SExpr (EAssign (EArrow (EVar "queue") "index") (EInt 0)))
      (SReturn (Some (EVar "queue"))))).

(** mulib/mu_queue.c:69 *)
Definition src_mu_queue_capacity : fdef := MkF "mu_queue_capacity" Tsize
  [("queue", Tptr (Tstruct "mu_queue_t"))]
  [] []
  (SReturn (Some (EArrow (EVar "queue") "capacity"))).

(** mulib/mu_queue.c:71 *)
Definition src_mu_queue_count : fdef := MkF "mu_queue_count" Tsize
  [("queue", Tptr (Tstruct "mu_queue_t"))]
  [] []
  (SReturn (Some (EArrow (EVar "queue") "count"))).

(** mulib/mu_queue.c:73 *)
Definition src_mu_queue_is_empty : fdef := MkF "mu_queue_is_empty" Tbool
  [("queue", Tptr (Tstruct "mu_queue_t"))]
  [] []
  (SReturn (Some (EBin Eq (EArrow (EVar "queue") "count") (EInt 0)))).

(** mulib/mu_queue.c:75-77 *)
Definition src_mu_queue_is_full : fdef := MkF "mu_queue_is_full" Tbool
  [("queue", Tptr (Tstruct "mu_queue_t"))]
  [] []
  (SReturn (Some (EBin Eq (EArrow (EVar "queue") "count") (EArrow (EVar "queue") "capacity")))).

(** mulib/mu_queue.c:79-88 *)
Definition src_mu_queue_put : fdef := MkF "mu_queue_put" Tbool
  [("queue", Tptr (Tstruct "mu_queue_t")); ("element", Tptr Tvoid)]
  [] []
  (SIf (ENot (ECall "mu_queue_is_full" [EVar "queue"]))
    (SSeq (SExpr (EAssign (EIndex (EArrow (EVar "queue") "storage") (EArrow (EVar "queue") "index")) (EVar "element")))
      (SSeq (SExpr (EAssign (EArrow (EVar "queue") "index") (EBin Mod (EBin Add (EArrow (EVar "queue") "index") (EInt 1)) (EArrow (EVar "queue") "capacity"))))
        (SSeq (SExpr (EAssignOp Add (EArrow (EVar "queue") "count") (EInt 1)))
          (SReturn (Some (EInt 1))))))
    (SReturn (Some (EInt 0)))).

(** mulib/mu_queue.c:90-92 *)
Definition src_mu_queue_get : fdef := MkF "mu_queue_get" Tbool
  [("queue", Tptr (Tstruct "mu_queue_t")); ("element", Tptr (Tptr Tvoid))]
  [] []
  (SReturn (Some (ECall "access_queue" [EVar "queue"; EVar "element"; EInt 1]))).

(** mulib/mu_queue.c:94-96 *)
Definition src_mu_queue_peek : fdef := MkF "mu_queue_peek" Tbool
  [("queue", Tptr (Tstruct "mu_queue_t")); ("element", Tptr (Tptr Tvoid))]
  [] []
  (SReturn (Some (ECall "access_queue" [EVar "queue"; EVar "element"; EInt 0]))).

(** mulib/mu_queue.c:101-117 *)
Definition src_access_queue : fdef := MkF "access_queue" Tbool
  [("queue", Tptr (Tstruct "mu_queue_t")); ("element", Tptr (Tptr Tvoid)); ("fetch", Tbool)]
  [("idx", Tsize)] []
  (SIf (ENot (ECall "mu_queue_is_empty" [EVar "queue"]))
    (SSeq (SDecl "idx" (Some (EBin Sub (EBin Add (EArrow (EVar "queue") "capacity") (EArrow (EVar "queue") "index")) (EArrow (EVar "queue") "count"))))
      (SSeq (SIf (EBin Ge (EVar "idx") (EArrow (EVar "queue") "capacity"))
          (SExpr (EAssignOp Sub (EVar "idx") (EArrow (EVar "queue") "capacity")))
          SSkip)
        (SSeq (SExpr (EAssign (EDeref (EVar "element")) (EIndex (EArrow (EVar "queue") "storage") (EVar "idx"))))
          (SSeq (SIf (EVar "fetch")
              (SExpr (EAssignOp Sub (EArrow (EVar "queue") "count") (EInt 1)))
              SSkip)
            (SReturn (Some (EInt 1)))))))
    (SSeq (SExpr (EAssign (EDeref (EVar "element")) (EInt 0)))
      (SReturn (Some (EInt 0))))).

(** mulib/mu_spsc.c:46-54 *)
Definition src_mu_spsc_init : fdef := MkF "mu_spsc_init" (Tint false W32)
  [("q", Tptr (Tstruct "mu_spsc_t")); ("store", Tptr (Tptr Tvoid)); ("store_size", Tint false W16)]
  [] []
  (SSeq (SIf (EOr (EBin Lt (EVar "store_size") (EInt 2)) (ENot (EBin Eq (EBin BAnd (EVar "store_size") (EBin Sub (EVar "store_size") (EInt 1))) (EInt 0))))
      (SReturn (Some (EVar "MU_SPSC_ERR_SIZE")))
      SSkip)
    (SSeq (SExpr (EAssign (EArrow (EVar "q") "store") (EVar "store")))
      (SSeq (SExpr (EAssign (EArrow (EVar "q") "mask") (EBin Sub (EVar "store_size") (EInt 1))))
        (SReturn (Some (ECall "mu_spsc_reset" [EVar "q"])))))).

(** mulib/mu_spsc.c:56-60 *)
Definition src_mu_spsc_reset : fdef := MkF "mu_spsc_reset" (Tint false W32)
  [("q", Tptr (Tstruct "mu_spsc_t"))]
  [] []
  (SSeq (SExpr (EAssign (EArrow (EVar "q") "head") (EInt 0)))
    (SSeq (SExpr (EAssign (EArrow (EVar "q") "tail") (EInt 0)))
      (SReturn (Some (EVar "MU_SPSC_ERR_NONE"))))).

(** mulib/mu_spsc.c:62 *)
Definition src_mu_spsc_capacity : fdef := MkF "mu_spsc_capacity" (Tint false W16)
  [("q", Tptr (Tstruct "mu_spsc_t"))]
  [] []
  (SReturn (Some (EArrow (EVar "q") "mask"))).

(** mulib/mu_spsc.c:67-79 *)
Definition src_mu_spsc_put : fdef := MkF "mu_spsc_put" (Tint false W32)
  [("q", Tptr (Tstruct "mu_spsc_t")); ("item", Tptr Tvoid)]
  [("err", Tint false W32); ("next_tail", Tint false W16)] []
  (SSeq (SDecl "err" (Some (EVar "MU_SPSC_ERR_NONE")))
    (SSeq (SDecl "next_tail" (Some (EBin BAnd (EBin Add (EArrow (EVar "q") "tail") (EInt 1)) (EArrow (EVar "q") "mask"))))
      (SSeq (SIf (EBin Eq (EVar "next_tail") (EArrow (EVar "q") "head"))
          (SExpr (EAssign (EVar "err") (EVar "MU_SPSC_ERR_FULL")))
          (SSeq (SExpr (EAssign (EIndex (EArrow (EVar "q") "store") (EArrow (EVar "q") "tail")) (EVar "item")))
            (SExpr (EAssign (EArrow (EVar "q") "tail") (EVar "next_tail")))))
        (SReturn (Some (EVar "err")))))).

(** mulib/mu_spsc.c:84-96 *)
Definition src_mu_spsc_get : fdef := MkF "mu_spsc_get" (Tint false W32)
  [("q", Tptr (Tstruct "mu_spsc_t")); ("item", Tptr (Tptr Tvoid))]
  [("err", Tint false W32)] []
  (SSeq (SDecl "err" (Some (EVar "MU_SPSC_ERR_NONE")))
    (SSeq (SIf (EBin Eq (EArrow (EVar "q") "head") (EArrow (EVar "q") "tail"))
        (SSeq (SExpr (EAssign (EVar "err") (EVar "MU_SPSC_ERR_EMPTY")))
          (SExpr (EAssign (EDeref (EVar "item")) (EInt 0))))
        (SSeq (SExpr (EAssign (EDeref (EVar "item")) (EIndex (EArrow (EVar "q") "store") (EArrow (EVar "q") "head"))))
          (SExpr (EAssign (EArrow (EVar "q") "head") (EBin BAnd (EBin Add (EArrow (EVar "q") "head") (EInt 1)) (EArrow (EVar "q") "mask"))))))
      (SReturn (Some (EVar "err"))))).

(** struct types (mulib/*.h, *.c) *)
Definition sched_prog_structs : list (string * list (list (string * ty))) :=
  [("mu_task_t", [[("fn", Tptr Tfn)]; [("state", Tint false W32)]; [("user_info", Tptr Tvoid)]]);
   ("mu_queue_t", [[("storage", Tptr (Tptr Tvoid))]; [("capacity", Tsize)]; [("count", Tsize)]; [("index", Tsize)]]);
   ("mu_spsc_t", [[("mask", Tint false W16)]; [("head", Tint false W16)]; [("tail", Tint false W16)]; [("store", Tptr (Tptr Tvoid))]]);
   ("deferred_task_t", [[("at", Tint false W64)]; [("task", Tptr (Tstruct "mu_task_t"))]]);
   ("mu_sched_t", [[("irq_tasks", Tstruct "mu_spsc_t")]; [("immed_tasks", Tstruct "mu_queue_t")]; [("deferred_task_count", Tsize)]; [("curr_task", Tptr (Tstruct "mu_task_t"))]; [("idle_task", Tptr (Tstruct "mu_task_t"))]])].
Definition sched_prog_consts : list (string * Z) :=
  [("MU_SCHED_ERR_NONE", 0); ("MU_SCHED_ERR_FULL", 1); ("MU_SCHED_ERR_NOT_FOUND", 2); ("MU_SPSC_ERR_NONE", 0); ("MU_SPSC_ERR_EMPTY", 1); ("MU_SPSC_ERR_FULL", 2); ("MU_SPSC_ERR_SIZE", 3); ("MU_SCHED_MAX_DEFERRED_TASKS", max_deferred); ("MU_SCHED_MAX_IRQ_TASKS", max_irq); ("MU_SCHED_MAX_IMMED_TASKS", max_immed)].
(** file scope variables: their types and the objects they are *)
Definition sched_prog_globals : list (string * (ty * nat)) :=
  [("s_irq_store", (Tarr (Tptr Tvoid) max_irq, 0%nat)); ("s_immed_store", (Tarr (Tptr Tvoid) max_immed, 1%nat)); ("s_deferred_tasks", (Tarr (Tstruct "deferred_task_t") max_deferred, 2%nat)); ("s_sched", (Tstruct "mu_sched_t", 3%nat)); ("s_set_state_hook", (Tptr Tfn, 4%nat)); ("s_call_hook", (Tptr Tfn, 5%nat)); ("s_transfer_hook", (Tptr Tfn, 6%nat))].
Definition sched_prog : cprog := MkProg sched_prog_structs sched_prog_consts sched_prog_globals
  [src_mu_sched_init; src_mu_sched_reset; src_mu_sched_step; src_mu_sched_get_idle_task; src_mu_sched_set_idle_task; src_mu_sched_current_task; src_mu_sched_next_task; src_mu_sched_wait; src_mu_sched_transfer; src_mu_sched_immed; src_mu_sched_from_isr; src_mu_sched_defer_until; src_mu_sched_defer_for; src_mu_sched_remove_deferred_task; src_next_deferred_task; src_fetch_runnable_deferred_task; src_defer_aux; src_mu_task_init; src_mu_task_install_set_state_hook; src_mu_task_install_call_hook; src_mu_task_install_transfer_hook; src_mu_task_call; src_mu_task_get_fn; src_mu_task_get_state; src_mu_task_set_state; src_mu_task_get_user_info; src_mu_task_set_user_info; src_mu_task_call_transfer_hook; src_mu_queue_init; src_mu_queue_reset; src_mu_queue_capacity; src_mu_queue_count; src_mu_queue_is_empty; src_mu_queue_is_full; src_mu_queue_put; src_mu_queue_get; src_mu_queue_peek; src_access_queue; src_mu_spsc_init; src_mu_spsc_reset; src_mu_spsc_capacity; src_mu_spsc_put; src_mu_spsc_get].
End config.
