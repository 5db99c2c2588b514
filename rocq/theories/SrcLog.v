(** * The text of mulib/mu_log.c, translated by tools/c2v.py: do not edit.
    Each definition names the lines it translates; the meaning of the syntax is in CLang.v. *)
From Verif Require Import CLang.
Open Scope string_scope.
Open Scope Z_scope.

(** mulib/mu_log.c:59-62 *)
Definition src_mu_log_init : fdef := MkF "mu_log_init" Tvoid
  [("reporting_threshold", Tint false W32); ("logging_fn", Tptr Tfn)]
  [] []
  (SSeq (SExpr (ECall "mu_log_set_reporting_threshold" [EVar "reporting_threshold"]))
    (SExpr (ECall "mu_log_set_logging_function" [EVar "logging_fn"]))).

(** mulib/mu_log.c:64-66 *)
Definition src_mu_log_set_reporting_threshold : fdef := MkF "mu_log_set_reporting_threshold" Tvoid
  [("reporting_threshold", Tint false W32)]
  [] []
  (SExpr (EAssign (EVar "s_reporting_threshold") (EVar "reporting_threshold"))).

(** mulib/mu_log.c:68-70 *)
Definition src_mu_log_get_reporting_threshold : fdef := MkF "mu_log_get_reporting_threshold" (Tint false W32)
  []
  [] []
  (SReturn (Some (EVar "s_reporting_threshold"))).

(** mulib/mu_log.c:72-74 *)
Definition src_mu_log_set_logging_function : fdef := MkF "mu_log_set_logging_function" Tvoid
  [("logging_fn", Tptr Tfn)]
  [] []
  (SExpr (EAssign (EVar "s_logging_fn") (EVar "logging_fn"))).

(** mulib/mu_log.c:76-78 *)
Definition src_mu_log_get_logging_function : fdef := MkF "mu_log_get_logging_function" (Tptr Tfn)
  []
  [] []
  (SReturn (Some (EVar "s_logging_fn"))).

(** mulib/mu_log.c:80-82 *)
Definition src_mu_log_get_reporting_level : fdef := MkF "mu_log_get_reporting_level" (Tint false W32)
  []
  [] []
  (SReturn (Some (EVar "s_reporting_level"))).

(** mulib/mu_log.c:84-86 *)
Definition src_mu_log_is_reporting : fdef := MkF "mu_log_is_reporting" Tbool
  [("reporting_level", Tint false W32)]
  [] []
  (SReturn (Some (EBin Ge (EVar "reporting_level") (EVar "s_reporting_threshold")))).

(** mulib/mu_log.c:88-94 *)
Definition src_mu_log_level_name : fdef := MkF "mu_log_level_name" (Tptr (Tint true W8))
  [("level", Tint false W32)]
  [] []
  (SIf (EBin Lt (EVar "level") (EBin Div (ESizeof (Tarr (Tptr (Tint true W8)) 6)) (ESizeof (Tptr (Tint true W8)))))
    (SReturn (Some (EIndex (EVar "s_level_names") (EVar "level"))))
    (SReturn (Some (EVar "str_6")))).

(** mulib/mu_log.c:96-104 *)
Definition src_mu_log : fdef := MkF "mu_log" Tvoid
  [("level", Tint false W32); ("fmt", Tptr (Tint true W8)); ("...", Tptr Tvoid)]
  [("ap", Tptr Tvoid)] []
  (SIf (EAnd (ECall "mu_log_is_reporting" [EVar "level"]) (EBin Ne (EVar "s_logging_fn") (EInt 0)))
    (SSeq (SExpr (EAssign (EVar "s_reporting_level") (EVar "level")))
      (SSeq (SDecl "ap" None)
        (SSeq (SExpr (EAssign (EVar "ap") (EVar "...")))
          (SSeq (SExpr (ECall "s_logging_fn" [EVar "fmt"; EVar "ap"]))
            (SExpr (EVar "ap"))))))
    SSkip).

(** struct types (mulib/*.h, *.c) *)
Definition log_prog_structs : list (string * list (list (string * ty))) :=
  [].
Definition log_prog_consts : list (string * Z) :=
  [("MU_LOG_LEVEL_TRACE", 0); ("MU_LOG_LEVEL_DEBUG", 1); ("MU_LOG_LEVEL_INFO", 2); ("MU_LOG_LEVEL_WARN", 3); ("MU_LOG_LEVEL_ERROR", 4); ("MU_LOG_LEVEL_FATAL", 5)].
(** file scope variables: their types and the objects they are *)
Definition log_prog_globals : list (string * (ty * nat)) :=
  [("str_0", (Tarr (Tint true W8) 6, 0%nat)); ("str_1", (Tarr (Tint true W8) 6, 1%nat)); ("str_2", (Tarr (Tint true W8) 5, 2%nat)); ("str_3", (Tarr (Tint true W8) 5, 3%nat)); ("str_4", (Tarr (Tint true W8) 6, 4%nat)); ("str_5", (Tarr (Tint true W8) 6, 5%nat)); ("s_level_names", (Tarr (Tptr (Tint true W8)) 6, 6%nat)); ("s_reporting_threshold", (Tint false W32, 7%nat)); ("s_reporting_level", (Tint false W32, 8%nat)); ("s_logging_fn", (Tptr Tfn, 9%nat)); ("str_6", (Tarr (Tint true W8) 8, 10%nat))].
Definition lit_str_0 : list Z := [84; 82; 65; 67; 69; 0].
Definition lit_str_1 : list Z := [68; 69; 66; 85; 71; 0].
Definition lit_str_2 : list Z := [73; 78; 70; 79; 0].
Definition lit_str_3 : list Z := [87; 65; 82; 78; 0].
Definition lit_str_4 : list Z := [69; 82; 82; 79; 82; 0].
Definition lit_str_5 : list Z := [70; 65; 84; 65; 76; 0].
Definition lit_str_6 : list Z := [85; 78; 75; 78; 79; 87; 78; 0].
Definition init_s_level_names : list nat := [0%nat; 1%nat; 2%nat; 3%nat; 4%nat; 5%nat].
Definition log_prog : cprog := MkProg log_prog_structs log_prog_consts log_prog_globals
  [src_mu_log_init; src_mu_log_set_reporting_threshold; src_mu_log_get_reporting_threshold; src_mu_log_set_logging_function; src_mu_log_get_logging_function; src_mu_log_get_reporting_level; src_mu_log_is_reporting; src_mu_log_level_name; src_mu_log].
