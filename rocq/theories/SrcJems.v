(** * The text of mulib/mu_jems.c, translated by tools/c2v.py: do not edit.
    Each definition names the lines it translates; the meaning of the syntax is in CLang.v. *)
From Verif Require Import CLang.
Open Scope string_scope.
Open Scope Z_scope.

(** mulib/mu_jems.c:62-70 *)
Definition src_mu_jems_init : fdef := MkF "mu_jems_init" (Tptr (Tstruct "mu_jems_t"))
  [("jems", Tptr (Tstruct "mu_jems_t")); ("levels", Tptr (Tstruct "mu_jems_level_t")); ("max_level", Tsize); ("writer", Tptr Tfn); ("arg", Tsize)]
  [] []
  (SSeq (SExpr (EAssign (EArrow (EVar "jems") "levels") (EVar "levels")))
    (SSeq (SExpr (EAssign (EArrow (EVar "jems") "max_level") (EVar "max_level")))
      (SSeq (SExpr (EAssign (EArrow (EVar "jems") "writer") (EVar "writer")))
        (SSeq (SExpr (EAssign (EArrow (EVar "jems") "arg") (EVar "arg")))
          (SReturn (Some (ECall "mu_jems_reset" [EVar "jems"]))))))).

(** mulib/mu_jems.c:72-77 *)
Definition src_mu_jems_reset : fdef := MkF "mu_jems_reset" (Tptr (Tstruct "mu_jems_t"))
  [("jems", Tptr (Tstruct "mu_jems_t"))]
  [] []
  (SSeq (SExpr (EAssign (EArrow (EVar "jems") "curr_level") (EInt 0)))
    (SSeq (SExpr (EAssign (EArrow (ECall "level_ref" [EVar "jems"]) "item_count") (EInt 0)))
      (SSeq (SExpr (EAssign (EArrow (ECall "level_ref" [EVar "jems"]) "is_object") (EInt 0)))
        (SReturn (Some (EVar "jems")))))).

(** mulib/mu_jems.c:79-83 *)
Definition src_mu_jems_object_open : fdef := MkF "mu_jems_object_open" (Tptr (Tstruct "mu_jems_t"))
  [("jems", Tptr (Tstruct "mu_jems_t"))]
  [] []
  (SSeq (SExpr (ECall "commify" [EVar "jems"]))
    (SSeq (SExpr (ECall "emit_char" [EVar "jems"; EInt 123]))
      (SReturn (Some (ECall "push_level" [EVar "jems"; EInt 1]))))).

(** mulib/mu_jems.c:85-88 *)
Definition src_mu_jems_object_close : fdef := MkF "mu_jems_object_close" (Tptr (Tstruct "mu_jems_t"))
  [("jems", Tptr (Tstruct "mu_jems_t"))]
  [] []
  (SSeq (SExpr (ECall "emit_char" [EVar "jems"; EInt 125]))
    (SReturn (Some (ECall "pop_level" [EVar "jems"])))).

(** mulib/mu_jems.c:90-94 *)
Definition src_mu_jems_array_open : fdef := MkF "mu_jems_array_open" (Tptr (Tstruct "mu_jems_t"))
  [("jems", Tptr (Tstruct "mu_jems_t"))]
  [] []
  (SSeq (SExpr (ECall "commify" [EVar "jems"]))
    (SSeq (SExpr (ECall "emit_char" [EVar "jems"; EInt 91]))
      (SReturn (Some (ECall "push_level" [EVar "jems"; EInt 0]))))).

(** mulib/mu_jems.c:96-99 *)
Definition src_mu_jems_array_close : fdef := MkF "mu_jems_array_close" (Tptr (Tstruct "mu_jems_t"))
  [("jems", Tptr (Tstruct "mu_jems_t"))]
  [] []
  (SSeq (SExpr (ECall "emit_char" [EVar "jems"; EInt 93]))
    (SReturn (Some (ECall "pop_level" [EVar "jems"])))).

(** mulib/mu_jems.c:114-119 *)
Definition src_mu_jems_integer : fdef := MkF "mu_jems_integer" (Tptr (Tstruct "mu_jems_t"))
  [("jems", Tptr (Tstruct "mu_jems_t")); ("value", Tint true W64)]
  [] [("buf", Tarr (Tint true W8) 22)]
  (SSeq (SDecl "buf" None)
    (SSeq (SExpr (ECall "snprintf" [EVar "buf"; ESizeof (Tarr (Tint true W8) 22); EVar "str_0"; EVar "value"]))
      (SSeq (SExpr (ECall "commify" [EVar "jems"]))
        (SReturn (Some (ECall "emit_string" [EVar "jems"; EVar "buf"])))))).

(** mulib/mu_jems.c:121-126 *)
Definition src_mu_jems_string : fdef := MkF "mu_jems_string" (Tptr (Tstruct "mu_jems_t"))
  [("jems", Tptr (Tstruct "mu_jems_t")); ("string", Tptr (Tint true W8))]
  [] []
  (SSeq (SExpr (ECall "commify" [EVar "jems"]))
    (SSeq (SExpr (ECall "emit_char" [EVar "jems"; EInt 34]))
      (SSeq (SExpr (ECall "emit_quoted_string" [EVar "jems"; EVar "string"]))
        (SReturn (Some (ECall "emit_char" [EVar "jems"; EInt 34])))))).

(** mulib/mu_jems.c:128-133 *)
Definition src_mu_jems_bytes : fdef := MkF "mu_jems_bytes" (Tptr (Tstruct "mu_jems_t"))
  [("jems", Tptr (Tstruct "mu_jems_t")); ("bytes", Tptr (Tint false W8)); ("length", Tsize)]
  [] []
  (SSeq (SExpr (ECall "commify" [EVar "jems"]))
    (SSeq (SExpr (ECall "emit_char" [EVar "jems"; EInt 34]))
      (SSeq (SExpr (ECall "emit_quoted_bytes" [EVar "jems"; EVar "bytes"; EVar "length"]))
        (SReturn (Some (ECall "emit_char" [EVar "jems"; EInt 34])))))).

(** mulib/mu_jems.c:135-138 *)
Definition src_mu_jems_bool : fdef := MkF "mu_jems_bool" (Tptr (Tstruct "mu_jems_t"))
  [("jems", Tptr (Tstruct "mu_jems_t")); ("boolean", Tbool)]
  [] []
  (SSeq (SExpr (ECall "commify" [EVar "jems"]))
    (SReturn (Some (ECall "emit_string" [EVar "jems"; ECond (EVar "boolean") (EVar "str_1") (EVar "str_2")])))).

(** mulib/mu_jems.c:140-143 *)
Definition src_mu_jems_true : fdef := MkF "mu_jems_true" (Tptr (Tstruct "mu_jems_t"))
  [("jems", Tptr (Tstruct "mu_jems_t"))]
  [] []
  (SSeq (SExpr (ECall "commify" [EVar "jems"]))
    (SReturn (Some (ECall "emit_string" [EVar "jems"; EVar "str_1"])))).

(** mulib/mu_jems.c:145-148 *)
Definition src_mu_jems_false : fdef := MkF "mu_jems_false" (Tptr (Tstruct "mu_jems_t"))
  [("jems", Tptr (Tstruct "mu_jems_t"))]
  [] []
  (SSeq (SExpr (ECall "commify" [EVar "jems"]))
    (SReturn (Some (ECall "emit_string" [EVar "jems"; EVar "str_2"])))).

(** mulib/mu_jems.c:150-153 *)
Definition src_mu_jems_null : fdef := MkF "mu_jems_null" (Tptr (Tstruct "mu_jems_t"))
  [("jems", Tptr (Tstruct "mu_jems_t"))]
  [] []
  (SSeq (SExpr (ECall "commify" [EVar "jems"]))
    (SReturn (Some (ECall "emit_string" [EVar "jems"; EVar "str_3"])))).

(** mulib/mu_jems.c:155-163 *)
Definition src_mu_jems_literal : fdef := MkF "mu_jems_literal" (Tptr (Tstruct "mu_jems_t"))
  [("jems", Tptr (Tstruct "mu_jems_t")); ("literal", Tptr (Tint true W8)); ("n_bytes", Tsize)]
  [("i", int); ("b", Tint false W8)] []
  (SSeq (SExpr (ECall "commify" [EVar "jems"]))
    (SSeq (SDecl "i" (Some (EInt 0)))
      (SSeq (SLoop (EBin Lt (EVar "i") (EVar "n_bytes")) (SExpr (EPost Add (EVar "i")))
          (SSeq (SDecl "b" (Some (EIndex (EVar "literal") (EVar "i"))))
            (SExpr (ECall "emit_char" [EVar "jems"; EVar "b"]))))
        (SReturn (Some (EVar "jems")))))).

(** mulib/mu_jems.c:168-170 *)
Definition src_mu_jems_key_object_open : fdef := MkF "mu_jems_key_object_open" (Tptr (Tstruct "mu_jems_t"))
  [("jems", Tptr (Tstruct "mu_jems_t")); ("key", Tptr (Tint true W8))]
  [] []
  (SReturn (Some (ECall "mu_jems_object_open" [ECall "mu_jems_string" [EVar "jems"; EVar "key"]]))).

(** mulib/mu_jems.c:172-174 *)
Definition src_mu_jems_key_array_open : fdef := MkF "mu_jems_key_array_open" (Tptr (Tstruct "mu_jems_t"))
  [("jems", Tptr (Tstruct "mu_jems_t")); ("key", Tptr (Tint true W8))]
  [] []
  (SReturn (Some (ECall "mu_jems_array_open" [ECall "mu_jems_string" [EVar "jems"; EVar "key"]]))).

(** mulib/mu_jems.c:180-183 *)
Definition src_mu_jems_key_integer : fdef := MkF "mu_jems_key_integer" (Tptr (Tstruct "mu_jems_t"))
  [("jems", Tptr (Tstruct "mu_jems_t")); ("key", Tptr (Tint true W8)); ("value", Tint true W64)]
  [] []
  (SReturn (Some (ECall "mu_jems_integer" [ECall "mu_jems_string" [EVar "jems"; EVar "key"]; EVar "value"]))).

(** mulib/mu_jems.c:185-188 *)
Definition src_mu_jems_key_string : fdef := MkF "mu_jems_key_string" (Tptr (Tstruct "mu_jems_t"))
  [("jems", Tptr (Tstruct "mu_jems_t")); ("key", Tptr (Tint true W8)); ("string", Tptr (Tint true W8))]
  [] []
  (SReturn (Some (ECall "mu_jems_string" [ECall "mu_jems_string" [EVar "jems"; EVar "key"]; EVar "string"]))).

(** mulib/mu_jems.c:190-193 *)
Definition src_mu_jems_key_bytes : fdef := MkF "mu_jems_key_bytes" (Tptr (Tstruct "mu_jems_t"))
  [("jems", Tptr (Tstruct "mu_jems_t")); ("key", Tptr (Tint true W8)); ("bytes", Tptr (Tint false W8)); ("length", Tsize)]
  [] []
  (SReturn (Some (ECall "mu_jems_bytes" [ECall "mu_jems_string" [EVar "jems"; EVar "key"]; EVar "bytes"; EVar "length"]))).

(** mulib/mu_jems.c:195-197 *)
Definition src_mu_jems_key_bool : fdef := MkF "mu_jems_key_bool" (Tptr (Tstruct "mu_jems_t"))
  [("jems", Tptr (Tstruct "mu_jems_t")); ("key", Tptr (Tint true W8)); ("boolean", Tbool)]
  [] []
  (SReturn (Some (ECall "mu_jems_bool" [ECall "mu_jems_string" [EVar "jems"; EVar "key"]; EVar "boolean"]))).

(** mulib/mu_jems.c:199-201 *)
Definition src_mu_jems_key_true : fdef := MkF "mu_jems_key_true" (Tptr (Tstruct "mu_jems_t"))
  [("jems", Tptr (Tstruct "mu_jems_t")); ("key", Tptr (Tint true W8))]
  [] []
  (SReturn (Some (ECall "mu_jems_true" [ECall "mu_jems_string" [EVar "jems"; EVar "key"]]))).

(** mulib/mu_jems.c:203-205 *)
Definition src_mu_jems_key_false : fdef := MkF "mu_jems_key_false" (Tptr (Tstruct "mu_jems_t"))
  [("jems", Tptr (Tstruct "mu_jems_t")); ("key", Tptr (Tint true W8))]
  [] []
  (SReturn (Some (ECall "mu_jems_false" [ECall "mu_jems_string" [EVar "jems"; EVar "key"]]))).

(** mulib/mu_jems.c:207-209 *)
Definition src_mu_jems_key_null : fdef := MkF "mu_jems_key_null" (Tptr (Tstruct "mu_jems_t"))
  [("jems", Tptr (Tstruct "mu_jems_t")); ("key", Tptr (Tint true W8))]
  [] []
  (SReturn (Some (ECall "mu_jems_null" [ECall "mu_jems_string" [EVar "jems"; EVar "key"]]))).

(** mulib/mu_jems.c:211-214 *)
Definition src_mu_jems_key_literal : fdef := MkF "mu_jems_key_literal" (Tptr (Tstruct "mu_jems_t"))
  [("jems", Tptr (Tstruct "mu_jems_t")); ("key", Tptr (Tint true W8)); ("literal", Tptr (Tint true W8)); ("n_bytes", Tsize)]
  [] []
  (SReturn (Some (ECall "mu_jems_literal" [ECall "mu_jems_string" [EVar "jems"; EVar "key"]; EVar "literal"; EVar "n_bytes"]))).

(** mulib/mu_jems.c:216 *)
Definition src_mu_jems_curr_level : fdef := MkF "mu_jems_curr_level" Tsize
  [("jems", Tptr (Tstruct "mu_jems_t"))]
  [] []
  (SReturn (Some (EArrow (EVar "jems") "curr_level"))).

(** mulib/mu_jems.c:218-220 *)
Definition src_mu_jems_item_count : fdef := MkF "mu_jems_item_count" Tsize
  [("jems", Tptr (Tstruct "mu_jems_t"))]
  [] []
  (SReturn (Some (EArrow (ECall "level_ref" [EVar "jems"]) "item_count"))).

(** mulib/mu_jems.c:225-232 *)
Definition src_push_level : fdef := MkF "push_level" (Tptr (Tstruct "mu_jems_t"))
  [("jems", Tptr (Tstruct "mu_jems_t")); ("is_object", Tbool)]
  [] []
  (SSeq (SIf (EBin Lt (EArrow (EVar "jems") "curr_level") (EBin Sub (EArrow (EVar "jems") "max_level") (EInt 1)))
      (SSeq (SExpr (EAssignOp Add (EArrow (EVar "jems") "curr_level") (EInt 1)))
        (SSeq (SExpr (EAssign (EArrow (ECall "level_ref" [EVar "jems"]) "item_count") (EInt 0)))
          (SExpr (EAssign (EArrow (ECall "level_ref" [EVar "jems"]) "is_object") (EVar "is_object")))))
      SSkip)
    (SReturn (Some (EVar "jems")))).

(** mulib/mu_jems.c:234-239 *)
Definition src_pop_level : fdef := MkF "pop_level" (Tptr (Tstruct "mu_jems_t"))
  [("jems", Tptr (Tstruct "mu_jems_t"))]
  [] []
  (SSeq (SIf (EBin Gt (EArrow (EVar "jems") "curr_level") (EInt 0))
      (SExpr (EAssignOp Sub (EArrow (EVar "jems") "curr_level") (EInt 1)))
      SSkip)
    (SReturn (Some (EVar "jems")))).

(** mulib/mu_jems.c:241-244 *)
Definition src_emit_char : fdef := MkF "emit_char" (Tptr (Tstruct "mu_jems_t"))
  [("jems", Tptr (Tstruct "mu_jems_t")); ("ch", Tint true W8)]
  [] []
  (SSeq (SExpr (ECallPtr (EArrow (EVar "jems") "writer") [EVar "ch"; EArrow (EVar "jems") "arg"]))
    (SReturn (Some (EVar "jems")))).

(** mulib/mu_jems.c:246-258 *)
Definition src_emit_quoted_byte : fdef := MkF "emit_quoted_byte" (Tptr (Tstruct "mu_jems_t"))
  [("jems", Tptr (Tstruct "mu_jems_t")); ("byte", Tint false W8)]
  [] [("buf", Tarr (Tint true W8) 7)]
  (SSeq (SIf (EOr (EBin Lt (EVar "byte") (EInt 32)) (EBin Ge (EVar "byte") (EInt 127)))
      (SSeq (SDecl "buf" None)
        (SSeq (SExpr (ECall "sprintf" [EVar "buf"; EVar "str_4"; EVar "byte"]))
          (SExpr (ECall "emit_string" [EVar "jems"; EVar "buf"]))))
      (SSeq (SIf (EOr (EBin Eq (EVar "byte") (EInt 92)) (EBin Eq (EVar "byte") (EInt 34)))
          (SExpr (ECall "emit_char" [EVar "jems"; EInt 92]))
          SSkip)
        (SExpr (ECall "emit_char" [EVar "jems"; ECast (Tint true W8) (EVar "byte")]))))
    (SReturn (Some (EVar "jems")))).

(** mulib/mu_jems.c:260-265 *)
Definition src_emit_string : fdef := MkF "emit_string" (Tptr (Tstruct "mu_jems_t"))
  [("jems", Tptr (Tstruct "mu_jems_t")); ("s", Tptr (Tint true W8))]
  [] []
  (SSeq (SLoop (EDeref (EVar "s")) SSkip
      (SExpr (ECall "emit_char" [EVar "jems"; EDeref (EPost Add (EVar "s"))])))
    (SReturn (Some (EVar "jems")))).

(** mulib/mu_jems.c:267-272 *)
Definition src_emit_quoted_string : fdef := MkF "emit_quoted_string" (Tptr (Tstruct "mu_jems_t"))
  [("jems", Tptr (Tstruct "mu_jems_t")); ("s", Tptr (Tint true W8))]
  [] []
  (SSeq (SLoop (EDeref (EVar "s")) SSkip
      (SExpr (ECall "emit_quoted_byte" [EVar "jems"; ECast (Tint false W8) (EDeref (EPost Add (EVar "s")))])))
    (SReturn (Some (EVar "jems")))).

(** mulib/mu_jems.c:274-281 *)
Definition src_emit_quoted_bytes : fdef := MkF "emit_quoted_bytes" (Tptr (Tstruct "mu_jems_t"))
  [("jems", Tptr (Tstruct "mu_jems_t")); ("bytes", Tptr (Tint false W8)); ("len", Tsize)]
  [("i", int); ("b", Tint false W8)] []
  (SSeq (SDecl "i" (Some (EInt 0)))
    (SSeq (SLoop (EBin Lt (EVar "i") (EVar "len")) (SExpr (EPost Add (EVar "i")))
        (SSeq (SDecl "b" (Some (EIndex (EVar "bytes") (EVar "i"))))
          (SExpr (ECall "emit_quoted_byte" [EVar "jems"; EVar "b"]))))
      (SReturn (Some (EVar "jems"))))).

(** mulib/mu_jems.c:283-304 *)
Definition src_commify : fdef := MkF "commify" (Tptr (Tstruct "mu_jems_t"))
  [("jems", Tptr (Tstruct "mu_jems_t"))]
  [("level", Tptr (Tstruct "mu_jems_level_t")); ("count", Tsize)] []
  (SSeq (SDecl "level" (Some (ECall "level_ref" [EVar "jems"])))
    (SSeq (SDecl "count" (Some (EArrow (EVar "level") "item_count")))
      (SSeq (SIf (EArrow (EVar "level") "is_object")
          (SIf (EBin Gt (EVar "count") (EInt 0))
            (SExpr (ECall "emit_char" [EVar "jems"; ECond (EBin BAnd (EVar "count") (EInt 1)) (EInt 58) (EInt 44)]))
            SSkip)
          (SIf (EBin Gt (EVar "count") (EInt 0))
            (SExpr (ECall "emit_char" [EVar "jems"; EInt 44]))
            SSkip))
        (SSeq (SExpr (EAssignOp Add (EArrow (EVar "level") "item_count") (EInt 1)))
          (SReturn (Some (EVar "jems"))))))).

(** mulib/mu_jems.c:306-308 *)
Definition src_level_ref : fdef := MkF "level_ref" (Tptr (Tstruct "mu_jems_level_t"))
  [("jems", Tptr (Tstruct "mu_jems_t"))]
  [] []
  (SReturn (Some (EAddr (EIndex (EArrow (EVar "jems") "levels") (EArrow (EVar "jems") "curr_level"))))).

(** left out: mu_jems_number (double) *)

(** left out: mu_jems_key_number (double) *)

(** struct types (mulib/*.h, *.c) *)
Definition jems_prog_structs : list (string * list (list (string * ty))) :=
  [("mu_jems_level_t", [[("item_count", Tsize)]; [("is_object", Tbool)]]);
   ("mu_jems_t", [[("levels", Tptr (Tstruct "mu_jems_level_t"))]; [("max_level", Tsize)]; [("curr_level", Tsize)]; [("writer", Tptr Tfn)]; [("arg", Tsize)]])].
Definition jems_prog_consts : list (string * Z) :=
  [].
(** file scope variables: their types and the objects they are *)
Definition jems_prog_globals : list (string * (ty * nat)) :=
  [("str_0", (Tarr (Tint true W8) 4, 0%nat)); ("str_1", (Tarr (Tint true W8) 5, 1%nat)); ("str_2", (Tarr (Tint true W8) 6, 2%nat)); ("str_3", (Tarr (Tint true W8) 5, 3%nat)); ("str_4", (Tarr (Tint true W8) 7, 4%nat))].
Definition lit_str_0 : list Z := [37; 108; 100; 0].
Definition lit_str_1 : list Z := [116; 114; 117; 101; 0].
Definition lit_str_2 : list Z := [102; 97; 108; 115; 101; 0].
Definition lit_str_3 : list Z := [110; 117; 108; 108; 0].
Definition lit_str_4 : list Z := [92; 117; 37; 48; 52; 120; 0].
Definition jems_prog : cprog := MkProg jems_prog_structs jems_prog_consts jems_prog_globals
  [src_mu_jems_init; src_mu_jems_reset; src_mu_jems_object_open; src_mu_jems_object_close; src_mu_jems_array_open; src_mu_jems_array_close; src_mu_jems_integer; src_mu_jems_string; src_mu_jems_bytes; src_mu_jems_bool; src_mu_jems_true; src_mu_jems_false; src_mu_jems_null; src_mu_jems_literal; src_mu_jems_key_object_open; src_mu_jems_key_array_open; src_mu_jems_key_integer; src_mu_jems_key_string; src_mu_jems_key_bytes; src_mu_jems_key_bool; src_mu_jems_key_true; src_mu_jems_key_false; src_mu_jems_key_null; src_mu_jems_key_literal; src_mu_jems_curr_level; src_mu_jems_item_count; src_push_level; src_pop_level; src_emit_char; src_emit_quoted_byte; src_emit_string; src_emit_quoted_string; src_emit_quoted_bytes; src_commify; src_level_ref].
