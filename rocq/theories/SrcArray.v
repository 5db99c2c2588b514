(** * The text of mulib/mu_array.c, translated by tools/c2v.py: do not edit.
    Each definition names the lines it translates; the meaning of the syntax is in CLang.v. *)
From Verif Require Import CLang.
Open Scope string_scope.
Open Scope Z_scope.

(** mulib/mu_array.c:57-61 *)
Definition src_mu_array_init : fdef := MkF "mu_array_init" (Tptr (Tstruct "mu_array_t"))
  [("array", Tptr (Tstruct "mu_array_t")); ("storage", Tptr (Tptr Tvoid)); ("capacity", Tsize)]
  [] []
  (SSeq (SExpr (EAssign (EArrow (EVar "array") "storage") (EVar "storage")))
    (SSeq (SExpr (EAssign (EArrow (EVar "array") "capacity") (EVar "capacity")))
      (SReturn (Some (ECall "mu_array_reset" [EVar "array"]))))).

(** mulib/mu_array.c:63-66 *)
Definition src_mu_array_reset : fdef := MkF "mu_array_reset" (Tptr (Tstruct "mu_array_t"))
  [("array", Tptr (Tstruct "mu_array_t"))]
  [] []
  (SSeq (SExpr (EAssign (EArrow (EVar "array") "count") (EInt 0)))
    (SReturn (Some (EVar "array")))).

(** mulib/mu_array.c:68 *)
Definition src_mu_array_capacity : fdef := MkF "mu_array_capacity" Tsize
  [("array", Tptr (Tstruct "mu_array_t"))]
  [] []
  (SReturn (Some (EArrow (EVar "array") "capacity"))).

(** mulib/mu_array.c:70 *)
Definition src_mu_array_count : fdef := MkF "mu_array_count" Tsize
  [("array", Tptr (Tstruct "mu_array_t"))]
  [] []
  (SReturn (Some (EArrow (EVar "array") "count"))).

(** mulib/mu_array.c:72 *)
Definition src_mu_array_is_empty : fdef := MkF "mu_array_is_empty" Tbool
  [("array", Tptr (Tstruct "mu_array_t"))]
  [] []
  (SReturn (Some (EBin Eq (EArrow (EVar "array") "count") (EInt 0)))).

(** mulib/mu_array.c:74-76 *)
Definition src_mu_array_is_full : fdef := MkF "mu_array_is_full" Tbool
  [("array", Tptr (Tstruct "mu_array_t"))]
  [] []
  (SReturn (Some (EBin Eq (EArrow (EVar "array") "count") (EArrow (EVar "array") "capacity")))).

(** mulib/mu_array.c:78-85 *)
Definition src_mu_array_push : fdef := MkF "mu_array_push" Tbool
  [("array", Tptr (Tstruct "mu_array_t")); ("item", Tptr Tvoid)]
  [] []
  (SIf (ENot (ECall "mu_array_is_full" [EVar "array"]))
    (SSeq (SExpr (EAssign (EIndex (EArrow (EVar "array") "storage") (EPost Add (EArrow (EVar "array") "count"))) (EVar "item")))
      (SReturn (Some (EInt 1))))
    (SReturn (Some (EInt 0)))).

(** mulib/mu_array.c:87-94 *)
Definition src_mu_array_pop : fdef := MkF "mu_array_pop" Tbool
  [("array", Tptr (Tstruct "mu_array_t")); ("item", Tptr (Tptr Tvoid))]
  [] []
  (SIf (ENot (ECall "mu_array_is_empty" [EVar "array"]))
    (SSeq (SExpr (EAssign (EDeref (EVar "item")) (EIndex (EArrow (EVar "array") "storage") (EPre Sub (EArrow (EVar "array") "count")))))
      (SReturn (Some (EInt 1))))
    (SReturn (Some (EInt 0)))).

(** mulib/mu_array.c:96-103 *)
Definition src_mu_array_peek : fdef := MkF "mu_array_peek" Tbool
  [("array", Tptr (Tstruct "mu_array_t")); ("item", Tptr (Tptr Tvoid))]
  [] []
  (SIf (ENot (ECall "mu_array_is_empty" [EVar "array"]))
    (SSeq (SExpr (EAssign (EDeref (EVar "item")) (EIndex (EArrow (EVar "array") "storage") (EBin Sub (EArrow (EVar "array") "count") (EInt 1)))))
      (SReturn (Some (EInt 1))))
    (SReturn (Some (EInt 0)))).

(** mulib/mu_array.c:105-112 *)
Definition src_mu_array_ref : fdef := MkF "mu_array_ref" Tbool
  [("array", Tptr (Tstruct "mu_array_t")); ("item", Tptr (Tptr Tvoid)); ("index", Tsize)]
  [] []
  (SIf (EBin Lt (EVar "index") (EArrow (EVar "array") "count"))
    (SSeq (SExpr (EAssign (EDeref (EVar "item")) (EIndex (EArrow (EVar "array") "storage") (EVar "index"))))
      (SReturn (Some (EInt 1))))
    (SReturn (Some (EInt 0)))).

(** mulib/mu_array.c:114-132 *)
Definition src_mu_array_insert : fdef := MkF "mu_array_insert" Tbool
  [("array", Tptr (Tstruct "mu_array_t")); ("item", Tptr Tvoid); ("index", Tsize)]
  [("to_move", int); ("src", Tptr Tvoid); ("dst", Tptr Tvoid)] []
  (SIf (EOr (ECall "mu_array_is_full" [EVar "array"]) (EBin Gt (EVar "index") (EArrow (EVar "array") "count")))
    (SReturn (Some (EInt 0)))
    (SIf (EBin Eq (EVar "index") (EArrow (EVar "array") "count"))
      (SSeq (SExpr (EAssign (EIndex (EArrow (EVar "array") "storage") (EPost Add (EArrow (EVar "array") "count"))) (EVar "item")))
        (SReturn (Some (EInt 1))))
      (SSeq (SDecl "to_move" (Some (EBin Sub (EArrow (EVar "array") "count") (EVar "index"))))
        (SSeq (SDecl "src" (Some (EAddr (EIndex (EArrow (EVar "array") "storage") (EVar "index")))))
          (SSeq (SDecl "dst" (Some (EAddr (EIndex (EArrow (EVar "array") "storage") (EBin Add (EVar "index") (EInt 1))))))
            (SSeq (SExpr (EMemmove (Tptr Tvoid) (EVar "dst") (EVar "src") (EBin Mul (EVar "to_move") (ESizeof (Tptr Tvoid)))))
              (SSeq (SExpr (EAssign (EIndex (EArrow (EVar "array") "storage") (EVar "index")) (EVar "item")))
                (SSeq (SExpr (EAssignOp Add (EArrow (EVar "array") "count") (EInt 1)))
                  (SReturn (Some (EInt 1))))))))))).

(** mulib/mu_array.c:134-151 *)
Definition src_mu_array_delete : fdef := MkF "mu_array_delete" Tbool
  [("array", Tptr (Tstruct "mu_array_t")); ("item", Tptr (Tptr Tvoid)); ("index", Tsize)]
  [("to_move", int); ("src", Tptr Tvoid); ("dst", Tptr Tvoid)] []
  (SSeq (SIf (EOr (ECall "mu_array_is_empty" [EVar "array"]) (EBin Ge (EVar "index") (EArrow (EVar "array") "count")))
      (SReturn (Some (EInt 0)))
      SSkip)
    (SSeq (SIf (EBin Eq (EVar "index") (EBin Sub (EArrow (EVar "array") "count") (EInt 1)))
        (SExpr (EAssign (EDeref (EVar "item")) (EIndex (EArrow (EVar "array") "storage") (EPre Sub (EArrow (EVar "array") "count")))))
        (SSeq (SExpr (EAssign (EDeref (EVar "item")) (EIndex (EArrow (EVar "array") "storage") (EVar "index"))))
          (SSeq (SDecl "to_move" (Some (EBin Sub (EArrow (EVar "array") "count") (EVar "index"))))
            (SSeq (SDecl "src" (Some (EAddr (EIndex (EArrow (EVar "array") "storage") (EBin Add (EVar "index") (EInt 1))))))
              (SSeq (SDecl "dst" (Some (EAddr (EIndex (EArrow (EVar "array") "storage") (EVar "index")))))
                (SExpr (EMemmove (Tptr Tvoid) (EVar "dst") (EVar "src") (EBin Mul (EVar "to_move") (ESizeof (Tptr Tvoid))))))))))
      (SReturn (Some (EInt 1))))).

(** mulib/mu_array.c:153-160 *)
Definition src_mu_array_index : fdef := MkF "mu_array_index" Tsize
  [("array", Tptr (Tstruct "mu_array_t")); ("item", Tptr Tvoid)]
  [("index", Tsize)] []
  (SSeq (SDecl "index" (Some (EInt 0)))
    (SSeq (SLoop (EBin Lt (EVar "index") (EArrow (EVar "array") "count")) (SExpr (EPost Add (EVar "index")))
        (SIf (EBin Eq (EIndex (EArrow (EVar "array") "storage") (EVar "index")) (EVar "item"))
          (SReturn (Some (EVar "index")))
          SSkip))
      (SReturn (Some (ECast Tsize (ENeg (EInt 1))))))).

(** mulib/mu_array.c:162-169 *)
Definition src_mu_array_rindex : fdef := MkF "mu_array_rindex" Tsize
  [("array", Tptr (Tstruct "mu_array_t")); ("item", Tptr Tvoid)]
  [("index", Tsize)] []
  (SSeq (SDecl "index" (Some (EBin Sub (EArrow (EVar "array") "count") (EInt 1))))
    (SSeq (SLoop (EBin Ne (EVar "index") (ECast Tsize (ENeg (EInt 1)))) (SExpr (EPost Sub (EVar "index")))
        (SIf (EBin Eq (EIndex (EArrow (EVar "array") "storage") (EVar "index")) (EVar "item"))
          (SReturn (Some (EVar "index")))
          SSkip))
      (SReturn (Some (ECast Tsize (ENeg (EInt 1))))))).

(** mulib/mu_array.c:171-187 *)
Definition src_mu_array_sort : fdef := MkF "mu_array_sort" (Tptr (Tstruct "mu_array_t"))
  [("array", Tptr (Tstruct "mu_array_t")); ("cmp", Tptr Tfn)]
  [("items", Tptr Tvoid); ("count", Tsize); ("end", Tsize)] []
  (SSeq (SDecl "items" (Some (EArrow (EVar "array") "storage")))
    (SSeq (SDecl "count" (Some (EArrow (EVar "array") "count")))
      (SSeq (SIf (EBin Gt (EVar "count") (EInt 0))
          (SSeq (SDecl "end" (Some (EBin Sub (EVar "count") (EInt 1))))
            (SSeq (SExpr (ECall "heapify" [EVar "items"; EVar "count"; EVar "cmp"]))
              (SLoop (EBin Gt (EVar "end") (EInt 0)) SSkip
                (SSeq (SExpr (ECall "swap" [EVar "items"; EVar "end"; EInt 0]))
                  (SSeq (SExpr (EAssignOp Sub (EVar "end") (EInt 1)))
                    (SExpr (ECall "sift_down" [EVar "items"; EVar "cmp"; EInt 0; EVar "end"])))))))
          SSkip)
        (SReturn (Some (EVar "array")))))).

(** mulib/mu_array.c:189-197 *)
Definition src_mu_array_insert_sorted : fdef := MkF "mu_array_insert_sorted" Tbool
  [("array", Tptr (Tstruct "mu_array_t")); ("item", Tptr Tvoid); ("cmp", Tptr Tfn)]
  [("index", int)] []
  (SIf (EBin Eq (ECall "mu_array_count" [EVar "array"]) (EInt 0))
    (SReturn (Some (ECall "mu_array_push" [EVar "array"; EVar "item"])))
    (SSeq (SDecl "index" (Some (ECall "find_insertion_index" [EVar "array"; EVar "item"; EVar "cmp"])))
      (SReturn (Some (ECall "mu_array_insert" [EVar "array"; EVar "item"; EVar "index"]))))).

(** mulib/mu_array.c:204-217 *)
Definition src_find_insertion_index : fdef := MkF "find_insertion_index" Tsize
  [("array", Tptr (Tstruct "mu_array_t")); ("item", Tptr Tvoid); ("cmp", Tptr Tfn)]
  [("low", int); ("high", int); ("mid", int)] []
  (SSeq (SDecl "low" (Some (EInt 0)))
    (SSeq (SDecl "high" (Some (EBin Sub (EArrow (EVar "array") "count") (EInt 1))))
      (SSeq (SLoop (EBin Le (EVar "low") (EVar "high")) SSkip
          (SSeq (SDecl "mid" (Some (EBin Div (EBin Add (EVar "low") (EVar "high")) (EInt 2))))
            (SIf (EBin Gt (ECall "cmp" [EIndex (EArrow (EVar "array") "storage") (EVar "mid"); EVar "item"]) (EInt 0))
              (SExpr (EAssign (EVar "high") (EBin Sub (EVar "mid") (EInt 1))))
              (SExpr (EAssign (EVar "low") (EBin Add (EVar "mid") (EInt 1)))))))
        (SReturn (Some (EVar "low")))))).

(** mulib/mu_array.c:219-226 *)
Definition src_heapify : fdef := MkF "heapify" Tvoid
  [("items", Tptr (Tptr Tvoid)); ("count", Tsize); ("cmp", Tptr Tfn)]
  [("start", int)] []
  (SSeq (SDecl "start" (Some (EBin Div (EBin Sub (EVar "count") (EInt 2)) (EInt 2))))
    (SLoop (EBin Ge (EVar "start") (EInt 0)) SSkip
      (SSeq (SExpr (ECall "sift_down" [EVar "items"; EVar "cmp"; EVar "start"; EBin Sub (EVar "count") (EInt 1)]))
        (SExpr (EAssignOp Sub (EVar "start") (EInt 1)))))).

(** mulib/mu_array.c:228-246 *)
Definition src_sift_down : fdef := MkF "sift_down" Tvoid
  [("items", Tptr (Tptr Tvoid)); ("cmp", Tptr Tfn); ("start", int); ("end", int)]
  [("root", int); ("child", int)] []
  (SSeq (SDecl "root" (Some (EVar "start")))
    (SLoop (EBin Le (EBin Add (EBin Mul (EVar "root") (EInt 2)) (EInt 1)) (EVar "end")) SSkip
      (SSeq (SDecl "child" (Some (EBin Add (EBin Mul (EVar "root") (EInt 2)) (EInt 1))))
        (SSeq (SIf (EAnd (EBin Le (EBin Add (EVar "child") (EInt 1)) (EVar "end")) (EBin Lt (ECall "cmp" [EIndex (EVar "items") (EVar "child"); EIndex (EVar "items") (EBin Add (EVar "child") (EInt 1))]) (EInt 0)))
            (SExpr (EAssignOp Add (EVar "child") (EInt 1)))
            SSkip)
          (SIf (EBin Lt (ECall "cmp" [EIndex (EVar "items") (EVar "root"); EIndex (EVar "items") (EVar "child")]) (EInt 0))
            (SSeq (SExpr (ECall "swap" [EVar "items"; EVar "root"; EVar "child"]))
              (SExpr (EAssign (EVar "root") (EVar "child"))))
            (SReturn None)))))).

(** mulib/mu_array.c:248-252 *)
Definition src_swap : fdef := MkF "swap" Tvoid
  [("items", Tptr (Tptr Tvoid)); ("a", int); ("b", int)]
  [("temp", Tptr Tvoid)] []
  (SSeq (SDecl "temp" (Some (EIndex (EVar "items") (EVar "a"))))
    (SSeq (SExpr (EAssign (EIndex (EVar "items") (EVar "a")) (EIndex (EVar "items") (EVar "b"))))
      (SExpr (EAssign (EIndex (EVar "items") (EVar "b")) (EVar "temp"))))).

(** struct types (mulib/*.h, *.c) *)
Definition array_prog_structs : list (string * list (list (string * ty))) :=
  [("mu_array_t", [[("storage", Tptr (Tptr Tvoid))]; [("capacity", Tsize)]; [("count", Tsize)]])].
Definition array_prog_consts : list (string * Z) :=
  [].
(** file scope variables: their types and the objects they are *)
Definition array_prog_globals : list (string * (ty * nat)) :=
  [].
Definition array_prog : cprog := MkProg array_prog_structs array_prog_consts array_prog_globals
  [src_mu_array_init; src_mu_array_reset; src_mu_array_capacity; src_mu_array_count; src_mu_array_is_empty; src_mu_array_is_full; src_mu_array_push; src_mu_array_pop; src_mu_array_peek; src_mu_array_ref; src_mu_array_insert; src_mu_array_delete; src_mu_array_index; src_mu_array_rindex; src_mu_array_sort; src_mu_array_insert_sorted; src_find_insertion_index; src_heapify; src_sift_down; src_swap].
