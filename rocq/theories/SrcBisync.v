(** * The text of mulib/mu_bisync.c, translated by tools/c2v.py: do not edit.
    Each definition names the lines it translates; the meaning of the syntax is in CLang.v. *)
From Verif Require Import CLang.
Open Scope string_scope.
Open Scope Z_scope.

(** mulib/mu_bisync.c:70-94 *)
Definition src_mu_bisync_encode : fdef := MkF "mu_bisync_encode" int
  [("encoded", Tptr (Tint false W8)); ("encoded_capacity", Tsize); ("src", Tptr (Tint false W8)); ("src_len", Tsize)]
  [("i", int); ("b", Tint false W8)] [("writer", Tstruct "buffer_t")]
  (SSeq (SExpr (EAssign (EField (EVar "writer") "wbuf") (EVar "encoded")))
    (SSeq (SExpr (EAssign (EField (EVar "writer") "capacity") (EVar "encoded_capacity")))
      (SSeq (SExpr (EAssign (EField (EVar "writer") "index") (EInt 0)))
        (SSeq (SIf (ENot (ECall "buffer_put" [EAddr (EVar "writer"); EInt 1]))
            (SReturn (Some (EVar "MU_BISYNC_ERR_OFLOW")))
            SSkip)
          (SSeq (SDecl "i" (Some (EInt 0)))
            (SSeq (SLoop (EBin Lt (EVar "i") (EVar "src_len")) (SExpr (EPost Add (EVar "i")))
                (SSeq (SDecl "b" (Some (EIndex (EVar "src") (EVar "i"))))
                  (SSeq (SIf (EOr (EOr (EBin Eq (EVar "b") (EInt 4)) (EBin Eq (EVar "b") (EInt 1))) (EBin Eq (EVar "b") (EInt 16)))
                      (SIf (ENot (ECall "buffer_put" [EAddr (EVar "writer"); EInt 16]))
                        (SReturn (Some (EVar "MU_BISYNC_ERR_OFLOW")))
                        SSkip)
                      SSkip)
                    (SIf (ENot (ECall "buffer_put" [EAddr (EVar "writer"); EVar "b"]))
                      (SReturn (Some (EVar "MU_BISYNC_ERR_OFLOW")))
                      SSkip))))
              (SSeq (SIf (ENot (ECall "buffer_put" [EAddr (EVar "writer"); EInt 4]))
                  (SReturn (Some (EVar "MU_BISYNC_ERR_OFLOW")))
                  SSkip)
                (SReturn (Some (EField (EVar "writer") "index")))))))))).

(** mulib/mu_bisync.c:96-129 *)
Definition src_mu_bisync_decode : fdef := MkF "mu_bisync_decode" int
  [("dst", Tptr (Tint false W8)); ("dst_capacity", Tsize); ("encoded", Tptr (Tint false W8)); ("encoded_len", Tsize)]
  [("b", Tint false W8); ("escaping", Tbool); ("i", int)] [("writer", Tstruct "buffer_t")]
  (SSeq (SExpr (EAssign (EField (EVar "writer") "wbuf") (EVar "dst")))
    (SSeq (SExpr (EAssign (EField (EVar "writer") "capacity") (EVar "dst_capacity")))
      (SSeq (SExpr (EAssign (EField (EVar "writer") "index") (EInt 0)))
        (SSeq (SDecl "b" None)
          (SSeq (SDecl "escaping" (Some (EInt 0)))
            (SSeq (SIf (EOr (EBin Lt (EVar "encoded_len") (EInt 1)) (EBin Ne (EIndex (EVar "encoded") (EInt 0)) (EInt 1)))
                (SReturn (Some (EVar "MU_BISYNC_ERR_FORMAT")))
                SSkip)
              (SSeq (SDecl "i" (Some (EInt 0)))
                (SSeq (SLoop (EBin Lt (EVar "i") (EVar "encoded_len")) (SExpr (EPost Add (EVar "i")))
                    (SSeq (SExpr (EAssign (EVar "b") (EIndex (EVar "encoded") (EVar "i"))))
                      (SIf (EVar "escaping")
                        (SSeq (SIf (ENot (ECall "buffer_put" [EAddr (EVar "writer"); EVar "b"]))
                          (SReturn (Some (EVar "MU_BISYNC_ERR_OFLOW")))
                          SSkip)
                          (SExpr (EAssign (EVar "escaping") (EInt 0))))
                        (SIf (EBin Eq (EVar "b") (EInt 16))
                          (SExpr (EAssign (EVar "escaping") (EInt 1)))
                          (SIf (EBin Eq (EVar "b") (EInt 4))
                          SBreak
                          (SIf (ENot (ECall "buffer_put" [EAddr (EVar "writer"); EVar "b"]))
                          (SReturn (Some (EVar "MU_BISYNC_ERR_OFLOW")))
                          SSkip))))))
                  (SSeq (SIf (EBin Ne (EVar "b") (EInt 4))
                      (SReturn (Some (EVar "MU_BISYNC_ERR_FORMAT")))
                      SSkip)
                    (SReturn (Some (EField (EVar "writer") "index")))))))))))).

(** mulib/mu_bisync.c:134-141 *)
Definition src_buffer_put : fdef := MkF "buffer_put" Tbool
  [("writer", Tptr (Tstruct "buffer_t")); ("byte", Tint false W8)]
  [] []
  (SIf (EBin Ge (EArrow (EVar "writer") "index") (EArrow (EVar "writer") "capacity"))
    (SReturn (Some (EInt 0)))
    (SSeq (SExpr (EAssign (EIndex (EArrow (EVar "writer") "wbuf") (EPost Add (EArrow (EVar "writer") "index"))) (EVar "byte")))
      (SReturn (Some (EInt 1))))).

(** struct types (mulib/*.h, *.c) *)
Definition bisync_prog_structs : list (string * list (list (string * ty))) :=
  [("buffer_t", [[("wbuf", Tptr (Tint false W8)); ("rbuf", Tptr (Tint false W8))]; [("capacity", int)]; [("index", int)]])].
Definition bisync_prog_consts : list (string * Z) :=
  [("MU_BISYNC_ERR_OFLOW", (-1)); ("MU_BISYNC_ERR_FORMAT", (-2))].
(** file scope variables: their types and the objects they are *)
Definition bisync_prog_globals : list (string * (ty * nat)) :=
  [].
Definition bisync_prog : cprog := MkProg bisync_prog_structs bisync_prog_consts bisync_prog_globals
  [src_mu_bisync_encode; src_mu_bisync_decode; src_buffer_put].
