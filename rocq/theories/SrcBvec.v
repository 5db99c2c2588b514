(** * The text of mulib/mu_bvec.c, mulib/mu_bbuf.c, translated by tools/c2v.py: do not edit.
    Each definition names the lines it translates; the meaning of the syntax is in CLang.v. *)
From Verif Require Import CLang.
Open Scope string_scope.
Open Scope Z_scope.

(** mulib/mu_bvec.c:47-50 *)
Definition src_mu_bvec_init : fdef := MkF "mu_bvec_init" (Tptr (Tstruct "mu_bvec_t"))
  [("bvec", Tptr (Tstruct "mu_bvec_t")); ("bbuf", Tptr (Tstruct "mu_bbuf_t"))]
  [] []
  (SSeq (SExpr (ECall "mu_bbuf_copy" [EAddr (EArrow (EVar "bvec") "bbuf"); EVar "bbuf"]))
    (SReturn (Some (ECall "mu_bvec_reset" [EVar "bvec"])))).

(** mulib/mu_bvec.c:52-55 *)
Definition src_mu_bvec_init_ro : fdef := MkF "mu_bvec_init_ro" (Tptr (Tstruct "mu_bvec_t"))
  [("bvec", Tptr (Tstruct "mu_bvec_t")); ("bytes", Tptr (Tint false W8)); ("capacity", Tsize)]
  [] []
  (SSeq (SExpr (ECall "mu_bbuf_init_ro" [EAddr (EArrow (EVar "bvec") "bbuf"); EVar "bytes"; EVar "capacity"]))
    (SReturn (Some (ECall "mu_bvec_reset" [EVar "bvec"])))).

(** mulib/mu_bvec.c:57-60 *)
Definition src_mu_bvec_init_rw : fdef := MkF "mu_bvec_init_rw" (Tptr (Tstruct "mu_bvec_t"))
  [("bvec", Tptr (Tstruct "mu_bvec_t")); ("bytes", Tptr (Tint false W8)); ("capacity", Tsize)]
  [] []
  (SSeq (SExpr (ECall "mu_bbuf_init_rw" [EAddr (EArrow (EVar "bvec") "bbuf"); EVar "bytes"; EVar "capacity"]))
    (SReturn (Some (ECall "mu_bvec_reset" [EVar "bvec"])))).

(** mulib/mu_bvec.c:62-65 *)
Definition src_mu_bvec_reset : fdef := MkF "mu_bvec_reset" (Tptr (Tstruct "mu_bvec_t"))
  [("bvec", Tptr (Tstruct "mu_bvec_t"))]
  [] []
  (SSeq (SExpr (EAssign (EArrow (EVar "bvec") "count") (EInt 0)))
    (SReturn (Some (EVar "bvec")))).

(** mulib/mu_bvec.c:67-69 *)
Definition src_mu_bvec_get_bbuf : fdef := MkF "mu_bvec_get_bbuf" (Tptr (Tstruct "mu_bbuf_t"))
  [("bvec", Tptr (Tstruct "mu_bvec_t"))]
  [] []
  (SReturn (Some (EAddr (EArrow (EVar "bvec") "bbuf")))).

(** mulib/mu_bvec.c:71-73 *)
Definition src_mu_bvec_get_capacity : fdef := MkF "mu_bvec_get_capacity" Tsize
  [("bvec", Tptr (Tstruct "mu_bvec_t"))]
  [] []
  (SReturn (Some (ECall "mu_bbuf_capacity" [EAddr (EArrow (EVar "bvec") "bbuf")]))).

(** mulib/mu_bvec.c:75-77 *)
Definition src_mu_bvec_get_count : fdef := MkF "mu_bvec_get_count" Tsize
  [("bvec", Tptr (Tstruct "mu_bvec_t"))]
  [] []
  (SReturn (Some (EArrow (EVar "bvec") "count"))).

(** mulib/mu_bvec.c:79-81 *)
Definition src_mu_bvec_set_count : fdef := MkF "mu_bvec_set_count" Tvoid
  [("bvec", Tptr (Tstruct "mu_bvec_t")); ("count", Tsize)]
  [] []
  (SExpr (EAssign (EArrow (EVar "bvec") "count") (EVar "count"))).

(** mulib/mu_bvec.c:83-90 *)
Definition src_mu_bvec_get_available : fdef := MkF "mu_bvec_get_available" Tsize
  [("bvec", Tptr (Tstruct "mu_bvec_t"))]
  [("capacity", Tsize)] []
  (SSeq (SDecl "capacity" (Some (ECall "mu_bbuf_capacity" [EAddr (EArrow (EVar "bvec") "bbuf")])))
    (SIf (EBin Gt (EArrow (EVar "bvec") "count") (EVar "capacity"))
      (SReturn (Some (EInt 0)))
      (SReturn (Some (EBin Sub (EVar "capacity") (EArrow (EVar "bvec") "count")))))).

(** mulib/mu_bvec.c:92-94 *)
Definition src_mu_bvec_ref_ro : fdef := MkF "mu_bvec_ref_ro" (Tptr (Tint false W8))
  [("bvec", Tptr (Tstruct "mu_bvec_t")); ("index", Tsize)]
  [] []
  (SReturn (Some (ECall "mu_bbuf_ref_ro" [EAddr (EArrow (EVar "bvec") "bbuf"); EVar "index"]))).

(** mulib/mu_bvec.c:96-98 *)
Definition src_mu_bvec_ref_rw : fdef := MkF "mu_bvec_ref_rw" (Tptr (Tint false W8))
  [("bvec", Tptr (Tstruct "mu_bvec_t")); ("index", Tsize)]
  [] []
  (SReturn (Some (ECall "mu_bbuf_ref_rw" [EAddr (EArrow (EVar "bvec") "bbuf"); EVar "index"]))).

(** mulib/mu_bvec.c:100-108 *)
Definition src_mu_bvec_read_byte : fdef := MkF "mu_bvec_read_byte" Tbool
  [("bvec", Tptr (Tstruct "mu_bvec_t")); ("byte", Tptr (Tint false W8))]
  [("p", Tptr (Tint false W8))] []
  (SSeq (SDecl "p" (Some (ECall "mu_bvec_ref_ro" [EVar "bvec"; EPost Add (EArrow (EVar "bvec") "count")])))
    (SIf (EBin Eq (EVar "p") (EInt 0))
      (SReturn (Some (EInt 0)))
      (SSeq (SExpr (EAssign (EDeref (EVar "byte")) (EDeref (EVar "p"))))
        (SReturn (Some (EInt 1)))))).

(** mulib/mu_bvec.c:110-118 *)
Definition src_mu_bvec_write_byte : fdef := MkF "mu_bvec_write_byte" Tbool
  [("bvec", Tptr (Tstruct "mu_bvec_t")); ("byte", Tint false W8)]
  [("p", Tptr (Tint false W8))] []
  (SSeq (SDecl "p" (Some (ECall "mu_bvec_ref_rw" [EVar "bvec"; EPost Add (EArrow (EVar "bvec") "count")])))
    (SIf (EBin Eq (EVar "p") (EInt 0))
      (SReturn (Some (EInt 0)))
      (SSeq (SExpr (EAssign (EDeref (EVar "p")) (EVar "byte")))
        (SReturn (Some (EInt 1)))))).

(** mulib/mu_bbuf.c:61-65 *)
Definition src_mu_bbuf_init_ro : fdef := MkF "mu_bbuf_init_ro" (Tptr (Tstruct "mu_bbuf_t"))
  [("bbuf", Tptr (Tstruct "mu_bbuf_t")); ("bytes", Tptr (Tint false W8)); ("capacity", Tsize)]
  [] []
  (SSeq (SExpr (EAssign (EArrow (EVar "bbuf") "bytes_ro") (EVar "bytes")))
    (SSeq (SExpr (EAssign (EArrow (EVar "bbuf") "capacity") (EVar "capacity")))
      (SReturn (Some (EVar "bbuf"))))).

(** mulib/mu_bbuf.c:67-71 *)
Definition src_mu_bbuf_init_rw : fdef := MkF "mu_bbuf_init_rw" (Tptr (Tstruct "mu_bbuf_t"))
  [("bbuf", Tptr (Tstruct "mu_bbuf_t")); ("bytes", Tptr (Tint false W8)); ("capacity", Tsize)]
  [] []
  (SSeq (SExpr (EAssign (EArrow (EVar "bbuf") "bytes_rw") (EVar "bytes")))
    (SSeq (SExpr (EAssign (EArrow (EVar "bbuf") "capacity") (EVar "capacity")))
      (SReturn (Some (EVar "bbuf"))))).

(** mulib/mu_bbuf.c:74-78 *)
Definition src_mu_bbuf_init_cstr : fdef := MkF "mu_bbuf_init_cstr" (Tptr (Tstruct "mu_bbuf_t"))
  [("bbuf", Tptr (Tstruct "mu_bbuf_t")); ("cstr", Tptr (Tint true W8))]
  [] []
  (SSeq (SExpr (EAssign (EArrow (EVar "bbuf") "bytes_ro") (ECast (Tptr (Tint false W8)) (EVar "cstr"))))
    (SSeq (SExpr (EAssign (EArrow (EVar "bbuf") "capacity") (ECall "strlen" [EVar "cstr"])))
      (SReturn (Some (EVar "bbuf"))))).

(** mulib/mu_bbuf.c:80-84 *)
Definition src_mu_bbuf_copy : fdef := MkF "mu_bbuf_copy" (Tptr (Tstruct "mu_bbuf_t"))
  [("dst", Tptr (Tstruct "mu_bbuf_t")); ("src", Tptr (Tstruct "mu_bbuf_t"))]
  [] []
  (SSeq (SExpr (EAssign (EArrow (EVar "dst") "bytes_ro") (EArrow (EVar "src") "bytes_ro")))
    (SSeq (SExpr (EAssign (EArrow (EVar "dst") "capacity") (EArrow (EVar "src") "capacity")))
      (SReturn (Some (EVar "dst"))))).

(** mulib/mu_bbuf.c:86-88 *)
Definition src_mu_bbuf_bytes_ro : fdef := MkF "mu_bbuf_bytes_ro" (Tptr (Tint false W8))
  [("bbuf", Tptr (Tstruct "mu_bbuf_t"))]
  [] []
  (SReturn (Some (EArrow (EVar "bbuf") "bytes_ro"))).

(** mulib/mu_bbuf.c:90-92 *)
Definition src_mu_bbuf_bytes_rw : fdef := MkF "mu_bbuf_bytes_rw" (Tptr (Tint false W8))
  [("bbuf", Tptr (Tstruct "mu_bbuf_t"))]
  [] []
  (SReturn (Some (EArrow (EVar "bbuf") "bytes_rw"))).

(** mulib/mu_bbuf.c:94 *)
Definition src_mu_bbuf_capacity : fdef := MkF "mu_bbuf_capacity" Tsize
  [("bbuf", Tptr (Tstruct "mu_bbuf_t"))]
  [] []
  (SReturn (Some (EArrow (EVar "bbuf") "capacity"))).

(** mulib/mu_bbuf.c:96-102 *)
Definition src_mu_bbuf_ref_ro : fdef := MkF "mu_bbuf_ref_ro" (Tptr (Tint false W8))
  [("bbuf", Tptr (Tstruct "mu_bbuf_t")); ("index", Tsize)]
  [] []
  (SIf (EBin Lt (EVar "index") (EArrow (EVar "bbuf") "capacity"))
    (SReturn (Some (EAddr (EIndex (EArrow (EVar "bbuf") "bytes_ro") (EVar "index")))))
    (SReturn (Some (EInt 0)))).

(** mulib/mu_bbuf.c:104-110 *)
Definition src_mu_bbuf_ref_rw : fdef := MkF "mu_bbuf_ref_rw" (Tptr (Tint false W8))
  [("bbuf", Tptr (Tstruct "mu_bbuf_t")); ("index", Tsize)]
  [] []
  (SIf (EBin Lt (EVar "index") (EArrow (EVar "bbuf") "capacity"))
    (SReturn (Some (EAddr (EIndex (EArrow (EVar "bbuf") "bytes_rw") (EVar "index")))))
    (SReturn (Some (EInt 0)))).

(** mulib/mu_bbuf.c:112-114 *)
Definition src_mu_bbuf_compare : fdef := MkF "mu_bbuf_compare" int
  [("b1", Tptr (Tstruct "mu_bbuf_t")); ("b2", Tptr (Tstruct "mu_bbuf_t"))]
  [] []
  (SReturn (Some (ECall "str_compare_aux" [EVar "b1"; ECall "mu_bbuf_bytes_ro" [EVar "b2"]; ECall "mu_bbuf_capacity" [EVar "b2"]]))).

(** mulib/mu_bbuf.c:116-118 *)
Definition src_mu_bbuf_compare_cstr : fdef := MkF "mu_bbuf_compare_cstr" int
  [("b1", Tptr (Tstruct "mu_bbuf_t")); ("cstr", Tptr (Tint true W8))]
  [] []
  (SReturn (Some (ECall "str_compare_aux" [EVar "b1"; ECast (Tptr (Tint false W8)) (EVar "cstr"); ECall "strlen" [EVar "cstr"]]))).

(** mulib/mu_bbuf.c:120-143 *)
Definition src_mu_bbuf_slice : fdef := MkF "mu_bbuf_slice" (Tptr (Tstruct "mu_bbuf_t"))
  [("dst", Tptr (Tstruct "mu_bbuf_t")); ("src", Tptr (Tstruct "mu_bbuf_t")); ("start", int); ("end", int)]
  [] []
  (SSeq (SIf (EBin Lt (EVar "start") (EInt 0))
      (SExpr (EAssign (EVar "start") (EBin Add (EArrow (EVar "src") "capacity") (EVar "start"))))
      (SIf (EOr (EBin Gt (EVar "start") (EArrow (EVar "src") "capacity")) (EBin Eq (EVar "start") (EInt 2147483647)))
        (SExpr (EAssign (EVar "start") (EArrow (EVar "src") "capacity")))
        SSkip))
    (SSeq (SIf (EBin Lt (EVar "end") (EInt 0))
        (SExpr (EAssign (EVar "end") (EBin Add (EArrow (EVar "src") "capacity") (EVar "end"))))
        (SIf (EOr (EBin Ge (EVar "end") (EArrow (EVar "src") "capacity")) (EBin Eq (EVar "end") (EInt 2147483647)))
          (SExpr (EAssign (EVar "end") (EArrow (EVar "src") "capacity")))
          SSkip))
      (SSeq (SIf (EBin Lt (EVar "end") (EVar "start"))
          (SExpr (EAssign (EVar "end") (EVar "start")))
          SSkip)
        (SReturn (Some (ECall "mu_bbuf_init_ro" [EVar "dst"; EAddr (EIndex (EArrow (EVar "src") "bytes_ro") (EVar "start")); EBin Sub (EVar "end") (EVar "start")])))))).

(** mulib/mu_bbuf.c:145-164 *)
Definition src_mu_bbuf_bisect : fdef := MkF "mu_bbuf_bisect" (Tptr (Tstruct "mu_bbuf_t"))
  [("left", Tptr (Tstruct "mu_bbuf_t")); ("right", Tptr (Tstruct "mu_bbuf_t")); ("src", Tptr (Tstruct "mu_bbuf_t")); ("index", int)]
  [("src_capacity", int)] []
  (SSeq (SDecl "src_capacity" (Some (ECall "mu_bbuf_capacity" [EVar "src"])))
    (SSeq (SIf (EBin Lt (EVar "index") (EInt 0))
        (SExpr (EAssign (EVar "index") (EBin Add (EVar "src_capacity") (EVar "index"))))
        (SIf (EOr (EBin Gt (EVar "index") (EVar "src_capacity")) (EBin Eq (EVar "index") (EInt 2147483647)))
          (SExpr (EAssign (EVar "index") (EVar "src_capacity")))
          SSkip))
      (SSeq (SIf (EBin Ne (EVar "left") (EInt 0))
          (SExpr (ECall "mu_bbuf_init_ro" [EVar "left"; ECall "mu_bbuf_bytes_ro" [EVar "src"]; EVar "index"]))
          SSkip)
        (SSeq (SIf (EBin Ne (EVar "right") (EInt 0))
            (SExpr (ECall "mu_bbuf_init_ro" [EVar "right"; EAddr (EIndex (ECall "mu_bbuf_bytes_ro" [EVar "src"]) (EVar "index")); EBin Sub (EVar "src_capacity") (EVar "index")]))
            SSkip)
          (SReturn (Some (EVar "src"))))))).

(** mulib/mu_bbuf.c:166-168 *)
Definition src_mu_bbuf_matches : fdef := MkF "mu_bbuf_matches" Tbool
  [("b1", Tptr (Tstruct "mu_bbuf_t")); ("b2", Tptr (Tstruct "mu_bbuf_t"))]
  [] []
  (SReturn (Some (EBin Eq (ECall "str_compare_aux" [EVar "b1"; ECall "mu_bbuf_bytes_ro" [EVar "b2"]; ECall "mu_bbuf_capacity" [EVar "b2"]]) (EInt 0)))).

(** mulib/mu_bbuf.c:170-172 *)
Definition src_mu_bbuf_matches_cstr : fdef := MkF "mu_bbuf_matches_cstr" Tbool
  [("b1", Tptr (Tstruct "mu_bbuf_t")); ("cstr", Tptr (Tint true W8))]
  [] []
  (SReturn (Some (EBin Eq (ECall "str_compare_aux" [EVar "b1"; ECast (Tptr (Tint false W8)) (EVar "cstr"); ECall "strlen" [EVar "cstr"]]) (EInt 0)))).

(** mulib/mu_bbuf.c:174-176 *)
Definition src_mu_bbuf_has_prefix : fdef := MkF "mu_bbuf_has_prefix" Tbool
  [("b1", Tptr (Tstruct "mu_bbuf_t")); ("b2", Tptr (Tstruct "mu_bbuf_t"))]
  [] []
  (SReturn (Some (ECall "has_prefix" [EVar "b1"; ECall "mu_bbuf_bytes_ro" [EVar "b2"]; ECall "mu_bbuf_capacity" [EVar "b2"]]))).

(** mulib/mu_bbuf.c:178-180 *)
Definition src_mu_bbuf_has_prefix_cstr : fdef := MkF "mu_bbuf_has_prefix_cstr" Tbool
  [("b1", Tptr (Tstruct "mu_bbuf_t")); ("cstr", Tptr (Tint true W8))]
  [] []
  (SReturn (Some (ECall "has_prefix" [EVar "b1"; ECast (Tptr (Tint false W8)) (EVar "cstr"); ECall "strlen" [EVar "cstr"]]))).

(** mulib/mu_bbuf.c:182-184 *)
Definition src_mu_bbuf_has_suffix : fdef := MkF "mu_bbuf_has_suffix" Tbool
  [("b1", Tptr (Tstruct "mu_bbuf_t")); ("b2", Tptr (Tstruct "mu_bbuf_t"))]
  [] []
  (SReturn (Some (ECall "has_suffix" [EVar "b1"; ECall "mu_bbuf_bytes_ro" [EVar "b2"]; ECall "mu_bbuf_capacity" [EVar "b2"]]))).

(** mulib/mu_bbuf.c:186-188 *)
Definition src_mu_bbuf_has_suffix_cstr : fdef := MkF "mu_bbuf_has_suffix_cstr" Tbool
  [("b1", Tptr (Tstruct "mu_bbuf_t")); ("cstr", Tptr (Tint true W8))]
  [] []
  (SReturn (Some (ECall "has_suffix" [EVar "b1"; ECast (Tptr (Tint false W8)) (EVar "cstr"); ECall "strlen" [EVar "cstr"]]))).

(** mulib/mu_bbuf.c:190-193 *)
Definition src_mu_bbuf_find_substr : fdef := MkF "mu_bbuf_find_substr" int
  [("bbuf", Tptr (Tstruct "mu_bbuf_t")); ("substr", Tptr (Tstruct "mu_bbuf_t")); ("skip_substr", Tbool)]
  [] []
  (SReturn (Some (ECall "mu_bbuf_find_aux" [EVar "bbuf"; ECall "mu_bbuf_bytes_ro" [EVar "substr"]; ECall "mu_bbuf_capacity" [EVar "substr"]; EVar "skip_substr"]))).

(** mulib/mu_bbuf.c:195-199 *)
Definition src_mu_bbuf_find_subcstr : fdef := MkF "mu_bbuf_find_subcstr" int
  [("bbuf", Tptr (Tstruct "mu_bbuf_t")); ("cstr", Tptr (Tint true W8)); ("skip_substr", Tbool)]
  [] []
  (SReturn (Some (ECall "mu_bbuf_find_aux" [EVar "bbuf"; ECast (Tptr (Tint false W8)) (EVar "cstr"); ECall "strlen" [EVar "cstr"]; EVar "skip_substr"]))).

(** mulib/mu_bbuf.c:201-204 *)
Definition src_mu_bbuf_rfind_substr : fdef := MkF "mu_bbuf_rfind_substr" int
  [("bbuf", Tptr (Tstruct "mu_bbuf_t")); ("substr", Tptr (Tstruct "mu_bbuf_t")); ("skip_substr", Tbool)]
  [] []
  (SReturn (Some (ECall "mu_bbuf_rfind_aux" [EVar "bbuf"; ECall "mu_bbuf_bytes_ro" [EVar "substr"]; ECall "mu_bbuf_capacity" [EVar "substr"]; EVar "skip_substr"]))).

(** mulib/mu_bbuf.c:206-210 *)
Definition src_mu_bbuf_rfind_subcstr : fdef := MkF "mu_bbuf_rfind_subcstr" int
  [("bbuf", Tptr (Tstruct "mu_bbuf_t")); ("cstr", Tptr (Tint true W8)); ("skip_substr", Tbool)]
  [] []
  (SReturn (Some (ECall "mu_bbuf_rfind_aux" [EVar "bbuf"; ECast (Tptr (Tint false W8)) (EVar "cstr"); ECall "strlen" [EVar "cstr"]; EVar "skip_substr"]))).

(** mulib/mu_bbuf.c:212-219 *)
Definition src_mu_bbuf_find_byte : fdef := MkF "mu_bbuf_find_byte" int
  [("bbuf", Tptr (Tstruct "mu_bbuf_t")); ("byte", Tint false W8)]
  [("i", int)] []
  (SSeq (SDecl "i" (Some (EInt 0)))
    (SSeq (SLoop (EBin Lt (EVar "i") (EArrow (EVar "bbuf") "capacity")) (SExpr (EPost Add (EVar "i")))
        (SIf (EBin Eq (EIndex (EArrow (EVar "bbuf") "bytes_ro") (EVar "i")) (EVar "byte"))
          (SReturn (Some (EVar "i")))
          SSkip))
      (SReturn (Some (EInt 2147483647))))).

(** mulib/mu_bbuf.c:221-228 *)
Definition src_mu_bbuf_rfind_byte : fdef := MkF "mu_bbuf_rfind_byte" int
  [("bbuf", Tptr (Tstruct "mu_bbuf_t")); ("byte", Tint false W8)]
  [("i", int)] []
  (SSeq (SDecl "i" (Some (EBin Sub (EArrow (EVar "bbuf") "capacity") (EInt 1))))
    (SSeq (SLoop (EBin Ge (EVar "i") (EInt 0)) (SExpr (EPre Sub (EVar "i")))
        (SIf (EBin Eq (EIndex (EArrow (EVar "bbuf") "bytes_ro") (EVar "i")) (EVar "byte"))
          (SReturn (Some (EVar "i")))
          SSkip))
      (SReturn (Some (EInt 2147483647))))).

(** mulib/mu_bbuf.c:230-240 *)
Definition src_mu_bbuf_find_predicate : fdef := MkF "mu_bbuf_find_predicate" int
  [("bbuf", Tptr (Tstruct "mu_bbuf_t")); ("predicate", Tptr Tfn); ("arg", Tptr Tvoid)]
  [("bbuf_capacity", int); ("bytes", Tptr (Tint false W8)); ("idx", int)] []
  (SSeq (SDecl "bbuf_capacity" (Some (ECall "mu_bbuf_capacity" [EVar "bbuf"])))
    (SSeq (SDecl "bytes" (Some (ECall "mu_bbuf_bytes_ro" [EVar "bbuf"])))
      (SSeq (SDecl "idx" (Some (EInt 0)))
        (SSeq (SLoop (EBin Lt (EVar "idx") (EVar "bbuf_capacity")) (SExpr (EPost Add (EVar "idx")))
            (SIf (ENot (ECall "predicate" [EDeref (EPost Add (EVar "bytes")); EVar "arg"]))
              (SReturn (Some (EVar "idx")))
              SSkip))
          (SReturn (Some (EInt 2147483647))))))).

(** mulib/mu_bbuf.c:242-252 *)
Definition src_mu_bbuf_rfind_predicate : fdef := MkF "mu_bbuf_rfind_predicate" int
  [("bbuf", Tptr (Tstruct "mu_bbuf_t")); ("predicate", Tptr Tfn); ("arg", Tptr Tvoid)]
  [("bbuf_capacity", int); ("bytes", Tptr (Tint false W8)); ("idx", int)] []
  (SSeq (SDecl "bbuf_capacity" (Some (ECall "mu_bbuf_capacity" [EVar "bbuf"])))
    (SSeq (SDecl "bytes" (Some (EAddr (EIndex (ECall "mu_bbuf_bytes_ro" [EVar "bbuf"]) (EVar "bbuf_capacity")))))
      (SSeq (SDecl "idx" (Some (EVar "bbuf_capacity")))
        (SSeq (SLoop (EBin Gt (EVar "idx") (EInt 0)) (SExpr (EPost Sub (EVar "idx")))
            (SIf (ENot (ECall "predicate" [EDeref (EPre Sub (EVar "bytes")); EVar "arg"]))
              (SReturn (Some (EBin Sub (EVar "idx") (EInt 1))))
              SSkip))
          (SReturn (Some (EInt 2147483647))))))).

(** mulib/mu_bbuf.c:254-258 *)
Definition src_mu_bbuf_trim : fdef := MkF "mu_bbuf_trim" (Tptr (Tstruct "mu_bbuf_t"))
  [("dst", Tptr (Tstruct "mu_bbuf_t")); ("bbuf", Tptr (Tstruct "mu_bbuf_t")); ("predicate", Tptr Tfn); ("arg", Tptr Tvoid)]
  [] []
  (SReturn (Some (ECall "mu_bbuf_rtrim" [EVar "dst"; ECall "mu_bbuf_ltrim" [EVar "dst"; EVar "bbuf"; EVar "predicate"; EVar "arg"]; EVar "predicate"; EVar "arg"]))).

(** mulib/mu_bbuf.c:260-269 *)
Definition src_mu_bbuf_ltrim : fdef := MkF "mu_bbuf_ltrim" (Tptr (Tstruct "mu_bbuf_t"))
  [("dst", Tptr (Tstruct "mu_bbuf_t")); ("bbuf", Tptr (Tstruct "mu_bbuf_t")); ("predicate", Tptr Tfn); ("arg", Tptr Tvoid)]
  [("idx", int)] []
  (SSeq (SDecl "idx" (Some (ECall "mu_bbuf_find_predicate" [EVar "bbuf"; EVar "predicate"; EVar "arg"])))
    (SIf (EBin Eq (EVar "idx") (EInt 2147483647))
      (SReturn (Some (ECall "mu_bbuf_copy" [EVar "dst"; EVar "bbuf"])))
      (SReturn (Some (ECall "mu_bbuf_slice" [EVar "dst"; EVar "bbuf"; EVar "idx"; EInt 2147483647]))))).

(** mulib/mu_bbuf.c:271-280 *)
Definition src_mu_bbuf_rtrim : fdef := MkF "mu_bbuf_rtrim" (Tptr (Tstruct "mu_bbuf_t"))
  [("dst", Tptr (Tstruct "mu_bbuf_t")); ("bbuf", Tptr (Tstruct "mu_bbuf_t")); ("predicate", Tptr Tfn); ("arg", Tptr Tvoid)]
  [("idx", int)] []
  (SSeq (SDecl "idx" (Some (ECall "mu_bbuf_rfind_predicate" [EVar "bbuf"; EVar "predicate"; EVar "arg"])))
    (SIf (EBin Eq (EVar "idx") (EInt 2147483647))
      (SReturn (Some (ECall "mu_bbuf_copy" [EVar "dst"; EVar "bbuf"])))
      (SReturn (Some (ECall "mu_bbuf_slice" [EVar "dst"; EVar "bbuf"; EInt 0; EVar "idx"]))))).

(** mulib/mu_bbuf.c:312 *)
Definition src_mu_bbuf_parse_int : fdef := MkF "mu_bbuf_parse_int" int
  [("bbuf", Tptr (Tstruct "mu_bbuf_t"))]
  [("buf", Tptr (Tint false W8)); ("len", int); ("v", int); ("is_negative", Tbool)] []
  (SSeq (SDecl "buf" (Some (ECall "mu_bbuf_bytes_ro" [EVar "bbuf"])))
    (SSeq (SDecl "len" (Some (ECall "mu_bbuf_capacity" [EVar "bbuf"])))
      (SSeq (SDecl "v" (Some (EInt 0)))
        (SSeq (SDecl "is_negative" (Some (EInt 0)))
          (SSeq (SIf (EAnd (EBin Ge (EVar "len") (EInt 1)) (EBin Eq (EDeref (EVar "buf")) (EInt 45)))
              (SSeq (SExpr (EAssignOp Sub (EVar "len") (EInt 1)))
                (SSeq (SExpr (EPost Add (EVar "buf")))
                  (SExpr (EAssign (EVar "is_negative") (EInt 1)))))
              SSkip)
            (SSeq (SLoop (EAnd (EBin Gt (EPost Sub (EVar "len")) (EInt 0)) (ECall "is_decimal" [EDeref (EVar "buf")])) SSkip
                (SExpr (EAssign (EVar "v") (EBin Add (EBin Mul (EVar "v") (EInt 10)) (EBin Sub (EDeref (EPost Add (EVar "buf"))) (EInt 48))))))
              (SReturn (Some (ECond (EVar "is_negative") (ENeg (EVar "v")) (EVar "v")))))))))).

(** mulib/mu_bbuf.c:313 *)
Definition src_mu_bbuf_parse_unsigned_int : fdef := MkF "mu_bbuf_parse_unsigned_int" (Tint false W32)
  [("bbuf", Tptr (Tstruct "mu_bbuf_t"))]
  [("buf", Tptr (Tint false W8)); ("len", int); ("v", Tint false W32)] []
  (SSeq (SDecl "buf" (Some (ECall "mu_bbuf_bytes_ro" [EVar "bbuf"])))
    (SSeq (SDecl "len" (Some (ECall "mu_bbuf_capacity" [EVar "bbuf"])))
      (SSeq (SDecl "v" (Some (EInt 0)))
        (SSeq (SLoop (EAnd (EBin Gt (EPost Sub (EVar "len")) (EInt 0)) (ECall "is_decimal" [EDeref (EVar "buf")])) SSkip
            (SExpr (EAssign (EVar "v") (EBin Add (EBin Mul (EVar "v") (EInt 10)) (EBin Sub (EDeref (EPost Add (EVar "buf"))) (EInt 48))))))
          (SReturn (Some (EVar "v"))))))).

(** mulib/mu_bbuf.c:314 *)
Definition src_mu_bbuf_parse_int8 : fdef := MkF "mu_bbuf_parse_int8" (Tint true W8)
  [("bbuf", Tptr (Tstruct "mu_bbuf_t"))]
  [("buf", Tptr (Tint false W8)); ("len", int); ("v", Tint true W8); ("is_negative", Tbool)] []
  (SSeq (SDecl "buf" (Some (ECall "mu_bbuf_bytes_ro" [EVar "bbuf"])))
    (SSeq (SDecl "len" (Some (ECall "mu_bbuf_capacity" [EVar "bbuf"])))
      (SSeq (SDecl "v" (Some (EInt 0)))
        (SSeq (SDecl "is_negative" (Some (EInt 0)))
          (SSeq (SIf (EAnd (EBin Ge (EVar "len") (EInt 1)) (EBin Eq (EDeref (EVar "buf")) (EInt 45)))
              (SSeq (SExpr (EAssignOp Sub (EVar "len") (EInt 1)))
                (SSeq (SExpr (EPost Add (EVar "buf")))
                  (SExpr (EAssign (EVar "is_negative") (EInt 1)))))
              SSkip)
            (SSeq (SLoop (EAnd (EBin Gt (EPost Sub (EVar "len")) (EInt 0)) (ECall "is_decimal" [EDeref (EVar "buf")])) SSkip
                (SExpr (EAssign (EVar "v") (EBin Add (EBin Mul (EVar "v") (EInt 10)) (EBin Sub (EDeref (EPost Add (EVar "buf"))) (EInt 48))))))
              (SReturn (Some (ECond (EVar "is_negative") (ENeg (EVar "v")) (EVar "v")))))))))).

(** mulib/mu_bbuf.c:315 *)
Definition src_mu_bbuf_parse_uint8 : fdef := MkF "mu_bbuf_parse_uint8" (Tint false W8)
  [("bbuf", Tptr (Tstruct "mu_bbuf_t"))]
  [("buf", Tptr (Tint false W8)); ("len", int); ("v", Tint false W8)] []
  (SSeq (SDecl "buf" (Some (ECall "mu_bbuf_bytes_ro" [EVar "bbuf"])))
    (SSeq (SDecl "len" (Some (ECall "mu_bbuf_capacity" [EVar "bbuf"])))
      (SSeq (SDecl "v" (Some (EInt 0)))
        (SSeq (SLoop (EAnd (EBin Gt (EPost Sub (EVar "len")) (EInt 0)) (ECall "is_decimal" [EDeref (EVar "buf")])) SSkip
            (SExpr (EAssign (EVar "v") (EBin Add (EBin Mul (EVar "v") (EInt 10)) (EBin Sub (EDeref (EPost Add (EVar "buf"))) (EInt 48))))))
          (SReturn (Some (EVar "v"))))))).

(** mulib/mu_bbuf.c:316 *)
Definition src_mu_bbuf_parse_int16 : fdef := MkF "mu_bbuf_parse_int16" (Tint true W16)
  [("bbuf", Tptr (Tstruct "mu_bbuf_t"))]
  [("buf", Tptr (Tint false W8)); ("len", int); ("v", Tint true W16); ("is_negative", Tbool)] []
  (SSeq (SDecl "buf" (Some (ECall "mu_bbuf_bytes_ro" [EVar "bbuf"])))
    (SSeq (SDecl "len" (Some (ECall "mu_bbuf_capacity" [EVar "bbuf"])))
      (SSeq (SDecl "v" (Some (EInt 0)))
        (SSeq (SDecl "is_negative" (Some (EInt 0)))
          (SSeq (SIf (EAnd (EBin Ge (EVar "len") (EInt 1)) (EBin Eq (EDeref (EVar "buf")) (EInt 45)))
              (SSeq (SExpr (EAssignOp Sub (EVar "len") (EInt 1)))
                (SSeq (SExpr (EPost Add (EVar "buf")))
                  (SExpr (EAssign (EVar "is_negative") (EInt 1)))))
              SSkip)
            (SSeq (SLoop (EAnd (EBin Gt (EPost Sub (EVar "len")) (EInt 0)) (ECall "is_decimal" [EDeref (EVar "buf")])) SSkip
                (SExpr (EAssign (EVar "v") (EBin Add (EBin Mul (EVar "v") (EInt 10)) (EBin Sub (EDeref (EPost Add (EVar "buf"))) (EInt 48))))))
              (SReturn (Some (ECond (EVar "is_negative") (ENeg (EVar "v")) (EVar "v")))))))))).

(** mulib/mu_bbuf.c:317 *)
Definition src_mu_bbuf_parse_uint16 : fdef := MkF "mu_bbuf_parse_uint16" (Tint false W16)
  [("bbuf", Tptr (Tstruct "mu_bbuf_t"))]
  [("buf", Tptr (Tint false W8)); ("len", int); ("v", Tint false W16)] []
  (SSeq (SDecl "buf" (Some (ECall "mu_bbuf_bytes_ro" [EVar "bbuf"])))
    (SSeq (SDecl "len" (Some (ECall "mu_bbuf_capacity" [EVar "bbuf"])))
      (SSeq (SDecl "v" (Some (EInt 0)))
        (SSeq (SLoop (EAnd (EBin Gt (EPost Sub (EVar "len")) (EInt 0)) (ECall "is_decimal" [EDeref (EVar "buf")])) SSkip
            (SExpr (EAssign (EVar "v") (EBin Add (EBin Mul (EVar "v") (EInt 10)) (EBin Sub (EDeref (EPost Add (EVar "buf"))) (EInt 48))))))
          (SReturn (Some (EVar "v"))))))).

(** mulib/mu_bbuf.c:318 *)
Definition src_mu_bbuf_parse_int32 : fdef := MkF "mu_bbuf_parse_int32" int
  [("bbuf", Tptr (Tstruct "mu_bbuf_t"))]
  [("buf", Tptr (Tint false W8)); ("len", int); ("v", int); ("is_negative", Tbool)] []
  (SSeq (SDecl "buf" (Some (ECall "mu_bbuf_bytes_ro" [EVar "bbuf"])))
    (SSeq (SDecl "len" (Some (ECall "mu_bbuf_capacity" [EVar "bbuf"])))
      (SSeq (SDecl "v" (Some (EInt 0)))
        (SSeq (SDecl "is_negative" (Some (EInt 0)))
          (SSeq (SIf (EAnd (EBin Ge (EVar "len") (EInt 1)) (EBin Eq (EDeref (EVar "buf")) (EInt 45)))
              (SSeq (SExpr (EAssignOp Sub (EVar "len") (EInt 1)))
                (SSeq (SExpr (EPost Add (EVar "buf")))
                  (SExpr (EAssign (EVar "is_negative") (EInt 1)))))
              SSkip)
            (SSeq (SLoop (EAnd (EBin Gt (EPost Sub (EVar "len")) (EInt 0)) (ECall "is_decimal" [EDeref (EVar "buf")])) SSkip
                (SExpr (EAssign (EVar "v") (EBin Add (EBin Mul (EVar "v") (EInt 10)) (EBin Sub (EDeref (EPost Add (EVar "buf"))) (EInt 48))))))
              (SReturn (Some (ECond (EVar "is_negative") (ENeg (EVar "v")) (EVar "v")))))))))).

(** mulib/mu_bbuf.c:319 *)
Definition src_mu_bbuf_parse_uint32 : fdef := MkF "mu_bbuf_parse_uint32" (Tint false W32)
  [("bbuf", Tptr (Tstruct "mu_bbuf_t"))]
  [("buf", Tptr (Tint false W8)); ("len", int); ("v", Tint false W32)] []
  (SSeq (SDecl "buf" (Some (ECall "mu_bbuf_bytes_ro" [EVar "bbuf"])))
    (SSeq (SDecl "len" (Some (ECall "mu_bbuf_capacity" [EVar "bbuf"])))
      (SSeq (SDecl "v" (Some (EInt 0)))
        (SSeq (SLoop (EAnd (EBin Gt (EPost Sub (EVar "len")) (EInt 0)) (ECall "is_decimal" [EDeref (EVar "buf")])) SSkip
            (SExpr (EAssign (EVar "v") (EBin Add (EBin Mul (EVar "v") (EInt 10)) (EBin Sub (EDeref (EPost Add (EVar "buf"))) (EInt 48))))))
          (SReturn (Some (EVar "v"))))))).

(** mulib/mu_bbuf.c:320 *)
Definition src_mu_bbuf_parse_int64 : fdef := MkF "mu_bbuf_parse_int64" (Tint true W64)
  [("bbuf", Tptr (Tstruct "mu_bbuf_t"))]
  [("buf", Tptr (Tint false W8)); ("len", int); ("v", Tint true W64); ("is_negative", Tbool)] []
  (SSeq (SDecl "buf" (Some (ECall "mu_bbuf_bytes_ro" [EVar "bbuf"])))
    (SSeq (SDecl "len" (Some (ECall "mu_bbuf_capacity" [EVar "bbuf"])))
      (SSeq (SDecl "v" (Some (EInt 0)))
        (SSeq (SDecl "is_negative" (Some (EInt 0)))
          (SSeq (SIf (EAnd (EBin Ge (EVar "len") (EInt 1)) (EBin Eq (EDeref (EVar "buf")) (EInt 45)))
              (SSeq (SExpr (EAssignOp Sub (EVar "len") (EInt 1)))
                (SSeq (SExpr (EPost Add (EVar "buf")))
                  (SExpr (EAssign (EVar "is_negative") (EInt 1)))))
              SSkip)
            (SSeq (SLoop (EAnd (EBin Gt (EPost Sub (EVar "len")) (EInt 0)) (ECall "is_decimal" [EDeref (EVar "buf")])) SSkip
                (SExpr (EAssign (EVar "v") (EBin Add (EBin Mul (EVar "v") (EInt 10)) (EBin Sub (EDeref (EPost Add (EVar "buf"))) (EInt 48))))))
              (SReturn (Some (ECond (EVar "is_negative") (ENeg (EVar "v")) (EVar "v")))))))))).

(** mulib/mu_bbuf.c:321 *)
Definition src_mu_bbuf_parse_uint64 : fdef := MkF "mu_bbuf_parse_uint64" (Tint false W64)
  [("bbuf", Tptr (Tstruct "mu_bbuf_t"))]
  [("buf", Tptr (Tint false W8)); ("len", int); ("v", Tint false W64)] []
  (SSeq (SDecl "buf" (Some (ECall "mu_bbuf_bytes_ro" [EVar "bbuf"])))
    (SSeq (SDecl "len" (Some (ECall "mu_bbuf_capacity" [EVar "bbuf"])))
      (SSeq (SDecl "v" (Some (EInt 0)))
        (SSeq (SLoop (EAnd (EBin Gt (EPost Sub (EVar "len")) (EInt 0)) (ECall "is_decimal" [EDeref (EVar "buf")])) SSkip
            (SExpr (EAssign (EVar "v") (EBin Add (EBin Mul (EVar "v") (EInt 10)) (EBin Sub (EDeref (EPost Add (EVar "buf"))) (EInt 48))))))
          (SReturn (Some (EVar "v"))))))).

(** mulib/mu_bbuf.c:323-344 *)
Definition src_mu_bbuf_parse_hex : fdef := MkF "mu_bbuf_parse_hex" (Tint false W32)
  [("bbuf", Tptr (Tstruct "mu_bbuf_t"))]
  [("buf", Tptr (Tint false W8)); ("len", int); ("v", Tint false W32); ("ch", Tint true W8)] []
  (SSeq (SDecl "buf" (Some (ECall "mu_bbuf_bytes_ro" [EVar "bbuf"])))
    (SSeq (SDecl "len" (Some (ECall "mu_bbuf_capacity" [EVar "bbuf"])))
      (SSeq (SDecl "v" (Some (EInt 0)))
        (SSeq (SLoop (EBin Gt (EPost Sub (EVar "len")) (EInt 0)) SSkip
            (SSeq (SDecl "ch" (Some (EDeref (EPost Add (EVar "buf")))))
              (SIf (EAnd (EBin Ge (EVar "ch") (EInt 48)) (EBin Le (EVar "ch") (EInt 57)))
                (SSeq (SExpr (EAssignOp Shl (EVar "v") (EInt 4)))
                  (SExpr (EAssignOp Add (EVar "v") (EBin Sub (EVar "ch") (EInt 48)))))
                (SIf (EAnd (EBin Ge (EVar "ch") (EInt 97)) (EBin Le (EVar "ch") (EInt 102)))
                  (SSeq (SExpr (EAssignOp Shl (EVar "v") (EInt 4)))
                    (SExpr (EAssignOp Add (EVar "v") (EBin Add (EBin Sub (EVar "ch") (EInt 97)) (EInt 10)))))
                  (SIf (EAnd (EBin Ge (EVar "ch") (EInt 65)) (EBin Le (EVar "ch") (EInt 70)))
                    (SSeq (SExpr (EAssignOp Shl (EVar "v") (EInt 4)))
                      (SExpr (EAssignOp Add (EVar "v") (EBin Add (EBin Sub (EVar "ch") (EInt 65)) (EInt 10)))))
                    SBreak)))))
          (SReturn (Some (EVar "v"))))))).

(** mulib/mu_bbuf.c:349-355 *)
Definition src_mu_bbuf_get_byte : fdef := MkF "mu_bbuf_get_byte" Tbool
  [("bbuf", Tptr (Tstruct "mu_bbuf_t")); ("index", Tsize); ("byte", Tptr (Tint false W8))]
  [] []
  (SSeq (SIf (EBin Ge (EVar "index") (EArrow (EVar "bbuf") "capacity"))
      (SReturn (Some (EInt 0)))
      SSkip)
    (SSeq (SExpr (EAssign (EDeref (EVar "byte")) (EIndex (EArrow (EVar "bbuf") "bytes_ro") (EVar "index"))))
      (SReturn (Some (EInt 1))))).

(** mulib/mu_bbuf.c:357-363 *)
Definition src_mu_bbuf_put_byte : fdef := MkF "mu_bbuf_put_byte" Tbool
  [("bbuf_rw", Tptr (Tstruct "mu_bbuf_t")); ("index", Tsize); ("byte", Tint false W8)]
  [] []
  (SSeq (SIf (EBin Ge (EVar "index") (EArrow (EVar "bbuf_rw") "capacity"))
      (SReturn (Some (EInt 0)))
      SSkip)
    (SSeq (SExpr (EAssign (EIndex (EArrow (EVar "bbuf_rw") "bytes_rw") (EVar "index")) (EVar "byte")))
      (SReturn (Some (EInt 1))))).

(** mulib/mu_bbuf.c:365-368 *)
Definition src_mu_bbuf_clear : fdef := MkF "mu_bbuf_clear" (Tptr (Tstruct "mu_bbuf_t"))
  [("bbuf_rw", Tptr (Tstruct "mu_bbuf_t"))]
  [] []
  (SSeq (SExpr (ECall "memset" [EArrow (EVar "bbuf_rw") "bytes_rw"; EInt 0; EArrow (EVar "bbuf_rw") "capacity"]))
    (SReturn (Some (EVar "bbuf_rw")))).

(** mulib/mu_bbuf.c:370-406 *)
Definition src_mu_bbuf_copy_into : fdef := MkF "mu_bbuf_copy_into" int
  [("dst_rw", Tptr (Tstruct "mu_bbuf_t")); ("src_ro", Tptr (Tstruct "mu_bbuf_t")); ("offset", int)]
  [("count", int); ("src_idx", Tsize); ("dst_idx", Tsize); ("src_len", Tsize); ("dst_len", Tsize); ("src_avail", Tsize); ("dst_avail", Tsize); ("i", int)] []
  (SSeq (SDecl "count" (Some (EInt 0)))
    (SSeq (SDecl "src_idx" (Some (EInt 0)))
      (SSeq (SDecl "dst_idx" (Some (EInt 0)))
        (SSeq (SDecl "src_len" (Some (ECall "mu_bbuf_capacity" [EVar "src_ro"])))
          (SSeq (SDecl "dst_len" (Some (ECall "mu_bbuf_capacity" [EVar "dst_rw"])))
            (SSeq (SDecl "src_avail" None)
              (SSeq (SDecl "dst_avail" None)
                (SSeq (SIf (EBin Gt (EVar "offset") (EInt 0))
                    (SSeq (SExpr (EAssign (EVar "dst_idx") (EVar "offset")))
                      (SIf (EBin Ge (EVar "dst_idx") (EVar "dst_len"))
                        (SReturn (Some (EInt 0)))
                        (SExpr (EAssign (EVar "dst_avail") (EBin Sub (EVar "dst_len") (EVar "dst_idx"))))))
                    (SIf (EBin Lt (EVar "offset") (EInt 0))
                      (SSeq (SExpr (EAssign (EVar "src_idx") (ENeg (EVar "offset"))))
                        (SIf (EBin Ge (EVar "src_idx") (EVar "src_len"))
                          (SReturn (Some (EInt 0)))
                          (SExpr (EAssign (EVar "src_avail") (EBin Sub (EVar "src_len") (EVar "src_idx"))))))
                      SSkip))
                  (SSeq (SIf (EAnd (EVar "src_avail") (EVar "dst_avail"))
                      (SSeq (SExpr (EAssign (EVar "count") (ECast int (ECond (EBin Lt (EVar "src_avail") (EVar "dst_avail")) (EVar "src_avail") (EVar "dst_avail")))))
                        (SSeq (SDecl "i" (Some (EInt 0)))
                          (SLoop (EBin Lt (EVar "i") (EVar "count")) (SExpr (EPost Add (EVar "i")))
                          (SExpr (EAssign (EIndex (EArrow (EVar "dst_rw") "bytes_rw") (EBin Add (EVar "dst_idx") (EVar "i"))) (EIndex (EArrow (EVar "src_ro") "bytes_ro") (EBin Add (EVar "src_idx") (EVar "i"))))))))
                      SSkip)
                    (SReturn (Some (EVar "count")))))))))))).

(** mulib/mu_bbuf.c:408-418 *)
Definition src_mu_bbuf_reverse : fdef := MkF "mu_bbuf_reverse" (Tptr (Tstruct "mu_bbuf_t"))
  [("bbuf_rw", Tptr (Tstruct "mu_bbuf_t"))]
  [("front", Tptr (Tint false W8)); ("back", Tptr (Tint false W8)); ("temp", Tint false W8)] []
  (SSeq (SDecl "front" (Some (EAddr (EIndex (EArrow (EVar "bbuf_rw") "bytes_rw") (EInt 0)))))
    (SSeq (SDecl "back" (Some (EAddr (EIndex (EArrow (EVar "bbuf_rw") "bytes_rw") (EBin Sub (EArrow (EVar "bbuf_rw") "capacity") (EInt 1))))))
      (SSeq (SLoop (EBin Lt (EVar "front") (EVar "back")) SSkip
          (SSeq (SDecl "temp" (Some (EDeref (EVar "front"))))
            (SSeq (SExpr (EAssign (EDeref (EPost Add (EVar "front"))) (EDeref (EVar "back"))))
              (SExpr (EAssign (EDeref (EPost Sub (EVar "back"))) (EVar "temp"))))))
        (SReturn (Some (EVar "bbuf_rw")))))).

(** mulib/mu_bbuf.c:420-447 *)
Definition src_mu_bbuf_rrotate : fdef := MkF "mu_bbuf_rrotate" (Tptr (Tstruct "mu_bbuf_t"))
  [("bbuf_rw", Tptr (Tstruct "mu_bbuf_t")); ("shift", int)]
  [("capacity", int)] [("left", Tstruct "mu_bbuf_t"); ("right", Tstruct "mu_bbuf_t")]
  (SSeq (SDecl "capacity" (Some (EArrow (EVar "bbuf_rw") "capacity")))
    (SSeq (SLoop (EBin Ge (EVar "shift") (EVar "capacity")) SSkip
        (SExpr (EAssignOp Sub (EVar "shift") (EVar "capacity"))))
      (SSeq (SLoop (EBin Lt (EVar "shift") (EInt 0)) SSkip
          (SExpr (EAssignOp Add (EVar "shift") (EVar "capacity"))))
        (SSeq (SIf (EBin Gt (EVar "shift") (EInt 0))
            (SSeq (SDecl "left" None)
              (SSeq (SDecl "right" None)
                (SSeq (SExpr (ECall "mu_bbuf_reverse" [EVar "bbuf_rw"]))
                  (SSeq (SExpr (ECall "mu_bbuf_bisect" [EAddr (EVar "left"); EAddr (EVar "right"); EVar "bbuf_rw"; EVar "shift"]))
                    (SSeq (SExpr (ECall "mu_bbuf_reverse" [EAddr (EVar "left")]))
                      (SExpr (ECall "mu_bbuf_reverse" [EAddr (EVar "right")])))))))
            SSkip)
          (SReturn (Some (EVar "bbuf_rw"))))))).

(** mulib/mu_bbuf.c:449-477 *)
Definition src_mu_bbuf_rshift : fdef := MkF "mu_bbuf_rshift" (Tptr (Tstruct "mu_bbuf_t"))
  [("bbuf_rw", Tptr (Tstruct "mu_bbuf_t")); ("shift", int)]
  [("capacity", Tsize); ("shift_left", Tbool)] []
  (SSeq (SDecl "capacity" (Some (EArrow (EVar "bbuf_rw") "capacity")))
    (SSeq (SDecl "shift_left" None)
      (SSeq (SIf (EBin Lt (EVar "shift") (EInt 0))
          (SSeq (SExpr (EAssign (EVar "shift_left") (EInt 1)))
            (SExpr (EAssign (EVar "shift") (ENeg (EVar "shift")))))
          (SExpr (EAssign (EVar "shift_left") (EInt 0))))
        (SSeq (SIf (EBin Eq (EVar "shift") (EInt 0))
            (SReturn (Some (EVar "bbuf_rw")))
            (SIf (EBin Ge (EVar "shift") (EVar "capacity"))
              (SReturn (Some (ECall "mu_bbuf_clear" [EVar "bbuf_rw"])))
              SSkip))
          (SSeq (SIf (EVar "shift_left")
              (SSeq (SExpr (EMemmove (Tint false W8) (EArrow (EVar "bbuf_rw") "bytes_rw") (EAddr (EIndex (EArrow (EVar "bbuf_rw") "bytes_ro") (EVar "shift"))) (EBin Sub (EVar "capacity") (EVar "shift"))))
                (SExpr (ECall "memset" [EAddr (EIndex (EArrow (EVar "bbuf_rw") "bytes_rw") (EBin Sub (EVar "capacity") (EVar "shift"))); EInt 0; EVar "shift"])))
              (SSeq (SExpr (EMemmove (Tint false W8) (EAddr (EIndex (EArrow (EVar "bbuf_rw") "bytes_rw") (EVar "shift"))) (EArrow (EVar "bbuf_rw") "bytes_ro") (EBin Sub (EVar "capacity") (EVar "shift"))))
                (SExpr (ECall "memset" [EArrow (EVar "bbuf_rw") "bytes_rw"; EInt 0; EVar "shift"]))))
            (SReturn (Some (EVar "bbuf_rw")))))))).

(** mulib/mu_bbuf.c:482-495 *)
Definition src_str_compare_aux : fdef := MkF "str_compare_aux" int
  [("bbuf", Tptr (Tstruct "mu_bbuf_t")); ("b2", Tptr (Tint false W8)); ("len2", int)]
  [("b1", Tptr (Tint false W8)); ("len1", int); ("len", int); ("i", int); ("d", int)] []
  (SSeq (SDecl "b1" (Some (ECall "mu_bbuf_bytes_ro" [EVar "bbuf"])))
    (SSeq (SDecl "len1" (Some (ECall "mu_bbuf_capacity" [EVar "bbuf"])))
      (SSeq (SDecl "len" (Some (ECond (EBin Lt (EVar "len1") (EVar "len2")) (EVar "len1") (EVar "len2"))))
        (SSeq (SDecl "i" (Some (EInt 0)))
          (SSeq (SLoop (EBin Lt (EVar "i") (EVar "len")) (SExpr (EPost Add (EVar "i")))
              (SSeq (SDecl "d" (Some (EBin Sub (EIndex (EVar "b1") (EVar "i")) (EIndex (EVar "b2") (EVar "i")))))
                (SIf (EBin Ne (EVar "d") (EInt 0))
                  (SReturn (Some (EVar "d")))
                  SSkip)))
            (SReturn (Some (EBin Sub (EVar "len1") (EVar "len2"))))))))).

(** mulib/mu_bbuf.c:497-514 *)
Definition src_has_prefix : fdef := MkF "has_prefix" Tbool
  [("bbuf", Tptr (Tstruct "mu_bbuf_t")); ("b2", Tptr (Tint false W8)); ("len2", int)]
  [("b1", Tptr (Tint false W8)); ("len1", int); ("idx", int)] []
  (SSeq (SDecl "b1" (Some (ECall "mu_bbuf_bytes_ro" [EVar "bbuf"])))
    (SSeq (SDecl "len1" (Some (ECall "mu_bbuf_capacity" [EVar "bbuf"])))
      (SSeq (SDecl "idx" None)
        (SSeq (SIf (EBin Eq (EVar "len2") (EInt 0))
            (SReturn (Some (EInt 1)))
            (SIf (EBin Gt (EVar "len2") (EVar "len1"))
              (SReturn (Some (EInt 0)))
              SSkip))
          (SSeq (SExpr (EAssign (EVar "idx") (EInt 0)))
            (SSeq (SLoop (EAnd (EBin Lt (EVar "idx") (EVar "len1")) (EBin Lt (EVar "idx") (EVar "len2"))) (SExpr (EPost Add (EVar "idx")))
                (SIf (EBin Ne (EDeref (EPost Add (EVar "b1"))) (EDeref (EPost Add (EVar "b2"))))
                  SBreak
                  SSkip))
              (SReturn (Some (EBin Eq (EVar "idx") (EVar "len2")))))))))).

(** mulib/mu_bbuf.c:516-537 *)
Definition src_has_suffix : fdef := MkF "has_suffix" Tbool
  [("bbuf", Tptr (Tstruct "mu_bbuf_t")); ("b2", Tptr (Tint false W8)); ("len2", int)]
  [("b1", Tptr (Tint false W8)); ("len1", int); ("idx", int)] []
  (SSeq (SDecl "b1" (Some (ECall "mu_bbuf_bytes_ro" [EVar "bbuf"])))
    (SSeq (SDecl "len1" (Some (ECall "mu_bbuf_capacity" [EVar "bbuf"])))
      (SSeq (SDecl "idx" None)
        (SSeq (SIf (EBin Eq (EVar "len2") (EInt 0))
            (SReturn (Some (EInt 1)))
            (SIf (EBin Gt (EVar "len2") (EVar "len1"))
              (SReturn (Some (EInt 0)))
              SSkip))
          (SSeq (SExpr (EAssign (EVar "b1") (EAddr (EIndex (EVar "b1") (EVar "len1")))))
            (SSeq (SExpr (EAssign (EVar "b2") (EAddr (EIndex (EVar "b2") (EVar "len2")))))
              (SSeq (SExpr (EAssign (EVar "idx") (EInt 0)))
                (SSeq (SLoop (EAnd (EBin Lt (EVar "idx") (EVar "len1")) (EBin Lt (EVar "idx") (EVar "len2"))) (SExpr (EPost Add (EVar "idx")))
                    (SIf (EBin Ne (EDeref (EPre Sub (EVar "b1"))) (EDeref (EPre Sub (EVar "b2"))))
                      SBreak
                      SSkip))
                  (SReturn (Some (EBin Eq (EVar "idx") (EVar "len2")))))))))))).

(** mulib/mu_bbuf.c:539-573 *)
Definition src_mu_bbuf_find_aux : fdef := MkF "mu_bbuf_find_aux" int
  [("bbuf", Tptr (Tstruct "mu_bbuf_t")); ("substr", Tptr (Tint false W8)); ("substr_len", int); ("skip_substr", Tbool)]
  [("hay_bytes", Tptr (Tint false W8)); ("hay_len", int); ("j", int); ("i", int); ("h2", Tptr (Tint false W8))] []
  (SSeq (SDecl "hay_bytes" (Some (ECall "mu_bbuf_bytes_ro" [EVar "bbuf"])))
    (SSeq (SDecl "hay_len" (Some (ECall "mu_bbuf_capacity" [EVar "bbuf"])))
      (SSeq (SDecl "j" None)
        (SSeq (SIf (EBin Eq (EVar "substr_len") (EInt 0))
            (SReturn (Some (EInt 0)))
            SSkip)
          (SSeq (SDecl "i" (Some (EInt 0)))
            (SSeq (SLoop (EBin Le (EVar "i") (EBin Sub (EVar "hay_len") (EVar "substr_len"))) (SExpr (EPost Add (EVar "i")))
                (SSeq (SDecl "h2" (Some (EAddr (EIndex (EVar "hay_bytes") (EVar "i")))))
                  (SIf (EBin Eq (EDeref (EVar "h2")) (EDeref (EVar "substr")))
                    (SSeq (SExpr (EAssign (EVar "j") (EInt 1)))
                      (SSeq (SLoop (EBin Lt (EVar "j") (EVar "substr_len")) (SExpr (EPost Add (EVar "j")))
                          (SIf (EBin Ne (EIndex (EVar "h2") (EVar "j")) (EIndex (EVar "substr") (EVar "j")))
                          SBreak
                          SSkip))
                        (SIf (EBin Eq (EVar "j") (EVar "substr_len"))
                          (SReturn (Some (ECond (EVar "skip_substr") (EBin Add (EVar "i") (EVar "substr_len")) (EVar "i"))))
                          SSkip)))
                    SSkip)))
              (SReturn (Some (EInt 2147483647))))))))).

(** mulib/mu_bbuf.c:575-609 *)
Definition src_mu_bbuf_rfind_aux : fdef := MkF "mu_bbuf_rfind_aux" int
  [("bbuf", Tptr (Tstruct "mu_bbuf_t")); ("substr", Tptr (Tint false W8)); ("substr_len", int); ("skip_substr", Tbool)]
  [("hay_bytes", Tptr (Tint false W8)); ("hay_len", int); ("j", int); ("i", int); ("h2", Tptr (Tint false W8))] []
  (SSeq (SDecl "hay_bytes" (Some (ECall "mu_bbuf_bytes_ro" [EVar "bbuf"])))
    (SSeq (SDecl "hay_len" (Some (ECall "mu_bbuf_capacity" [EVar "bbuf"])))
      (SSeq (SDecl "j" None)
        (SSeq (SIf (EBin Eq (EVar "substr_len") (EInt 0))
            (SReturn (Some (EVar "hay_len")))
            SSkip)
          (SSeq (SDecl "i" (Some (EBin Sub (EVar "hay_len") (EVar "substr_len"))))
            (SSeq (SLoop (EBin Ge (EVar "i") (EInt 0)) (SExpr (EPre Sub (EVar "i")))
                (SSeq (SDecl "h2" (Some (EAddr (EIndex (EVar "hay_bytes") (EVar "i")))))
                  (SIf (EBin Eq (EDeref (EVar "h2")) (EDeref (EVar "substr")))
                    (SSeq (SExpr (EAssign (EVar "j") (EInt 1)))
                      (SSeq (SLoop (EBin Lt (EVar "j") (EVar "substr_len")) (SExpr (EPost Add (EVar "j")))
                          (SIf (EBin Ne (EIndex (EVar "h2") (EVar "j")) (EIndex (EVar "substr") (EVar "j")))
                          SBreak
                          SSkip))
                        (SIf (EBin Eq (EVar "j") (EVar "substr_len"))
                          (SReturn (Some (ECond (EVar "skip_substr") (EBin Add (EVar "i") (EVar "substr_len")) (EVar "i"))))
                          SSkip)))
                    SSkip)))
              (SReturn (Some (EInt 2147483647))))))))).

(** mulib/mu_bbuf.c:611-616 *)
Definition src_is_decimal : fdef := MkF "is_decimal" Tbool
  [("byte", Tint false W8)]
  [] []
  (SSeq (SIf (EAnd (EBin Ge (EVar "byte") (EInt 48)) (EBin Le (EVar "byte") (EInt 57)))
      (SReturn (Some (EInt 1)))
      SSkip)
    (SReturn (Some (EInt 0)))).

(** struct types (mulib/*.h, *.c) *)
Definition bvec_prog_structs : list (string * list (list (string * ty))) :=
  [("mu_bbuf_t", [[("bytes_ro", Tptr (Tint false W8)); ("bytes_rw", Tptr (Tint false W8))]; [("capacity", Tsize)]]);
   ("mu_bvec_t", [[("bbuf", Tstruct "mu_bbuf_t")]; [("count", Tsize)]])].
Definition bvec_prog_consts : list (string * Z) :=
  [].
(** file scope variables: their types and the objects they are *)
Definition bvec_prog_globals : list (string * (ty * nat)) :=
  [].
Definition bvec_prog : cprog := MkProg bvec_prog_structs bvec_prog_consts bvec_prog_globals
  [src_mu_bvec_init; src_mu_bvec_init_ro; src_mu_bvec_init_rw; src_mu_bvec_reset; src_mu_bvec_get_bbuf; src_mu_bvec_get_capacity; src_mu_bvec_get_count; src_mu_bvec_set_count; src_mu_bvec_get_available; src_mu_bvec_ref_ro; src_mu_bvec_ref_rw; src_mu_bvec_read_byte; src_mu_bvec_write_byte; src_mu_bbuf_init_ro; src_mu_bbuf_init_rw; src_mu_bbuf_init_cstr; src_mu_bbuf_copy; src_mu_bbuf_bytes_ro; src_mu_bbuf_bytes_rw; src_mu_bbuf_capacity; src_mu_bbuf_ref_ro; src_mu_bbuf_ref_rw; src_mu_bbuf_compare; src_mu_bbuf_compare_cstr; src_mu_bbuf_slice; src_mu_bbuf_bisect; src_mu_bbuf_matches; src_mu_bbuf_matches_cstr; src_mu_bbuf_has_prefix; src_mu_bbuf_has_prefix_cstr; src_mu_bbuf_has_suffix; src_mu_bbuf_has_suffix_cstr; src_mu_bbuf_find_substr; src_mu_bbuf_find_subcstr; src_mu_bbuf_rfind_substr; src_mu_bbuf_rfind_subcstr; src_mu_bbuf_find_byte; src_mu_bbuf_rfind_byte; src_mu_bbuf_find_predicate; src_mu_bbuf_rfind_predicate; src_mu_bbuf_trim; src_mu_bbuf_ltrim; src_mu_bbuf_rtrim; src_mu_bbuf_parse_int; src_mu_bbuf_parse_unsigned_int; src_mu_bbuf_parse_int8; src_mu_bbuf_parse_uint8; src_mu_bbuf_parse_int16; src_mu_bbuf_parse_uint16; src_mu_bbuf_parse_int32; src_mu_bbuf_parse_uint32; src_mu_bbuf_parse_int64; src_mu_bbuf_parse_uint64; src_mu_bbuf_parse_hex; src_mu_bbuf_get_byte; src_mu_bbuf_put_byte; src_mu_bbuf_clear; src_mu_bbuf_copy_into; src_mu_bbuf_reverse; src_mu_bbuf_rrotate; src_mu_bbuf_rshift; src_str_compare_aux; src_has_prefix; src_has_suffix; src_mu_bbuf_find_aux; src_mu_bbuf_rfind_aux; src_is_decimal].
