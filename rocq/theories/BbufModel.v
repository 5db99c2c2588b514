(** * Model of mulib/mu_bbuf.c (all functions).

    Byte memory is a list of C objects (blocks of bytes); a pointer is a block and an
    offset.  Forming a pointer outside [0, size] of its block, or accessing a byte
    outside the block, is undefined behaviour.  [mu_bbuf_t] structs are values; the
    functions which write structs given by pointer (slice, bisect, trim) work on an
    environment of structs, so that aliasing of their arguments is modelled.
    Simplification: null and dangling byte pointers are not represented (a block index
    beyond the memory plays their role: every access is UB). *)
From Verif Require Import CSem.

(** mu_bbuf.h:52-53 *)
Definition MU_BBUF_END : Z := int_max.
Definition MU_BBUF_NOT_FOUND : Z := int_max.

(** ** Byte memory *)
Notation memory := (list (list Z)).
Record ptr := Ptr { blk : nat; off : Z }.

(** C pointer arithmetic [p + i] *)
Definition padd (m : memory) (p : ptr) (i : Z) : res ptr :=
  match m !! blk p with
  | Some d => if (0 <=? off p + i) && (off p + i <=? Z.of_nat (length d))
              then Ok (Ptr (blk p) (off p + i)) else UB
  | None => UB
  end.

(** C [p[i]] as a value *)
Definition rd (m : memory) (p : ptr) (i : Z) : res Z :=
  match m !! blk p with Some d => ld d (off p + i) | None => UB end.

(** C [p[i] = v] *)
Definition wr (m : memory) (p : ptr) (i v : Z) : res memory :=
  match m !! blk p with
  | Some d => let* d := st d (off p + i) v in Ok (<[blk p := d]> m)
  | None => UB
  end.

(** C [memset(p, v, n)] *)
Definition mset (m : memory) (p : ptr) (v n : Z) : res memory :=
  match m !! blk p with
  | Some d =>
      if (0 <=? off p) && (0 <=? n) && (off p + n <=? Z.of_nat (length d))
      then Ok (<[blk p := take (Z.to_nat (off p)) d ++ replicate (Z.to_nat n) v
                          ++ drop (Z.to_nat (off p + n)) d]> m)
      else UB
  | None => UB
  end.

(** C [memmove(dst, src, n)] of bytes; here both pointers are always in one block
    (other cases are not needed by this file and are left undefined). *)
Definition mmove (m : memory) (dst src : ptr) (n : Z) : res memory :=
  if (blk dst =? blk src)%nat then
    match m !! blk dst with
    | Some d => let* d := memmove d (off dst) (off src) n in Ok (<[blk dst := d]> m)
    | None => UB
    end
  else UB.

(** C [strlen(p)] *)
Fixpoint strlen_loop (fuel : nat) (m : memory) (p : ptr) (i : Z) : res Z :=
  let* c := rd m p i in
  if c =? 0 then Ok i
  else match fuel with O => NoFuel | S f => strlen_loop f m p (i + 1) end.
Definition strlen (m : memory) (p : ptr) : res Z :=
  match m !! blk p with Some d => strlen_loop (length d) m p 0 | None => UB end.

(** ** The struct, mu_bbuf.h:55-61.  The union members bytes_ro and bytes_rw share
    one representation. *)
Record bbuf := MkBbuf { bytes : ptr; capacity : Z }.

(** Structs by address *)
Notation senv := (list bbuf).
Definition sget (e : senv) (s : nat) : res bbuf := match e !! s with Some b => Ok b | None => UB end.
Definition sput (e : senv) (s : nat) (b : bbuf) : res senv :=
  match e !! s with Some _ => Ok (<[s := b]> e) | None => UB end.

(** mu_bbuf.c:61-71 mu_bbuf_init_ro / mu_bbuf_init_rw *)
Definition mu_bbuf_init_ro (e : senv) (b : nat) (byts : ptr) (cap : Z) : res senv := sput e b (MkBbuf byts cap).
Definition mu_bbuf_init_rw (e : senv) (b : nat) (byts : ptr) (cap : Z) : res senv := sput e b (MkBbuf byts cap).
(** mu_bbuf.c:74-78 *)
Definition mu_bbuf_init_cstr (m : memory) (e : senv) (b : nat) (cstr : ptr) : res senv :=
  let* n := strlen m cstr in sput e b (MkBbuf cstr n).
(** mu_bbuf.c:80-84.  Field by field, as dst may be src. *)
Definition mu_bbuf_copy (e : senv) (dst src : nat) : res senv :=
  let* s := sget e src in
  let* d := sget e dst in
  let* e := sput e dst (MkBbuf (bytes s) (capacity d)) in
  let* s := sget e src in
  let* d := sget e dst in
  sput e dst (MkBbuf (bytes d) (capacity s)).
(** mu_bbuf.c:86-94 *)
Definition mu_bbuf_bytes_ro (b : bbuf) : ptr := bytes b.
Definition mu_bbuf_bytes_rw (b : bbuf) : ptr := bytes b.
Definition mu_bbuf_capacity (b : bbuf) : Z := capacity b.

(** mu_bbuf.c:96-110 mu_bbuf_ref_ro / mu_bbuf_ref_rw; [None] is NULL *)
Definition mu_bbuf_ref (m : memory) (b : bbuf) (index : Z) : res (option ptr) :=
  if index <? capacity b then let* p := padd m (bytes b) index in Ok (Some p) else Ok None.

Section model.
Context (p : plat).

(** mu_bbuf.c:487-492 *)
Fixpoint compare_loop (fuel : nat) (m : memory) (b1 b2 : ptr) (i len : Z) : res (option Z) :=
  if i <? len then
    match fuel with
    | O => NoFuel
    | S f =>
      let* x := rd m b1 i in
      let* y := rd m b2 i in
      let* d := isub x y in
      if negb (d =? 0) then Ok (Some d)
      else let* i := iadd i 1 in compare_loop f m b1 b2 i len
    end
  else Ok None.
(** mu_bbuf.c:482-495; [len2] arrives converted to int *)
Definition str_compare_aux (m : memory) (b : bbuf) (b2 : ptr) (len2 : Z) : res Z :=
  let b1 := mu_bbuf_bytes_ro b in
  let len1 := to_int (mu_bbuf_capacity b) in
  let len := if len1 <? len2 then len1 else len2 in
  let* r := compare_loop (Z.to_nat len) m b1 b2 0 len in
  match r with Some d => Ok d | None => isub len1 len2 end.

(** mu_bbuf.c:112-118 *)
Definition mu_bbuf_compare (m : memory) (b1 b2 : bbuf) : res Z :=
  str_compare_aux m b1 (mu_bbuf_bytes_ro b2) (to_int (mu_bbuf_capacity b2)).
Definition mu_bbuf_compare_cstr (m : memory) (b1 : bbuf) (cstr : ptr) : res Z :=
  let* n := strlen m cstr in str_compare_aux m b1 cstr (to_int n).

(** mu_bbuf.c:166-172 *)
Definition mu_bbuf_matches (m : memory) (b1 b2 : bbuf) : res bool :=
  let* r := str_compare_aux m b1 (mu_bbuf_bytes_ro b2) (to_int (mu_bbuf_capacity b2)) in Ok (r =? 0).
Definition mu_bbuf_matches_cstr (m : memory) (b1 : bbuf) (cstr : ptr) : res bool :=
  let* n := strlen m cstr in
  let* r := str_compare_aux m b1 cstr (to_int n) in Ok (r =? 0).

(** mu_bbuf.c:508-512, returns the final idx *)
Fixpoint prefix_loop (fuel : nat) (m : memory) (b1 b2 : ptr) (idx len1 len2 : Z) : res Z :=
  if (idx <? len1) && (idx <? len2) then
    match fuel with
    | O => NoFuel
    | S f =>
      let* x := rd m b1 0 in
      let* y := rd m b2 0 in
      let* b1 := padd m b1 1 in
      let* b2 := padd m b2 1 in
      if negb (x =? y) then Ok idx
      else let* idx := iadd idx 1 in prefix_loop f m b1 b2 idx len1 len2
    end
  else Ok idx.
(** mu_bbuf.c:497-514 *)
Definition has_prefix (m : memory) (b : bbuf) (b2 : ptr) (len2 : Z) : res bool :=
  let b1 := mu_bbuf_bytes_ro b in
  let len1 := to_int (mu_bbuf_capacity b) in
  if len2 =? 0 then Ok true
  else if len1 <? len2 then Ok false
  else let* idx := prefix_loop (Z.to_nat len2) m b1 b2 0 len1 len2 in Ok (idx =? len2).

(** mu_bbuf.c:531-535 *)
Fixpoint suffix_loop (fuel : nat) (m : memory) (b1 b2 : ptr) (idx len1 len2 : Z) : res Z :=
  if (idx <? len1) && (idx <? len2) then
    match fuel with
    | O => NoFuel
    | S f =>
      let* b1 := padd m b1 (-1) in
      let* b2 := padd m b2 (-1) in
      let* x := rd m b1 0 in
      let* y := rd m b2 0 in
      if negb (x =? y) then Ok idx
      else let* idx := iadd idx 1 in suffix_loop f m b1 b2 idx len1 len2
    end
  else Ok idx.
(** mu_bbuf.c:516-537 *)
Definition has_suffix (m : memory) (b : bbuf) (b2 : ptr) (len2 : Z) : res bool :=
  let b1 := mu_bbuf_bytes_ro b in
  let len1 := to_int (mu_bbuf_capacity b) in
  if len2 =? 0 then Ok true
  else if len1 <? len2 then Ok false
  else
    let* b1 := padd m b1 len1 in
    let* b2 := padd m b2 len2 in
    let* idx := suffix_loop (Z.to_nat len2) m b1 b2 0 len1 len2 in Ok (idx =? len2).

(** mu_bbuf.c:174-188 *)
Definition mu_bbuf_has_prefix (m : memory) (b1 b2 : bbuf) : res bool :=
  has_prefix m b1 (mu_bbuf_bytes_ro b2) (to_int (mu_bbuf_capacity b2)).
Definition mu_bbuf_has_prefix_cstr (m : memory) (b1 : bbuf) (cstr : ptr) : res bool :=
  let* n := strlen m cstr in has_prefix m b1 cstr (to_int n).
Definition mu_bbuf_has_suffix (m : memory) (b1 b2 : bbuf) : res bool :=
  has_suffix m b1 (mu_bbuf_bytes_ro b2) (to_int (mu_bbuf_capacity b2)).
Definition mu_bbuf_has_suffix_cstr (m : memory) (b1 : bbuf) (cstr : ptr) : res bool :=
  let* n := strlen m cstr in has_suffix m b1 cstr (to_int n).

(** mu_bbuf.c:558-563 (and 594-599), returns the final j *)
Fixpoint match_loop (fuel : nat) (m : memory) (h2 substr : ptr) (j substr_len : Z) : res Z :=
  if j <? substr_len then
    match fuel with
    | O => NoFuel
    | S f =>
      let* x := rd m h2 j in
      let* y := rd m substr j in
      if negb (x =? y) then Ok j
      else let* j := iadd j 1 in match_loop f m h2 substr j substr_len
    end
  else Ok j.
(** mu_bbuf.c:555-568 (and 591-604): does the substring occur at i? *)
Definition match_at (m : memory) (hay substr : ptr) (substr_len i : Z) : res bool :=
  let* h2 := padd m hay i in
  let* x := rd m h2 0 in
  let* y := rd m substr 0 in
  if x =? y then
    let* j := match_loop (Z.to_nat substr_len) m h2 substr 1 substr_len in
    Ok (j =? substr_len)
  else Ok false.
(** mu_bbuf.c:554-572 *)
Fixpoint find_loop (fuel : nat) (m : memory) (hay substr : ptr) (hay_len substr_len i : Z) (skip : bool) : res Z :=
  let* lim := isub hay_len substr_len in
  if i <=? lim then
    match fuel with
    | O => NoFuel
    | S f =>
      let* ok := match_at m hay substr substr_len i in
      if ok : bool then (if skip then iadd i substr_len else Ok i)
      else let* i := iadd i 1 in find_loop f m hay substr hay_len substr_len i skip
    end
  else Ok MU_BBUF_NOT_FOUND.
(** mu_bbuf.c:539-573 *)
Definition mu_bbuf_find_aux (m : memory) (b : bbuf) (substr : ptr) (substr_len : Z) (skip : bool) : res Z :=
  let hay := mu_bbuf_bytes_ro b in
  let hay_len := to_int (mu_bbuf_capacity b) in
  if substr_len =? 0 then Ok 0
  else find_loop (S (Z.to_nat hay_len)) m hay substr hay_len substr_len 0 skip.
(** mu_bbuf.c:590-608 *)
Fixpoint rfind_loop (fuel : nat) (m : memory) (hay substr : ptr) (substr_len i : Z) (skip : bool) : res Z :=
  if 0 <=? i then
    match fuel with
    | O => NoFuel
    | S f =>
      let* ok := match_at m hay substr substr_len i in
      if ok : bool then (if skip then iadd i substr_len else Ok i)
      else let* i := isub i 1 in rfind_loop f m hay substr substr_len i skip
    end
  else Ok MU_BBUF_NOT_FOUND.
(** mu_bbuf.c:575-609 *)
Definition mu_bbuf_rfind_aux (m : memory) (b : bbuf) (substr : ptr) (substr_len : Z) (skip : bool) : res Z :=
  let hay := mu_bbuf_bytes_ro b in
  let hay_len := to_int (mu_bbuf_capacity b) in
  if substr_len =? 0 then Ok hay_len
  else
    let* i := isub hay_len substr_len in
    rfind_loop (S (Z.to_nat hay_len)) m hay substr substr_len i skip.

(** mu_bbuf.c:190-210 *)
Definition mu_bbuf_find_substr (m : memory) (b s : bbuf) (skip : bool) : res Z :=
  mu_bbuf_find_aux m b (mu_bbuf_bytes_ro s) (to_int (mu_bbuf_capacity s)) skip.
Definition mu_bbuf_find_subcstr (m : memory) (b : bbuf) (cstr : ptr) (skip : bool) : res Z :=
  let* n := strlen m cstr in mu_bbuf_find_aux m b cstr (to_int n) skip.
Definition mu_bbuf_rfind_substr (m : memory) (b s : bbuf) (skip : bool) : res Z :=
  mu_bbuf_rfind_aux m b (mu_bbuf_bytes_ro s) (to_int (mu_bbuf_capacity s)) skip.
Definition mu_bbuf_rfind_subcstr (m : memory) (b : bbuf) (cstr : ptr) (skip : bool) : res Z :=
  let* n := strlen m cstr in mu_bbuf_rfind_aux m b cstr (to_int n) skip.

(** mu_bbuf.c:212-219; [i < capacity] compares as size_t *)
Fixpoint find_byte_loop (fuel : nat) (m : memory) (b : bbuf) (byte i : Z) : res Z :=
  if to_size p i <? capacity b then
    match fuel with
    | O => NoFuel
    | S f =>
      let* x := rd m (bytes b) i in
      if x =? byte then Ok i
      else let* i := iadd i 1 in find_byte_loop f m b byte i
    end
  else Ok MU_BBUF_NOT_FOUND.
Definition mu_bbuf_find_byte (m : memory) (b : bbuf) (byte : Z) : res Z :=
  find_byte_loop (Z.to_nat (capacity b)) m b byte 0.
(** mu_bbuf.c:221-228 *)
Fixpoint rfind_byte_loop (fuel : nat) (m : memory) (b : bbuf) (byte i : Z) : res Z :=
  if 0 <=? i then
    match fuel with
    | O => NoFuel
    | S f =>
      let* x := rd m (bytes b) i in
      if x =? byte then Ok i
      else let* i := isub i 1 in rfind_byte_loop f m b byte i
    end
  else Ok MU_BBUF_NOT_FOUND.
Definition mu_bbuf_rfind_byte (m : memory) (b : bbuf) (byte : Z) : res Z :=
  let i := to_int (to_size p (capacity b - 1)) in
  rfind_byte_loop (S (Z.to_nat i)) m b byte i.

(** mu_bbuf.c:230-240.  The user's predicate (with its [arg]) is a function of the byte:
    predicates with state are in BbufPred.v. *)
Fixpoint find_predicate_loop (fuel : nat) (m : memory) (bytes : ptr) (pred : Z -> bool) (idx cap : Z) : res Z :=
  if idx <? cap then
    match fuel with
    | O => NoFuel
    | S f =>
      let* x := rd m bytes 0 in
      let* bytes := padd m bytes 1 in
      if negb (pred x) then Ok idx
      else let* idx := iadd idx 1 in find_predicate_loop f m bytes pred idx cap
    end
  else Ok MU_BBUF_NOT_FOUND.
Definition mu_bbuf_find_predicate (m : memory) (b : bbuf) (pred : Z -> bool) : res Z :=
  let cap := to_int (mu_bbuf_capacity b) in
  find_predicate_loop (Z.to_nat cap) m (mu_bbuf_bytes_ro b) pred 0 cap.
(** mu_bbuf.c:242-252 *)
Fixpoint rfind_predicate_loop (fuel : nat) (m : memory) (bytes : ptr) (pred : Z -> bool) (idx : Z) : res Z :=
  if 0 <? idx then
    match fuel with
    | O => NoFuel
    | S f =>
      let* bytes := padd m bytes (-1) in
      let* x := rd m bytes 0 in
      if negb (pred x) then isub idx 1
      else let* idx := isub idx 1 in rfind_predicate_loop f m bytes pred idx
    end
  else Ok MU_BBUF_NOT_FOUND.
Definition mu_bbuf_rfind_predicate (m : memory) (b : bbuf) (pred : Z -> bool) : res Z :=
  let cap := to_int (mu_bbuf_capacity b) in
  let* bytes := padd m (mu_bbuf_bytes_ro b) cap in
  rfind_predicate_loop (Z.to_nat cap) m bytes pred cap.

(** mu_bbuf.c:120-143 *)
Definition mu_bbuf_slice (m : memory) (e : senv) (dst src : nat) (start end_ : Z) : res senv :=
  let* s := sget e src in
  let cap := capacity s in
  let start :=
    if start <? 0 then to_int (to_size p (cap + to_size p start))
    else if (cap <? to_size p start) || (start =? MU_BBUF_END) then to_int cap
    else start in
  let end_ :=
    if end_ <? 0 then to_int (to_size p (cap + to_size p end_))
    else if (cap <=? to_size p end_) || (end_ =? MU_BBUF_END) then to_int cap
    else end_ in
  let end_ := if end_ <? start then start else end_ in
  let* q := padd m (bytes s) start in
  let* n := isub end_ start in
  mu_bbuf_init_ro e dst q (to_size p n).

(** mu_bbuf.c:145-164; left and right may be NULL *)
Definition mu_bbuf_bisect (m : memory) (e : senv) (left right : option nat) (src : nat) (index : Z) : res senv :=
  let* s := sget e src in
  let src_capacity := to_int (mu_bbuf_capacity s) in
  let* index :=
    (if index <? 0 then iadd src_capacity index
     else if (src_capacity <? index) || (index =? MU_BBUF_END) then Ok src_capacity
     else Ok index) in
  let* e :=
    (match left with
     | Some l => let* s := sget e src in mu_bbuf_init_ro e l (mu_bbuf_bytes_ro s) (to_size p index)
     | None => Ok e
     end) in
  match right with
  | Some r =>
      let* s := sget e src in
      let* q := padd m (mu_bbuf_bytes_ro s) index in
      let* n := isub src_capacity index in
      mu_bbuf_init_ro e r q (to_size p n)
  | None => Ok e
  end.

(** mu_bbuf.c:260-269 *)
Definition mu_bbuf_ltrim (m : memory) (e : senv) (dst b : nat) (pred : Z -> bool) : res senv :=
  let* s := sget e b in
  let* idx := mu_bbuf_find_predicate m s pred in
  if idx =? MU_BBUF_NOT_FOUND then mu_bbuf_copy e dst b
  else mu_bbuf_slice m e dst b idx MU_BBUF_END.
(** mu_bbuf.c:271-280 *)
Definition mu_bbuf_rtrim (m : memory) (e : senv) (dst b : nat) (pred : Z -> bool) : res senv :=
  let* s := sget e b in
  let* idx := mu_bbuf_rfind_predicate m s pred in
  if idx =? MU_BBUF_NOT_FOUND then mu_bbuf_copy e dst b
  else mu_bbuf_slice m e dst b 0 idx.
(** mu_bbuf.c:254-258; ltrim returns dst *)
Definition mu_bbuf_trim (m : memory) (e : senv) (dst b : nat) (pred : Z -> bool) : res senv :=
  let* e := mu_bbuf_ltrim m e dst b pred in
  mu_bbuf_rtrim m e dst dst pred.

(** ** Parsers *)
(** mu_bbuf.c:611-616 *)
Definition is_decimal (byte : Z) : bool := (48 <=? byte) && (byte <=? 57).

(** The C integer types of the ten parser instances, mu_bbuf.c:312-321 *)
Inductive ity := I8 | I16 | I32 | I64 | U8 | U16 | U32 | U64.
Definition ity_mod (t : ity) : Z :=
  match t with
  | I8 | U8 => 256 | I16 | U16 => 65536 | I32 | U32 => 4294967296
  | I64 | U64 => 18446744073709551616
  end.
Definition ity_signed (t : ity) : bool :=
  match t with I8 | I16 | I32 | I64 => true | _ => false end.
(** conversion to the type *)
Definition ity_conv (t : ity) (x : Z) : Z :=
  if ity_signed t then wrap_signed (ity_mod t) x else x mod ity_mod t.
(** an arithmetic result of an expression of type [t] after the integer promotions:
    8- and 16-bit operands compute in [int], U32/U64 wrap, I32/I64 must fit *)
Definition ity_arith (t : ity) (x : Z) : res Z :=
  match t with
  | I8 | I16 | U8 | U16 | I32 => ichk x
  | I64 => chk (-9223372036854775808) 9223372036854775807 x
  | U32 | U64 => Ok (x mod ity_mod t)
  end.

(** mu_bbuf.c:294-296 and 306-308; [len] counts the remaining bytes; [len--] is evaluated first *)
Fixpoint parse_loop (fuel : nat) (t : ity) (m : memory) (buf : ptr) (len v : Z) : res Z :=
  let* len' := isub len 1 in
  if 0 <? len then
    match fuel with
    | O => NoFuel
    | S f =>
      let* c := rd m buf 0 in
      if is_decimal c then
        let* d := isub c 48 in
        let* buf := padd m buf 1 in
        let* v10 := ity_arith t (v * 10) in
        let* w := ity_arith t (v10 + d) in
        parse_loop f t m buf len' (ity_conv t w)
      else Ok v
    end
  else Ok v.

(** mu_bbuf.c:282-298 DEFINE_INT_PARSER *)
Definition int_parser (t : ity) (m : memory) (b : bbuf) : res Z :=
  let buf := mu_bbuf_bytes_ro b in
  let len := to_int (mu_bbuf_capacity b) in
  let* neg := (if 1 <=? len then let* c := rd m buf 0 in Ok (c =? 45) else Ok false) in
  let* '(buf, len) :=
    (if neg : bool then let* q := padd m buf 1 in let* n := isub len 1 in Ok (q, n) else Ok (buf, len)) in
  let* v := parse_loop (Z.to_nat len) t m buf len 0 in
  if neg : bool then let* x := ity_arith t (- v) in Ok (ity_conv t x) else Ok v.

(** mu_bbuf.c:300-310 DEFINE_UINT_PARSER *)
Definition uint_parser (t : ity) (m : memory) (b : bbuf) : res Z :=
  let len := to_int (mu_bbuf_capacity b) in
  parse_loop (Z.to_nat len) t m (mu_bbuf_bytes_ro b) len 0.

(** mu_bbuf.c:312-321 ([int] and [unsigned int] are 32 bits wide) *)
Definition mu_bbuf_parse_int := int_parser I32.
Definition mu_bbuf_parse_unsigned_int := uint_parser U32.
Definition mu_bbuf_parse_int8 := int_parser I8.
Definition mu_bbuf_parse_uint8 := uint_parser U8.
Definition mu_bbuf_parse_int16 := int_parser I16.
Definition mu_bbuf_parse_uint16 := uint_parser U16.
Definition mu_bbuf_parse_int32 := int_parser I32.
Definition mu_bbuf_parse_uint32 := uint_parser U32.
Definition mu_bbuf_parse_int64 := int_parser I64.
Definition mu_bbuf_parse_uint64 := uint_parser U64.

(** mu_bbuf.c:323-344; [char] may be signed or unsigned *)
Fixpoint hex_loop (fuel : nat) (char_signed : bool) (m : memory) (buf : ptr) (len v : Z) : res Z :=
  let* len' := isub len 1 in
  if 0 <? len then
    match fuel with
    | O => NoFuel
    | S f =>
      let* c := rd m buf 0 in
      let* buf := padd m buf 1 in
      let ch := if char_signed then wrap_signed 256 c else c in
      if (48 <=? ch) && (ch <=? 57) then
        hex_loop f char_signed m buf len' (((v * 16) mod 4294967296 + (ch - 48)) mod 4294967296)
      else if (97 <=? ch) && (ch <=? 102) then
        hex_loop f char_signed m buf len' (((v * 16) mod 4294967296 + (ch - 97 + 10)) mod 4294967296)
      else if (65 <=? ch) && (ch <=? 70) then
        hex_loop f char_signed m buf len' (((v * 16) mod 4294967296 + (ch - 65 + 10)) mod 4294967296)
      else Ok v
    end
  else Ok v.
Definition mu_bbuf_parse_hex (char_signed : bool) (m : memory) (b : bbuf) : res Z :=
  let len := to_int (mu_bbuf_capacity b) in
  hex_loop (Z.to_nat len) char_signed m (mu_bbuf_bytes_ro b) len 0.

(** ** Mutable buffers *)
(** mu_bbuf.c:349-355: result and, if written, the out-parameter *)
Definition mu_bbuf_get_byte (m : memory) (b : bbuf) (index : Z) : res (bool * option Z) :=
  if capacity b <=? index then Ok (false, None)
  else let* x := rd m (bytes b) index in Ok (true, Some x).
(** mu_bbuf.c:357-363 *)
Definition mu_bbuf_put_byte (m : memory) (b : bbuf) (index byte : Z) : res (bool * memory) :=
  if capacity b <=? index then Ok (false, m)
  else let* m := wr m (bytes b) index byte in Ok (true, m).
(** mu_bbuf.c:365-368 *)
Definition mu_bbuf_clear (m : memory) (b : bbuf) : res memory := mset m (bytes b) 0 (capacity b).

(** mu_bbuf.c:400-402 *)
Fixpoint copy_loop (fuel : nat) (m : memory) (dst src : ptr) (dst_idx src_idx i count : Z) : res memory :=
  if i <? count then
    match fuel with
    | O => NoFuel
    | S f =>
      let* x := rd m src (to_size p (src_idx + i)) in
      let* m := wr m dst (to_size p (dst_idx + i)) x in
      let* i := iadd i 1 in
      copy_loop f m dst src dst_idx src_idx i count
    end
  else Ok m.
(** reading an automatic variable: [None] = never assigned, undefined *)
Definition rdvar (v : option Z) : res Z := match v with Some x => Ok x | None => UB end.
(** mu_bbuf.c:398-405 *)
Definition copy_tail (m : memory) (dst_rw src_ro : bbuf) (dst_idx src_idx : Z) (dst_avail src_avail : option Z)
  : res (Z * memory) :=
  let* sa := rdvar src_avail in
  let* go := (if sa =? 0 then Ok false else let* da := rdvar dst_avail in Ok (negb (da =? 0))) in
  if go : bool then
    let* da := rdvar dst_avail in
    let count := to_int (if sa <? da then sa else da) in
    let* m := copy_loop (Z.to_nat count) m (bytes dst_rw) (bytes src_ro) dst_idx src_idx 0 count in
    Ok (count, m)
  else Ok (0, m).
(** mu_bbuf.c:370-406 with the automatic variables src_avail and dst_avail (lines 377-378)
    starting with the given contents *)
Definition copy_into_from (m : memory) (dst_rw src_ro : bbuf) (offset : Z) (dst_avail src_avail : option Z) : res (Z * memory) :=
  let src_len := mu_bbuf_capacity src_ro in
  let dst_len := mu_bbuf_capacity dst_rw in
  if 0 <? offset then
    let dst_idx := to_size p offset in
    if dst_len <=? dst_idx then Ok (0, m)
    else copy_tail m dst_rw src_ro dst_idx 0 (Some (to_size p (dst_len - dst_idx))) src_avail
  else if offset <? 0 then
    let* no := ichk (- offset) in
    let src_idx := to_size p no in
    if src_len <=? src_idx then Ok (0, m)
    else copy_tail m dst_rw src_ro 0 src_idx dst_avail (Some (to_size p (src_len - src_idx)))
  else copy_tail m dst_rw src_ro 0 0 dst_avail src_avail.
(** mu_bbuf.c:370-406: they are not initialised *)
Definition mu_bbuf_copy_into (m : memory) (dst_rw src_ro : bbuf) (offset : Z) : res (Z * memory) :=
  copy_into_from m dst_rw src_ro offset None None.

(** mu_bbuf.c:412-416; both pointers are in one block, so [<] compares offsets *)
Fixpoint reverse_loop (fuel : nat) (m : memory) (front back : ptr) : res memory :=
  if off front <? off back then
    match fuel with
    | O => NoFuel
    | S f =>
      let* temp := rd m front 0 in
      let* x := rd m back 0 in
      let* m := wr m front 0 x in
      let* front := padd m front 1 in
      let* m := wr m back 0 temp in
      let* back := padd m back (-1) in
      reverse_loop f m front back
    end
  else Ok m.
(** mu_bbuf.c:408-418 *)
Definition mu_bbuf_reverse (m : memory) (b : bbuf) : res memory :=
  let* front := padd m (bytes b) 0 in
  let* back := padd m (bytes b) (to_size p (capacity b - 1)) in
  reverse_loop (Z.to_nat (capacity b)) m front back.

(** mu_bbuf.c:424-426 *)
Fixpoint rot_dec (fuel : nat) (shift cap : Z) : res Z :=
  if cap <=? shift then
    match fuel with O => NoFuel | S f => let* s := isub shift cap in rot_dec f s cap end
  else Ok shift.
(** mu_bbuf.c:427-429 *)
Fixpoint rot_inc (fuel : nat) (shift cap : Z) : res Z :=
  if shift <? 0 then
    match fuel with O => NoFuel | S f => let* s := iadd shift cap in rot_inc f s cap end
  else Ok shift.
(** mu_bbuf.c:420-447.  [fuel] bounds the iterations of each of the two loops.  The
    locals [left] and [right] are structs 1 and 2 (their initial value is irrelevant). *)
Definition mu_bbuf_rrotate (fuel : nat) (m : memory) (b : bbuf) (shift : Z) : res memory :=
  let cap := to_int (capacity b) in
  let* shift := rot_dec fuel shift cap in
  let* shift := rot_inc fuel shift cap in
  if 0 <? shift then
    let* m := mu_bbuf_reverse m b in
    let* e := mu_bbuf_bisect m [b; b; b] (Some 1%nat) (Some 2%nat) 0 shift in
    let* left := sget e 1 in
    let* right := sget e 2 in
    let* m := mu_bbuf_reverse m left in
    mu_bbuf_reverse m right
  else Ok m.

(** mu_bbuf.c:449-477 *)
Definition mu_bbuf_rshift (m : memory) (b : bbuf) (shift : Z) : res memory :=
  let cap := capacity b in
  let* '(shift_left, shift) :=
    (if shift <? 0 then let* s := ichk (- shift) in Ok (true, s) else Ok (false, shift)) in
  if shift =? 0 then Ok m
  else if cap <=? to_size p shift then mu_bbuf_clear m b
  else if shift_left : bool then
    let* q := padd m (bytes b) shift in
    let* m := mmove m (bytes b) q (to_size p (cap - to_size p shift)) in
    let* q := padd m (bytes b) (to_size p (cap - to_size p shift)) in
    mset m q 0 (to_size p shift)
  else
    let* q := padd m (bytes b) shift in
    let* m := mmove m q (bytes b) (to_size p (cap - to_size p shift)) in
    mset m (bytes b) 0 (to_size p shift).
End model.
