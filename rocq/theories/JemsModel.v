(** * Model of mulib/mu_jems.c (all functions).

    Memory passed by the caller ([const char *], [const uint8_t *]) is a list of bytes
    (0..255); reading past its end is UB.  A [char] is represented by its byte, whatever
    the signedness of plain char.  The levels array is a list of structs with possibly
    uninitialised fields ([None]; reading one is UB).  Calls of the user's writer are
    recorded in order in the field [sent]; simplification: the writer does not itself call
    mu_jems functions on the same object.
    snprintf and sprintf are libc: they are modelled by the formats used here ([fmt_d],
    [fmt_04x], [fmt_lf]; glibc's %lf rounds the exact binary value to nearest, ties to even). *)
From Verif Require Import CSem JsonSpec.
From Coq Require Export SpecFloat.
Open Scope Z_scope.

(** mu_jems.h:51-54 mu_jems_level_t *)
Record jlevel := MkLevel { item_count : option Z; is_object : option bool }.
(** mu_jems.h:59-65 mu_jems_t, and the writer calls made so far: (function, char, arg) *)
Record jems := MkJ {
  levels : list jlevel; max_level : Z; curr_level : Z; writer : Z; arg : Z;
  sent : list (Z * Z * Z) }.

(** ** libc *)
(** "%" PRId64 *)
Definition fmt_d (z : Z) : list Z := (if z <? 0 then [ch "-"] else []) ++ dtext (digits (Z.abs z)).
(** %04x of a byte *)
Fixpoint hex_fuel (f : nat) (n : Z) (acc : list Z) : list Z :=
  match f with
  | O => acc
  | S f => if n <? 16 then hexdigit n :: acc else hex_fuel f (n / 16) (hexdigit (n mod 16) :: acc)
  end.
Definition fmt_04x (b : Z) : list Z :=
  let h := hex_fuel 16 b [] in replicate (4 - length h) (ch "0") ++ h.
(** n / d rounded to nearest, ties to even (n >= 0, d > 0) *)
Definition round_half_even (n d : Z) : Z :=
  let q := n / d in let r := n mod d in
  if 2 * r <? d then q else if d <? 2 * r then q + 1 else if Z.even q then q else q + 1.
(** k decimal digits of n (n < 10^k) *)
Fixpoint pad_digits (k : nat) (n : Z) : list Z :=
  match k with O => [] | S k => pad_digits k (n / 10) ++ [n mod 10] end.
(** %lf: sign, integer part, '.', six digits.  [spec_float] is the standard library's
    type of binary floating-point data: S754_finite s m e is (-1)^s * m * 2^e. *)
Definition micro (m : positive) (e : Z) : Z :=   (* m * 2^e * 10^6 rounded to an integer *)
  if 0 <=? e then Z.pos m * 2 ^ e * 10 ^ 6 else round_half_even (Z.pos m * 10 ^ 6) (2 ^ (- e)).
Definition fmt_lf (d : spec_float) : list Z :=
  match d with
  | S754_finite s m e =>
    let q := micro m e in
    (if s then [ch "-"] else []) ++ dtext (digits (q / 10 ^ 6)) ++ ch "." :: dtext (pad_digits 6 (q mod 10 ^ 6))
  | S754_zero s => (if s then [ch "-"] else []) ++ str "0.000000"
  | S754_infinity s => (if s then [ch "-"] else []) ++ str "inf"
  | S754_nan => str "nan"
  end.
(** snprintf(buf, n, ...): the contents of buf up to the terminator *)
Definition snprintf (n : nat) (s : list Z) : list Z := take (n - 1) s ++ [0].
(** sprintf into a buffer of n bytes: overflow is UB *)
Definition sprintf (n : nat) (s : list Z) : res (list Z) :=
  if (length s <? n)%nat then Ok (s ++ [0]) else UB.

(** ** conversions between double and int64_t *)
Definition int64_min : Z := -9223372036854775808.
Definition int64_max : Z := 9223372036854775807.
(** value of a finite double, truncated towards zero *)
Definition trunc (s : bool) (m : positive) (e : Z) : Z :=
  (if s then -1 else 1) * (if 0 <=? e then Z.pos m * 2 ^ e else Z.pos m / 2 ^ (- e)).
(** C11 6.3.1.4: undefined if the integral part is not representable *)
Definition int64_of_double (d : spec_float) : res Z :=
  match d with
  | S754_zero _ => Ok 0
  | S754_finite s m e => chk int64_min int64_max (trunc s m e)
  | S754_infinity _ | S754_nan => UB
  end.
(** (double)i, an integral double given by its value: round to 53 significant bits,
    nearest, ties to even *)
Definition double_of_int64 (i : Z) : Z :=
  let s := Z.log2 (Z.abs i) - 52 in
  if s <=? 0 then i else Z.sgn i * (round_half_even (Z.abs i) (2 ^ s) * 2 ^ s).
(** x == d for an integral double x *)
Definition eq_double (x : Z) (d : spec_float) : bool :=
  match d with
  | S754_zero _ => x =? 0
  | S754_finite s m e =>
    if 0 <=? e then x =? (if s then -1 else 1) * (Z.pos m * 2 ^ e)
    else x * 2 ^ (- e) =? (if s then -1 else 1) * Z.pos m
  | S754_infinity _ | S754_nan => false
  end.

Section model.
Context (p : plat).

(** mu_jems.c:306-308 level_ref, used to read and write the fields *)
Definition set_item_count (j : jems) (n : Z) : res jems :=
  let* l := ld (levels j) (curr_level j) in
  let* ls := st (levels j) (curr_level j) (MkLevel (Some n) (is_object l)) in
  Ok (MkJ ls (max_level j) (curr_level j) (writer j) (arg j) (sent j)).
Definition set_is_object (j : jems) (b : bool) : res jems :=
  let* l := ld (levels j) (curr_level j) in
  let* ls := st (levels j) (curr_level j) (MkLevel (item_count l) (Some b)) in
  Ok (MkJ ls (max_level j) (curr_level j) (writer j) (arg j) (sent j)).
Definition init_read {A} (o : option A) : res A := match o with Some x => Ok x | None => UB end.
Definition get_item_count (j : jems) : res Z :=
  let* l := ld (levels j) (curr_level j) in init_read (item_count l).
Definition get_is_object (j : jems) : res bool :=
  let* l := ld (levels j) (curr_level j) in init_read (is_object l).
Definition set_curr_level (j : jems) (n : Z) : jems :=
  MkJ (levels j) (max_level j) n (writer j) (arg j) (sent j).

(** mu_jems.c:72-77 *)
Definition mu_jems_reset (j : jems) : res jems :=
  let j := set_curr_level j 0 in
  let* j := set_item_count j 0 in
  set_is_object j false.
(** mu_jems.c:62-70; [j] is the (uninitialised) struct: only the record of past writer
    calls survives *)
Definition mu_jems_init (lv : list jlevel) (maxl w a : Z) (j : jems) : res jems :=
  mu_jems_reset (MkJ lv maxl (curr_level j) w a (sent j)).

(** mu_jems.c:241-244 *)
Definition emit_char (j : jems) (c : Z) : jems :=
  MkJ (levels j) (max_level j) (curr_level j) (writer j) (arg j) (sent j ++ [(writer j, c, arg j)]).
(** mu_jems.c:260-265; the list is the memory from [s] on *)
Fixpoint emit_string (j : jems) (s : list Z) : res jems :=
  match s with
  | [] => UB
  | c :: s => if c =? 0 then Ok j else emit_string (emit_char j c) s
  end.
(** mu_jems.c:246-258 *)
Definition emit_quoted_byte (j : jems) (byte : Z) : res jems :=
  if (byte <? 32) || (127 <=? byte) then
    let* buf := sprintf 7 (92 :: ch "u" :: fmt_04x byte) in
    emit_string j buf
  else
    let j := if (byte =? 92) || (byte =? 34) then emit_char j 92 else j in
    Ok (emit_char j byte).
(** mu_jems.c:267-272 *)
Fixpoint emit_quoted_string (j : jems) (s : list Z) : res jems :=
  match s with
  | [] => UB
  | c :: s => if c =? 0 then Ok j else let* j := emit_quoted_byte j c in emit_quoted_string j s
  end.
(** mu_jems.c:274-281: for (int i = 0; i < len; i++), compared in size_t *)
Fixpoint emit_quoted_bytes_loop (f : nat) (j : jems) (i : Z) (bytes : list Z) (len : Z) : res jems :=
  match f with
  | O => NoFuel
  | S f =>
    if to_size p i <? len then
      let* b := ld bytes i in
      let* j := emit_quoted_byte j b in
      let* i := iadd i 1 in
      emit_quoted_bytes_loop f j i bytes len
    else Ok j
  end.
Definition emit_quoted_bytes (j : jems) (bytes : list Z) (len : Z) : res jems :=
  emit_quoted_bytes_loop (S (Z.to_nat len)) j 0 bytes len.

(** mu_jems.c:283-304 *)
Definition commify (j : jems) : res jems :=
  let* count := get_item_count j in
  let* obj := get_is_object j in
  let j :=
    if (obj : bool) then
      if 0 <? count then emit_char j (if Z.odd count then ch ":" else ch ",") else j
    else
      if 0 <? count then emit_char j (ch ",") else j in
  let* n := get_item_count j in
  set_item_count j (to_size p (n + 1)).

(** mu_jems.c:225-232 *)
Definition push_level (j : jems) (obj : bool) : res jems :=
  if curr_level j <? to_size p (max_level j - 1) then
    let j := set_curr_level j (to_size p (curr_level j + 1)) in
    let* j := set_item_count j 0 in
    set_is_object j obj
  else Ok j.
(** mu_jems.c:234-239 *)
Definition pop_level (j : jems) : jems :=
  if 0 <? curr_level j then set_curr_level j (to_size p (curr_level j - 1)) else j.

(** mu_jems.c:79-83, 85-88, 90-94, 96-99 *)
Definition mu_jems_object_open (j : jems) : res jems :=
  let* j := commify j in push_level (emit_char j (ch "{")) true.
Definition mu_jems_object_close (j : jems) : res jems := Ok (pop_level (emit_char j (ch "}"))).
Definition mu_jems_array_open (j : jems) : res jems :=
  let* j := commify j in push_level (emit_char j (ch "[")) false.
Definition mu_jems_array_close (j : jems) : res jems := Ok (pop_level (emit_char j (ch "]"))).
(** mu_jems.c:101-112 *)
Definition mu_jems_number (j : jems) (value : spec_float) : res jems :=
  let* i := int64_of_double value in
  let buf := if eq_double (double_of_int64 i) value then snprintf 22 (fmt_d i) else snprintf 22 (fmt_lf value) in
  let* j := commify j in
  emit_string j buf.
(** mu_jems.c:114-119 *)
Definition mu_jems_integer (j : jems) (value : Z) : res jems :=
  let buf := snprintf 22 (fmt_d value) in
  let* j := commify j in
  emit_string j buf.
(** mu_jems.c:121-126 *)
Definition mu_jems_string (j : jems) (s : list Z) : res jems :=
  let* j := commify j in
  let* j := emit_quoted_string (emit_char j 34) s in
  Ok (emit_char j 34).
(** mu_jems.c:128-133 *)
Definition mu_jems_bytes (j : jems) (bytes : list Z) (len : Z) : res jems :=
  let* j := commify j in
  let* j := emit_quoted_bytes (emit_char j 34) bytes len in
  Ok (emit_char j 34).
(** mu_jems.c:135-153; string constants are followed by their terminator *)
Definition cstr (s : String.string) : list Z := str s ++ [0].
Arguments cstr s%string_scope.
Definition mu_jems_bool (j : jems) (b : bool) : res jems :=
  let* j := commify j in emit_string j (if b then cstr "true" else cstr "false").
Definition mu_jems_true (j : jems) : res jems := let* j := commify j in emit_string j (cstr "true").
Definition mu_jems_false (j : jems) : res jems := let* j := commify j in emit_string j (cstr "false").
Definition mu_jems_null (j : jems) : res jems := let* j := commify j in emit_string j (cstr "null").
(** mu_jems.c:155-163 *)
Fixpoint literal_loop (f : nat) (j : jems) (i : Z) (lit : list Z) (n : Z) : res jems :=
  match f with
  | O => NoFuel
  | S f =>
    if to_size p i <? n then
      let* b := ld lit i in
      let j := emit_char j b in
      let* i := iadd i 1 in
      literal_loop f j i lit n
    else Ok j
  end.
Definition mu_jems_literal (j : jems) (lit : list Z) (n : Z) : res jems :=
  let* j := commify j in literal_loop (S (Z.to_nat n)) j 0 lit n.

(** mu_jems.c:168-214: the key:value variants *)
Definition mu_jems_key_object_open j k := let* j := mu_jems_string j k in mu_jems_object_open j.
Definition mu_jems_key_array_open j k := let* j := mu_jems_string j k in mu_jems_array_open j.
Definition mu_jems_key_number j k d := let* j := mu_jems_string j k in mu_jems_number j d.
Definition mu_jems_key_integer j k z := let* j := mu_jems_string j k in mu_jems_integer j z.
Definition mu_jems_key_string j k s := let* j := mu_jems_string j k in mu_jems_string j s.
Definition mu_jems_key_bytes j k b n := let* j := mu_jems_string j k in mu_jems_bytes j b n.
Definition mu_jems_key_bool j k b := let* j := mu_jems_string j k in mu_jems_bool j b.
Definition mu_jems_key_true j k := let* j := mu_jems_string j k in mu_jems_true j.
Definition mu_jems_key_false j k := let* j := mu_jems_string j k in mu_jems_false j.
Definition mu_jems_key_null j k := let* j := mu_jems_string j k in mu_jems_null j.
Definition mu_jems_key_literal j k l n := let* j := mu_jems_string j k in mu_jems_literal j l n.

(** mu_jems.c:216, 218-220 *)
Definition mu_jems_curr_level (j : jems) : Z := curr_level j.
Definition mu_jems_item_count (j : jems) : res Z := get_item_count j.

(** ** API calls *)
Inductive vcall :=
| CObjectOpen | CArrayOpen
| CNumber (d : spec_float) | CInteger (z : Z) | CString (s : list Z) | CBytes (b : list Z) (len : Z)
| CBool (b : bool) | CTrue | CFalse | CNull | CLiteral (l : list Z) (n : Z).
Inductive call :=
| CVal (v : vcall)                 (* mu_jems_xxx *)
| CKey (k : list Z) (v : vcall)    (* mu_jems_key_xxx *)
| CObjectClose | CArrayClose | CReset.

Definition exec (j : jems) (c : call) : res jems :=
  match c with
  | CVal CObjectOpen => mu_jems_object_open j
  | CVal CArrayOpen => mu_jems_array_open j
  | CVal (CNumber d) => mu_jems_number j d
  | CVal (CInteger z) => mu_jems_integer j z
  | CVal (CString s) => mu_jems_string j s
  | CVal (CBytes b n) => mu_jems_bytes j b n
  | CVal (CBool b) => mu_jems_bool j b
  | CVal CTrue => mu_jems_true j
  | CVal CFalse => mu_jems_false j
  | CVal CNull => mu_jems_null j
  | CVal (CLiteral l n) => mu_jems_literal j l n
  | CKey k CObjectOpen => mu_jems_key_object_open j k
  | CKey k CArrayOpen => mu_jems_key_array_open j k
  | CKey k (CNumber d) => mu_jems_key_number j k d
  | CKey k (CInteger z) => mu_jems_key_integer j k z
  | CKey k (CString s) => mu_jems_key_string j k s
  | CKey k (CBytes b n) => mu_jems_key_bytes j k b n
  | CKey k (CBool b) => mu_jems_key_bool j k b
  | CKey k CTrue => mu_jems_key_true j k
  | CKey k CFalse => mu_jems_key_false j k
  | CKey k CNull => mu_jems_key_null j k
  | CKey k (CLiteral l n) => mu_jems_key_literal j k l n
  | CObjectClose => mu_jems_object_close j
  | CArrayClose => mu_jems_array_close j
  | CReset => mu_jems_reset j
  end.
Fixpoint exec_all (j : jems) (cs : list call) : res jems :=
  match cs with [] => Ok j | c :: cs => let* j := exec j c in exec_all j cs end.
End model.
Arguments cstr s%string_scope.
