(** * JSON (RFC 8259): values, grammar, compact texts.

    A specification file: nothing here models mulib.  A text is a list of Unicode code
    points (numbers); ASCII characters are written [ch "x"]. *)
From Verif Require Import CSem.
From Coq Require Ascii String.
Export Ascii.AsciiSyntax String.StringSyntax.
Open Scope Z_scope.

Definition ch (a : Ascii.ascii) : Z := Z.of_N (Ascii.N_of_ascii a).
Definition str (s : String.string) : list Z := map ch (String.list_ascii_of_string s).

Arguments ch a%char_scope.
Arguments str s%string_scope.

(** ** Values *)
(** A number literal: sign, integer part, fraction digits, exponent: ±int.frac * 10^exp *)
Record jnum := MkNum { nneg : bool; nint : Z; nfrac : list Z; nexp : Z }.
(** Strings are sequences of UTF-16 code units (as in ECMAScript). *)
Inductive json :=
| JNull
| JBool (b : bool)
| JNum (n : jnum)
| JStr (s : list Z)
| JArr (l : list json)
| JObj (l : list (list Z * json)).

(** ** Grammar *)
Definition ws (t : list Z) : Prop := Forall (fun c => c = 32 \/ c = 9 \/ c = 10 \/ c = 13) t.

Definition digit (d : Z) : Prop := 0 <= d <= 9.
Definition dtext (ds : list Z) : list Z := map (fun d => d + 48) ds.
(** value of a digit sequence, most significant first *)
Definition dval (ds : list Z) : Z := fold_left (fun a d => 10 * a + d) ds 0.

Definition int_part (n : Z) (t : list Z) : Prop :=
  exists ds, Forall digit ds /\ ds <> [] /\ (ds = [0] \/ head ds <> Some 0) /\ n = dval ds /\ t = dtext ds.
Definition frac_part (fr : list Z) (t : list Z) : Prop :=
  (fr = [] /\ t = []) \/ (fr <> [] /\ Forall digit fr /\ t = ch "." :: dtext fr).
Definition exp_part (e : Z) (t : list Z) : Prop :=
  (e = 0 /\ t = []) \/
  exists c ds, (c = ch "e" \/ c = ch "E") /\ ds <> [] /\ Forall digit ds /\
    ((e = dval ds /\ (t = c :: dtext ds \/ t = c :: ch "+" :: dtext ds)) \/
     (e = - dval ds /\ t = c :: ch "-" :: dtext ds)).
Definition number (n : jnum) (t : list Z) : Prop :=
  exists ti tf te, int_part (nint n) ti /\ frac_part (nfrac n) tf /\ exp_part (nexp n) te /\
    t = (if nneg n then [ch "-"] else []) ++ ti ++ tf ++ te.

(** UTF-16 encoding of a code point *)
Definition utf16 (c : Z) : list Z :=
  if c <? 65536 then [c] else [55296 + (c - 65536) / 1024; 56320 + (c - 65536) mod 1024].
Definition hexval (c : Z) : option Z :=
  if (48 <=? c) && (c <=? 57) then Some (c - 48)            (* 0-9 *)
  else if (97 <=? c) && (c <=? 102) then Some (c - 97 + 10)  (* a-f *)
  else if (65 <=? c) && (c <=? 70) then Some (c - 65 + 10)   (* A-F *)
  else None.
Definition esc : list (Z * Z) :=
  [(34, 34); (92, 92); (47, 47); (ch "b", 8); (ch "f", 12); (ch "n", 10); (ch "r", 13); (ch "t", 9)].
Inductive jchar : list Z -> list Z -> Prop :=
| c_plain c : 32 <= c <= 1114111 -> c <> 34 -> c <> 92 -> jchar (utf16 c) [c]
| c_esc c u : In (c, u) esc -> jchar [u] [92; c]
| c_u a b c d x y z w : hexval a = Some x -> hexval b = Some y -> hexval c = Some z -> hexval d = Some w ->
    jchar [((x * 16 + y) * 16 + z) * 16 + w] [92; ch "u"; a; b; c; d].
Inductive jchars : list Z -> list Z -> Prop :=
| cs_nil : jchars [] []
| cs_cons u t us ts : jchar u t -> jchars us ts -> jchars (u ++ us) (t ++ ts).
Inductive jstring : list Z -> list Z -> Prop :=
| s_intro us ts : jchars us ts -> jstring us (34 :: ts ++ [34]).

Inductive jvalue : json -> list Z -> Prop :=
| v_null : jvalue JNull (str "null")
| v_true : jvalue (JBool true) (str "true")
| v_false : jvalue (JBool false) (str "false")
| v_num n t : number n t -> jvalue (JNum n) t
| v_str s t : jstring s t -> jvalue (JStr s) t
| v_arr0 w : ws w -> jvalue (JArr []) (ch "[" :: w ++ [ch "]"])
| v_arr l t : elements l t -> jvalue (JArr l) (ch "[" :: t ++ [ch "]"])
| v_obj0 w : ws w -> jvalue (JObj []) (ch "{" :: w ++ [ch "}"])
| v_obj l t : members l t -> jvalue (JObj l) (ch "{" :: t ++ [ch "}"])
with elements : list json -> list Z -> Prop :=
| e_one v t w1 w2 : jvalue v t -> ws w1 -> ws w2 -> elements [v] (w1 ++ t ++ w2)
| e_cons v t w1 w2 l ts : jvalue v t -> ws w1 -> ws w2 -> elements l ts ->
    elements (v :: l) (w1 ++ t ++ w2 ++ ch "," :: ts)
with members : list (list Z * json) -> list Z -> Prop :=
| m_one k tk v t w1 w2 w3 w4 : jstring k tk -> jvalue v t -> ws w1 -> ws w2 -> ws w3 -> ws w4 ->
    members [(k, v)] (w1 ++ tk ++ w2 ++ ch ":" :: w3 ++ t ++ w4)
| m_cons k tk v t w1 w2 w3 w4 l ts : jstring k tk -> jvalue v t -> ws w1 -> ws w2 -> ws w3 -> ws w4 ->
    members l ts ->
    members ((k, v) :: l) (w1 ++ tk ++ w2 ++ ch ":" :: w3 ++ t ++ w4 ++ ch "," :: ts).
Scheme jvalue_ind' := Minimality for jvalue Sort Prop
  with elements_ind' := Minimality for elements Sort Prop
  with members_ind' := Minimality for members Sort Prop.
Combined Scheme jvalue_mut from jvalue_ind', elements_ind', members_ind'.

(** [t] is a JSON text for the value [v] *)
Definition json_text (v : json) (t : list Z) : Prop :=
  exists w1 tv w2, ws w1 /\ jvalue v tv /\ ws w2 /\ t = w1 ++ tv ++ w2.

(** ** The compact text of a value *)
(** decimal digits of a natural number, most significant first, without leading zeros *)
Fixpoint digits_fuel (f : nat) (n : Z) (acc : list Z) : list Z :=
  match f with
  | O => n :: acc
  | S f => if n <? 10 then n :: acc else digits_fuel f (n / 10) (n mod 10 :: acc)
  end.
Definition digits (n : Z) : list Z := digits_fuel (Z.to_nat (Z.log2 n)) n [].
Definition num_text (n : jnum) : list Z :=
  (if nneg n then [ch "-"] else []) ++ dtext (digits (nint n)) ++
  (match nfrac n with [] => [] | fr => ch "." :: dtext fr end).
Definition int_num (z : Z) : jnum := MkNum (z <? 0) (Z.abs z) [] 0.

Definition hexdigit (x : Z) : Z := if x <? 10 then 48 + x else 97 + (x - 10).
(** printable ASCII as itself, quote and backslash escaped, everything else as \uXXXX *)
Definition quote_unit (u : Z) : list Z :=
  if decide (u = 34 \/ u = 92) then [92; u]
  else if decide (32 <= u < 127) then [u]
  else [92; ch "u"; hexdigit (u / 4096 mod 16); hexdigit (u / 256 mod 16); hexdigit (u / 16 mod 16); hexdigit (u mod 16)].
Definition str_text (s : list Z) : list Z := 34 :: concat (map quote_unit s) ++ [34].

(** the elements separated by commas *)
Fixpoint commas (l : list (list Z)) : list Z :=
  match l with [] => [] | [t] => t | t :: l => t ++ ch "," :: commas l end.
Fixpoint text (v : json) : list Z :=
  match v with
  | JNull => str "null"
  | JBool true => str "true"
  | JBool false => str "false"
  | JNum n => num_text n
  | JStr s => str_text s
  | JArr l => ch "[" :: commas (map text l) ++ [ch "]"]
  | JObj l => ch "{" :: commas (map (fun kv => str_text (fst kv) ++ ch ":" :: text (snd kv)) l) ++ [ch "}"]
  end.

(** ** Measures *)
Fixpoint depth (v : json) : nat :=
  match v with
  | JArr l => S (fold_right Nat.max 0%nat (map depth l))
  | JObj l => S (fold_right Nat.max 0%nat (map (fun kv => depth (snd kv)) l))
  | _ => 0%nat
  end.
(** well-formed values: digits are digits, strings are code units *)
Definition wf_num (n : jnum) : Prop := 0 <= nint n /\ Forall digit (nfrac n) /\ nexp n = 0.
Definition wf_str (s : list Z) : Prop := Forall (fun u => 0 <= u < 65536) s.
Inductive wf_json : json -> Prop :=
| wf_null : wf_json JNull
| wf_bool b : wf_json (JBool b)
| wf_jnum n : wf_num n -> wf_json (JNum n)
| wf_jstr s : wf_str s -> wf_json (JStr s)
| wf_arr l : Forall wf_json l -> wf_json (JArr l)
| wf_obj l : Forall (fun kv => wf_str (fst kv) /\ wf_json (snd kv)) l -> wf_json (JObj l).

Section ind.
Context (P : json -> Prop).
Context (Hn : P JNull) (Hb : forall b, P (JBool b)) (Hnum : forall n, P (JNum n)) (Hs : forall s, P (JStr s)).
Context (Ha : forall l, Forall P l -> P (JArr l)) (Ho : forall l, Forall (fun kv => P (snd kv)) l -> P (JObj l)).
Fixpoint json_ind' (v : json) : P v :=
  match v with
  | JNull => Hn
  | JBool b => Hb b
  | JNum n => Hnum n
  | JStr s => Hs s
  | JArr l => Ha l ((fix go (l : list json) : Forall P l :=
      match l with [] => Forall_nil_2 _ | v :: l => Forall_cons_2 _ _ _ (json_ind' v) (go l) end) l)
  | JObj l => Ho l ((fix go (l : list (list Z * json)) : Forall (fun kv => P (snd kv)) l :=
      match l with [] => Forall_nil_2 _ | kv :: l => Forall_cons_2 _ _ _ (json_ind' (snd kv)) (go l) end) l)
  end.
End ind.

Example text_example : text (JObj [(str "a", JArr [JNum (int_num (-12)); JNull]); (str "b", JStr [34; 233])]) =
  str "{""a"":[-12,null],""b"":""\""\u00e9""}".
Proof. reflexivity. Qed.
