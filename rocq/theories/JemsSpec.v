(** * Specification vocabulary for mu_jems: which calls describe which JSON value, which
    arguments are legal, nesting. *)
From Verif Require Import CSem JsonSpec JemsModel.
From Coq Require Export QArith Qabs.
Open Scope Z_scope.

(** ** Legal arguments *)
Definition byte (b : Z) : Prop := 0 <= b < 256.
(** [mem] starts with the NUL-terminated string [s] *)
Definition cstring (mem s : list Z) : Prop :=
  Forall (fun b => 1 <= b < 256) s /\ exists rest, mem = s ++ 0 :: rest.
Definition buffer (mem : list Z) (len : Z) : Prop :=
  Forall byte mem /\ 0 <= len <= Z.of_nat (length mem) /\ len <= int_max.

(** ** Doubles *)
Definition double (d : spec_float) : Prop := valid_binary 53 1024 d = true.
Definition finite (d : spec_float) : Prop :=
  match d with S754_zero _ | S754_finite _ _ _ => True | _ => False end.
(** the exact value of a finite double *)
Definition dq (d : spec_float) : Q :=
  match d with
  | S754_finite s m e =>
    let sm := if s then Z.neg m else Z.pos m in
    if 0 <=? e then inject_Z (sm * 2 ^ e) else sm # Z.to_pos (2 ^ (- e))
  | _ => 0%Q
  end.
Definition negative (d : spec_float) : bool :=
  match d with S754_finite s _ _ => s | _ => false end.
Definition int64 (z : Z) : Prop := -9223372036854775808 <= z <= 9223372036854775807.
(** the conversion to int64_t is defined *)
Definition convertible (d : spec_float) : Prop :=
  finite d /\ (inject_Z (-9223372036854775809) < dq d)%Q /\ (dq d < inject_Z 9223372036854775808)%Q.
(** value of a number literal *)
Definition num_q (n : jnum) : Q :=
  let k := Z.of_nat (length (nfrac n)) in
  (if nneg n then -1 else 1) * (nint n * 10 ^ k + dval (nfrac n)) # Z.to_pos (10 ^ k).

(** [q] is the integer nearest to [x]; ties go to the even one *)
Definition nearest (x : Q) (q : Z) : Prop :=
  (Qabs (x - inject_Z q) <= 1 # 2)%Q /\ ((Qabs (x - inject_Z q) == 1 # 2)%Q -> Z.even q = true).
(** How mu_jems_number shows a double: an integer as an integer, anything else rounded to
    six decimals, of which those are kept that fit, together with the sign and the integer
    part, in 21 characters. *)
Definition shows (d : spec_float) (n : jnum) : Prop :=
  (exists z, int64 z /\ (dq d == inject_Z z)%Q /\ n = int_num z) \/
  ((forall z, ~ (dq d == inject_Z z)%Q) /\
   exists q sixd, nearest (Qabs (dq d) * inject_Z (10 ^ 6)) q /\
     length sixd = 6%nat /\ Forall digit sixd /\ dval sixd = q mod 10 ^ 6 /\
     let room := (20 - length (dtext (digits (q / 10 ^ 6))) - (if negative d then 1 else 0))%nat in
     n = MkNum (negative d) (q / 10 ^ 6) (take room sixd) 0).

Definition vcall_ok (c : vcall) : Prop :=
  match c with
  | CNumber d => double d /\ convertible d
  | CInteger z => int64 z
  | CString mem => exists s, cstring mem s
  | CBytes mem len | CLiteral mem len => buffer mem len
  | _ => True
  end.
Definition call_ok (c : call) : Prop :=
  match c with
  | CVal v => vcall_ok v
  | CKey mem v => (exists k, cstring mem k) /\ vcall_ok v
  | _ => True
  end.

(** ** Which calls describe a JSON value.  Strings are given as bytes; their value is the
    sequence of code units equal to the bytes. *)
Inductive describes : json -> list call -> Prop :=
| d_null : describes JNull [CVal CNull]
| d_bool b : describes (JBool b) [CVal (CBool b)]
| d_true : describes (JBool true) [CVal CTrue]
| d_false : describes (JBool false) [CVal CFalse]
| d_integer z : int64 z -> describes (JNum (int_num z)) [CVal (CInteger z)]
| d_number d n : double d -> convertible d -> shows d n -> describes (JNum n) [CVal (CNumber d)]
| d_string mem s : cstring mem s -> describes (JStr s) [CVal (CString mem)]
| d_bytes mem len : buffer mem len -> describes (JStr (take (Z.to_nat len) mem)) [CVal (CBytes mem len)]
| d_array l cs : describes_list l cs -> describes (JArr l) (CVal CArrayOpen :: cs ++ [CArrayClose])
| d_object l cs : describes_members l cs -> describes (JObj l) (CVal CObjectOpen :: cs ++ [CObjectClose])
with describes_list : list json -> list call -> Prop :=
| dl_nil : describes_list [] []
| dl_cons v cv l cs : describes v cv -> describes_list l cs -> describes_list (v :: l) (cv ++ cs)
with describes_members : list (list Z * json) -> list call -> Prop :=
| dm_nil : describes_members [] []
  (* the key as a string item, then the value *)
| dm_two k ck v cv l cs : describes (JStr k) ck -> describes v cv -> describes_members l cs ->
    describes_members ((k, v) :: l) (ck ++ cv ++ cs)
  (* the mu_jems_key_xxx function *)
| dm_key mem k v c cv l cs : cstring mem k -> describes v (CVal c :: cv) -> describes_members l cs ->
    describes_members ((k, v) :: l) (CKey mem c :: cv ++ cs).
Scheme describes_ind' := Minimality for describes Sort Prop
  with describes_list_ind' := Minimality for describes_list Sort Prop
  with describes_members_ind' := Minimality for describes_members Sort Prop.
Combined Scheme describes_mut from describes_ind', describes_list_ind', describes_members_ind'.

(** no container has more items (keys and values count separately) than size_t can count *)
Inductive narrow (p : plat) : json -> Prop :=
| n_null : narrow p JNull
| n_bool b : narrow p (JBool b)
| n_num n : narrow p (JNum n)
| n_str s : narrow p (JStr s)
| n_arr l : Z.of_nat (length l) <= size_mod p -> Forall (narrow p) l -> narrow p (JArr l)
| n_obj l : 2 * Z.of_nat (length l) <= size_mod p -> Forall (fun kv => narrow p (snd kv)) l -> narrow p (JObj l).

(** ** Nesting as the caller sees it: the open containers, innermost first, each with its
    kind (object or not) and the number of items emitted in it; the last one is the top
    level.  A key_xxx call emits two items. *)
Notation container := (bool * Z)%type.
Definition one_more (st : list container) : list container :=
  match st with (b, n) :: st => (b, n + 1) :: st | [] => [] end.
Definition opened (v : vcall) (st : list container) : list container :=
  match v with CObjectOpen => (true, 0) :: st | CArrayOpen => (false, 0) :: st | _ => st end.
Definition track1 (st : list container) (c : call) : list container :=
  match c with
  | CVal v => opened v (one_more st)
  | CKey _ v => opened v (one_more (one_more st))
  | CObjectClose | CArrayClose => match st with _ :: (_ :: _) as st' => tail st | _ => st end
  | CReset => [(false, 0)]
  end.
Definition track (cs : list call) : list container := fold_left track1 cs [(false, 0)].
(** the nesting never exceeds [n] levels, the top level included *)
Definition fits (n : Z) (cs : list call) : Prop :=
  forall k, Z.of_nat (length (track (take k cs))) <= n.
(** the separator due before the next item *)
Definition separator (b : bool) (n : Z) : list Z :=
  if 0 <? n then [if b && Z.odd n then ch ":" else ch ","] else [].
