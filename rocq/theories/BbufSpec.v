(** * Specification vocabulary for mu_bbuf: what "a buffer with contents l" means and
    the list-level meaning of each operation.  Only the pointer/struct types and the
    constants come from the model. *)
From Verif Require Import CSem BbufModel.

Definition is_byte (x : Z) : Prop := 0 <= x < 256.
(** every memory cell holds a byte *)
Definition mem_bytes (m : memory) : Prop := Forall (Forall is_byte) m.

(** [b] is a buffer of at most INT_MAX bytes with contents [l], lying in a C object
    between the bytes [pre] and [post] *)
Definition buf_at (m : memory) (b : bbuf) (pre l post : list Z) : Prop :=
  m !! blk (bytes b) = Some (pre ++ l ++ post) /\
  off (bytes b) = Z.of_nat (length pre) /\
  capacity b = Z.of_nat (length l) /\
  Z.of_nat (length l) <= int_max.

(** some buffer with contents [l] *)
Definition buf (m : memory) (b : bbuf) (l : list Z) : Prop := exists pre post, buf_at m b pre l post.

(** [q] points to a NUL-terminated string [s] (at most INT_MAX characters) *)
Definition cstr_at (m : memory) (q : ptr) (s : list Z) : Prop :=
  exists pre post, m !! blk q = Some (pre ++ s ++ 0 :: post) /\
    off q = Z.of_nat (length pre) /\ Forall (fun c => c <> 0) s /\ Z.of_nat (length s) <= int_max.

(** memory after the contents of [b] (preceded by [pre], followed by [post] in its
    object) have become [l]; all other objects unchanged *)
Definition with_contents (m : memory) (b : bbuf) (pre l post : list Z) : memory :=
  <[blk (bytes b) := pre ++ l ++ post]> m.

(** [b'] is the part of the buffer [b] (contents [l], between [pre] and [post]) which
    starts after the first bytes [l1] and ends before the last bytes [l2] *)
Definition part_of (m : memory) (b : bbuf) (pre post : list Z) (b' : bbuf) (l1 l' l2 : list Z) : Prop :=
  blk (bytes b') = blk (bytes b) /\ buf_at m b' (pre ++ l1) l' (l2 ++ post).

(** lexicographic order on byte strings, a proper prefix being smaller *)
Inductive lex_lt : list Z -> list Z -> Prop :=
| lex_nil y l : lex_lt [] (y :: l)
| lex_head x y l1 l2 : x < y -> lex_lt (x :: l1) (y :: l2)
| lex_tail x l1 l2 : lex_lt l1 l2 -> lex_lt (x :: l1) (x :: l2).

(** [s] occurs in [l] at index [i] *)
Definition occurs_at (s l : list Z) (i : Z) : Prop :=
  exists l1 l2, l = l1 ++ s ++ l2 /\ i = Z.of_nat (length l1).

(** a Python-style index: negative counts from the end, too large is the end *)
Definition norm_index (n i : Z) : Z := if decide (i < 0) then n + i else Z.min i n.

Definition slice_of (l : list Z) (s e : Z) : list Z :=
  take (Z.to_nat (e - s)) (drop (Z.to_nat s) l).

(** removal of the longest prefix / suffix satisfying a predicate *)
Fixpoint drop_while (pred : Z -> bool) (l : list Z) : list Z :=
  match l with x :: l' => if pred x then drop_while pred l' else l | [] => [] end.
Fixpoint take_while (pred : Z -> bool) (l : list Z) : list Z :=
  match l with x :: l' => if pred x then x :: take_while pred l' else [] | [] => [] end.
Definition drop_while_end (pred : Z -> bool) (l : list Z) : list Z := reverse (drop_while pred (reverse l)).

(** positional value of a digit string *)
Definition digit (c : Z) : bool := (48 <=? c) && (c <=? 57).
Definition decimal_value (ds : list Z) : Z := fold_left (fun v c => v * 10 + (c - 48)) ds 0.

Definition hex_value1 (c : Z) : option Z :=
  if digit c then Some (c - 48)
  else if (97 <=? c) && (c <=? 102) then Some (c - 97 + 10)
  else if (65 <=? c) && (c <=? 70) then Some (c - 65 + 10)
  else None.
Definition hex_digit (c : Z) : bool := match hex_value1 c with Some _ => true | None => false end.
Definition hex_value (ds : list Z) : Z :=
  fold_left (fun v c => v * 16 + match hex_value1 c with Some d => d | None => 0 end) ds 0.

(** the sign and the digits of a signed decimal *)
Definition magnitude (l : list Z) : Z :=
  match l with
  | c :: l' => if c =? 45 then decimal_value (take_while digit l') else decimal_value (take_while digit l)
  | [] => 0
  end.
Definition signed_value (l : list Z) : Z :=
  match l with c :: _ => if c =? 45 then - magnitude l else magnitude l | [] => 0 end.

(** [r] is the least / greatest index of an element of [l] satisfying [P], or NOT_FOUND *)
Definition first_index (P : Z -> Prop) (l : list Z) (r : Z) : Prop :=
  (exists i x, l !! i = Some x /\ P x /\ (forall j y, (j < i)%nat -> l !! j = Some y -> ~ P y) /\ r = Z.of_nat i) \/
  ((forall j y, l !! j = Some y -> ~ P y) /\ r = MU_BBUF_NOT_FOUND).
Definition last_index (P : Z -> Prop) (l : list Z) (r : Z) : Prop :=
  (exists i x, l !! i = Some x /\ P x /\ (forall j y, (i < j)%nat -> l !! j = Some y -> ~ P y) /\ r = Z.of_nat i) \/
  ((forall j y, l !! j = Some y -> ~ P y) /\ r = MU_BBUF_NOT_FOUND).

(** [l'] is [l] rotated right by [s] (indices modulo the length) *)
Definition rotated (l l' : list Z) (s : Z) : Prop :=
  length l' = length l /\
  forall i x, l !! i = Some x -> l' !! Z.to_nat ((Z.of_nat i + s) mod Z.of_nat (length l)) = Some x.

(** [l'] is [l] shifted right by [s] (left if negative), zero filled *)
Definition shifted (l l' : list Z) (s : Z) : Prop :=
  length l' = length l /\
  forall i : nat, (i < length l)%nat ->
    l' !! i = if decide (0 <= Z.of_nat i - s < Z.of_nat (length l)) then l !! Z.to_nat (Z.of_nat i - s) else Some 0.
