(** * A C subset: syntax and meaning.

    This file models no function of mulib.  tools/c2v.py translates the text of the C files of
    /repo, construct by construct, into terms of the syntax below (files Src*.v); this file says
    what running them means.  It covers what mulib uses: integer types and their conversions,
    pointers into objects, structs and unions, assignments and increments as expressions,
    conditionals, loops, calls by name and by pointer.

    Choices and simplifications:
    - int has 32 bits, char is signed, size_t and pointers have the width of the platform;
      conversion to a signed type reduces modulo 2^w (as gcc and clang do); enums are unsigned int;
    - operands are evaluated from left to right, the location assigned to before the value
      (C leaves the order open; no expression of mulib depends on it, except GetIndex / GetCount
      in QueueIsr.v, which is about interrupts);
    - an object is a list of cells, one per scalar (array elements and struct members), so
      offsets count cells instead of bytes; sizeof is only used to count bytes for memmove;
    - a value of pointer type is a location, or a number: NULL is 0, any other number is an
      address the program may store, copy and compare but not follow;
    - const, volatile, static, extern are ignored; the objects of local variables cease to exist
      when the function returns;
    - [?:] gives the promoted type of the operand chosen (in mulib both operands have the same). *)
From stdpp Require Export gmap.
From Coq Require Export String.
From Verif Require Export CSem.
Open Scope string_scope.
Open Scope Z_scope.
Notation length := List.length.

(** ** Types *)
Inductive width := W8 | W16 | W32 | W64.
Inductive ty :=
| Tvoid | Tbool | Tint (signed : bool) (w : width) | Tsize
| Tptr (t : ty) | Tstruct (n : string) | Tarr (t : ty) (n : Z) | Tfn.
Notation int := (Tint true W32).

(** ** Syntax *)
Inductive binop := Add | Sub | Mul | Div | Mod | Shl | Shr | BAnd | BOr | Lt | Gt | Le | Ge | Eq | Ne.
Inductive expr :=
| EInt (z : Z)                                  (* an int constant, also 'c', true, false, NULL *)
| EVar (x : string)                             (* variable or enumerator *)
| ESizeof (t : ty)
| ENeg (e : expr) | ENot (e : expr)
| EBin (o : binop) (e1 e2 : expr)
| EAnd (e1 e2 : expr) | EOr (e1 e2 : expr) | ECond (c e1 e2 : expr)
| EDeref (e : expr)                             (* *e ; a[i] is *(a + i) *)
| EAddr (e : expr)                              (* &e *)
| EField (e : expr) (f : string)                (* e.f ; e->f is ( *e).f *)
| ECast (t : ty) (e : expr)
| EAssign (l e : expr)                          (* l = e *)
| EAssignOp (o : binop) (l e : expr)            (* l o= e *)
| EPre (o : binop) (l : expr) | EPost (o : binop) (l : expr)   (* ++l, --l, l++, l-- *)
| EMemmove (t : ty) (d s n : expr)              (* memmove(d, s, n), n bytes of objects of type t *)
| ECall (f : string) (args : list expr)
| ECallPtr (f : expr) (args : list expr).
Notation EArrow e f := (EField (EDeref e) f).
Notation EIndex a i := (EDeref (EBin Add a i)).
Inductive stmt :=
| SSkip
| SExpr (e : expr)
| SDecl (x : string) (init : option expr)       (* local variable *)
| SSeq (s1 s2 : stmt)
| SIf (c : expr) (s1 s2 : stmt)
| SLoop (c : expr) (step : stmt) (body : stmt)  (* for (; c; step) body; while (c) body *)
| SReturn (e : option expr)
| SBreak | SContinue.

(** locals: variables kept in a register; [fmem]: those whose address is taken, structs, arrays *)
Record fdef := MkF { fname : string; fret : ty; fparams : list (string * ty);
  flocals : list (string * ty); fmem : list (string * ty); fbody : stmt }.
(** a struct member is a list of alternatives (more than one for a union) *)
Record cprog := MkProg {
  structs : list (string * list (list (string * ty)));
  consts : list (string * Z);                   (* enumerators *)
  globals : list (string * (ty * nat));         (* file scope variables: their object *)
  funs : list fdef }.

(** ** Values and memory *)
Inductive val := VI (z : Z) | VP (b : nat) (o : Z) | VU.   (* number, location, indeterminate *)
Record mem := MkMem { heap : gmap nat (list val); next : nat }.
Inductive binding := BReg (t : ty) (v : val) | BMem (t : ty) (b : nat).
Notation env := (list (string * binding)).
Inductive loc := LReg (x : string) | LMem (b : nat) (o : Z).
(** result of an expression: a value, or an object that can be read or assigned to *)
Inductive rv := RVal (v : val) (t : ty) | RLoc (l : loc) (t : ty).

Definition num (v : val) : res Z := match v with VI z => Ok z | _ => UB end.
Definition defined (v : val) : res val := match v with VU => UB | v => Ok v end.
Fixpoint assoc {A} (x : string) (l : list (string * A)) : option A :=
  match l with [] => None | (y, a) :: l => if String.eqb x y then Some a else assoc x l end.
Fixpoint assoc_set {A} (x : string) (a : A) (l : list (string * A)) : list (string * A) :=
  match l with [] => [] | (y, b) :: l => if String.eqb x y then (y, a) :: l else (y, b) :: assoc_set x a l end.
Definition ofopt {A} (o : option A) : res A := match o with Some a => Ok a | None => UB end.

(** ** Integer types *)
Definition modw (w : width) : Z :=
  match w with W8 => 256 | W16 => 65536 | W32 => 4294967296 | W64 => 18446744073709551616 end.
Definition bitsw (w : width) : Z := match w with W8 => 8 | W16 => 16 | W32 => 32 | W64 => 64 end.
Definition leb_w (a b : width) : bool :=
  match a, b with
  | W8, _ | W16, (W16 | W32 | W64) | W32, (W32 | W64) | W64, W64 => true
  | _, _ => false
  end.
Definition promote (t : ty) : ty :=
  match t with Tbool | Tint _ W8 | Tint _ W16 => int | _ => t end.

Section sem.
Context (p : plat).
(** w is not wider than size_t *)
Definition in_size (w : width) : bool := match w with W64 => match p with P32 => false | P64 => true end | _ => true end.
(** usual arithmetic conversions of two promoted types *)
Definition common (t1 t2 : ty) : option ty :=
  match t1, t2 with
  | Tsize, Tsize => Some Tsize
  | Tsize, Tint s w | Tint s w, Tsize => Some (if in_size w then Tsize else Tint s w)
  | Tint s1 w1, Tint s2 w2 =>
      Some (if leb_w w1 w2 then (if leb_w w2 w1 then Tint (s1 && s2) w1 else Tint s2 w2) else Tint s1 w1)
  | _, _ => None
  end.
(** conversion to a type, as if by assignment *)
Definition conv (t : ty) (v : val) : res val :=
  match t with
  | Tptr _ => defined v
  | Tbool => match v with VI z => Ok (VI (if z =? 0 then 0 else 1)) | VP _ _ => Ok (VI 1) | VU => UB end
  | Tint true w => let* z := num v in Ok (VI (wrap_signed (modw w) z))
  | Tint false w => let* z := num v in Ok (VI (z mod modw w))
  | Tsize => let* z := num v in Ok (VI (to_size p z))
  | _ => UB
  end.
(** the result of an arithmetic operation in a (promoted) type *)
Definition arith (t : ty) (z : Z) : res Z :=
  match t with
  | Tsize => Ok (to_size p z)
  | Tint false w => Ok (z mod modw w)
  | Tint true w => chk (- (modw w / 2)) (modw w / 2 - 1) z
  | _ => UB
  end.
Definition unsigned (t : ty) : bool := match t with Tint true _ => false | _ => true end.
Definition bits (t : ty) : Z := match t with Tsize => size_bits p | Tint _ w => bitsw w | _ => 0 end.
Definition truth (b : bool) : val := VI (if b then 1 else 0).
Definition int_op (t : ty) (o : binop) (x y : Z) : res (val * ty) :=
  let num r := let* z := arith t r in Ok (VI z, t) in
  let test b := Ok (truth b, int) in
  match o with
  | Add => num (x + y) | Sub => num (x - y) | Mul => num (x * y)
  | Div => if y =? 0 then UB else num (if unsigned t then x / y else Z.quot x y)
  | Mod => if y =? 0 then UB else if unsigned t then num (x mod y) else let* _ := arith t (Z.quot x y) in num (Z.rem x y)
  | BAnd => num (Z.land x y) | BOr => num (Z.lor x y)
  | Lt => test (x <? y) | Gt => test (y <? x) | Le => test (x <=? y) | Ge => test (y <=? x)
  | Eq => test (x =? y) | Ne => test (negb (x =? y))
  | Shl | Shr => UB (* see [bin_op] *)
  end.

(** ** Memory *)
Context (P : cprog).
Definition slot_size (cells : ty -> Z) (alt : list (string * ty)) : Z :=
  match alt with (_, t) :: _ => cells t | [] => 0 end.
(** cells of a type; [n]: nesting depth of arrays and structs *)
Fixpoint cells_ (n : nat) (t : ty) : Z :=
  match n with
  | O => 1
  | S n =>
    match t with
    | Tarr t k => cells_ n t * k
    | Tstruct s => match assoc s (structs P) with
                   | Some ms => fold_right (fun alt k => slot_size (cells_ n) alt + k) 0 ms
                   | None => 1
                   end
    | _ => 1
    end
  end.
Definition cells (t : ty) : Z := cells_ 5 t.
(** type and cell offset of a member *)
Fixpoint member (f : string) (ms : list (list (string * ty))) (o : Z) : option (ty * Z) :=
  match ms with
  | [] => None
  | alt :: ms => match assoc f alt with Some t => Some (t, o) | None => member f ms (o + slot_size cells alt) end
  end.
(** bytes, for memmove; of a struct: members one after the other, and no padding *)
Fixpoint byte_size_ (n : nat) (t : ty) : Z :=
  match n with
  | O => 1
  | S n =>
    match t with
    | Tbool => 1 | Tint _ w => bitsw w / 8 | Tsize | Tptr _ => ptr_bytes p
    | Tarr t k => byte_size_ n t * k
    | Tstruct s => match assoc s (structs P) with
                   | Some ms => fold_right (fun alt k => slot_size (byte_size_ n) alt + k) 0 ms
                   | None => 1
                   end
    | _ => 1
    end
  end.
Definition byte_size (t : ty) : Z := byte_size_ 5 t.

Definition load_mem (m : mem) (b : nat) (o : Z) : res val :=
  let* c := ofopt (heap m !! b) in ld c o.
Definition store_mem (m : mem) (b : nat) (o : Z) (v : val) : res mem :=
  let* c := ofopt (heap m !! b) in
  let* c := st c o v in Ok (MkMem (<[b := c]> (heap m)) (next m)).
(** memmove inside an object, or between two *)
Definition move_mem (m : mem) (t : ty) (d s : val) (n : Z) : res mem :=
  let k := n / byte_size t * cells t in
  if negb (n mod byte_size t =? 0) then UB else
  match d, s with
  | VP db d, VP sb s =>
    let* cs := ofopt (heap m !! sb) in
    let* cd := ofopt (heap m !! db) in
    if (0 <=? k) && (0 <=? s) && (s + k <=? Z.of_nat (length cs)) && (0 <=? d) && (d + k <=? Z.of_nat (length cd)) then
      Ok (MkMem (<[db := (take (Z.to_nat d) cd ++ take (Z.to_nat k) (drop (Z.to_nat s) cs) ++ drop (Z.to_nat (d + k)) cd)%list]> (heap m)) (next m))
    else UB
  | _, _ => UB
  end.
(** pointer arithmetic stays inside the object or one past its end *)
Definition ptr_add (m : mem) (v : val) (t : ty) (i : Z) : res val :=
  match v with
  | VP b o =>
    let* c := ofopt (heap m !! b) in
    let o := o + i * cells t in
    if (0 <=? o) && (o <=? Z.of_nat (length c)) then Ok (VP b o) else UB
  | _ => UB
  end.
Definition ptr_cmp (o : binop) (v1 v2 : val) : res bool :=
  match o, v1, v2 with
  | Eq, VP b1 o1, VP b2 o2 => Ok (Nat.eqb b1 b2 && (o1 =? o2))
  | Ne, VP b1 o1, VP b2 o2 => Ok (negb (Nat.eqb b1 b2 && (o1 =? o2)))
  | Eq, VI a, VI b => Ok (a =? b)
  | Ne, VI a, VI b => Ok (negb (a =? b))
  | Eq, VP _ _, VI _ | Eq, VI _, VP _ _ => Ok false
  | Ne, VP _ _, VI _ | Ne, VI _, VP _ _ => Ok true
  | Lt, VP b1 o1, VP b2 o2 => if Nat.eqb b1 b2 then Ok (o1 <? o2) else UB
  | Gt, VP b1 o1, VP b2 o2 => if Nat.eqb b1 b2 then Ok (o2 <? o1) else UB
  | Le, VP b1 o1, VP b2 o2 => if Nat.eqb b1 b2 then Ok (o1 <=? o2) else UB
  | Ge, VP b1 o1, VP b2 o2 => if Nat.eqb b1 b2 then Ok (o2 <=? o1) else UB
  | _, _, _ => UB
  end.
Definition is_ptr (t : ty) : bool := match t with Tptr _ => true | _ => false end.
Definition bin_op (m : mem) (o : binop) (v1 : val) (t1 : ty) (v2 : val) (t2 : ty) : res (val * ty) :=
  match t1, t2, o with
  | Tptr t, Tptr _, _ => let* b := ptr_cmp o v1 v2 in Ok (truth b, int)
  | Tptr t, _, (Eq | Ne) => let* b := ptr_cmp o v1 v2 in Ok (truth b, int)     (* with the constant 0 *)
  | Tptr t, _, Add => let* i := num v2 in let* v := ptr_add m v1 t i in Ok (v, t1)
  | Tptr t, _, Sub => let* i := num v2 in let* v := ptr_add m v1 t (- i) in Ok (v, t1)
  | _, Tptr t, Add => let* i := num v1 in let* v := ptr_add m v2 t i in Ok (v, t2)
  | _, _, (Shl | Shr) =>
    let t := promote t1 in
    let* x := num v1 in let* k := num v2 in
    if (0 <=? k) && (k <? bits t) then
      match o with
      | Shl => if x <? 0 then UB else let* z := arith t (x * 2 ^ k) in Ok (VI z, t)
      | _ => Ok (VI (x / 2 ^ k), t)
      end
    else UB
  | _, _, _ =>
    let* t := ofopt (common (promote t1) (promote t2)) in
    let* v1 := conv t v1 in let* v2 := conv t v2 in
    let* x := num v1 in let* y := num v2 in int_op t o x y
  end.
Definition is_true (v : val) : res bool :=
  match v with VI z => Ok (negb (z =? 0)) | VP _ _ => Ok true | VU => UB end.

(** ** Expressions *)
Notation state := (env * mem)%type.
(** a value of a variable, or of an object; an array stands for its first element *)
Definition read (r : rv) (s : state) : res (val * ty) :=
  match r with
  | RVal v t => Ok (v, t)
  | RLoc (LMem b o) (Tarr t _) => Ok (VP b o, Tptr t)
  | RLoc (LMem b o) t => let* v := load_mem (snd s) b o in let* v := defined v in Ok (v, t)
  | RLoc (LReg x) t =>
    match assoc x (fst s) with
    | Some (BReg _ v) => let* v := defined v in Ok (v, t)
    | _ => UB
    end
  end.
(** assignment: the value converted to the type of the object; returns the value stored *)
Definition write (r : rv) (v : val) (s : state) : res (val * ty * state) :=
  match r with
  | RLoc l t =>
    let* v := conv t v in
    match l with
    | LReg x => Ok (v, t, (assoc_set x (BReg t v) (fst s), snd s))
    | LMem b o => let* m := store_mem (snd s) b o v in Ok (v, t, (fst s, m))
    end
  | RVal _ _ => UB
  end.
Definition var (x : string) (e : env) : res rv :=
  match assoc x e with
  | Some (BReg t _) => Ok (RLoc (LReg x) t)
  | Some (BMem t b) => Ok (RLoc (LMem b 0) t)
  | None => match assoc x (globals P) with
            | Some (t, b) => Ok (RLoc (LMem b 0) t)
            | None => match assoc x (consts P) with Some z => Ok (RVal (VI z) int) | None => UB end
            end
  end.

(** how functions are called: by name, or by a value of function pointer type *)
Context (call_name : string -> list val -> mem -> res (val * ty * mem)).
Context (call_val : val -> list val -> mem -> res (val * ty * mem)).

Fixpoint ev (e : expr) (s : state) {struct e} : res (rv * state) :=
  let rval e s := let* '(r, s) := ev e s in let* '(v, t) := read r s in Ok (v, t, s) in
  let args := fix args (l : list expr) (s : state) : res (list val * state) :=
    match l with
    | [] => Ok ([], s)
    | e :: l => let* '(v, t, s) := rval e s in let* '(vs, s) := args l s in Ok (v :: vs, s)
    end in
  let test e s := let* '(v, _, s) := rval e s in let* b := is_true v in Ok (b, s) in
  match e with
  | EInt z => Ok (RVal (VI z) int, s)
  | EVar x => let* r := var x (fst s) in Ok (r, s)
  | ESizeof t => Ok (RVal (VI (byte_size t)) Tsize, s)
  | ENeg e => let* '(v, t, s) := rval e s in let t := promote t in
              let* v := conv t v in let* x := num v in let* z := arith t (- x) in Ok (RVal (VI z) t, s)
  | ENot e => let* '(b, s) := test e s in Ok (RVal (truth (negb b)) int, s)
  | EBin o e1 e2 => let* '(v1, t1, s) := rval e1 s in let* '(v2, t2, s) := rval e2 s in
                    let* '(v, t) := bin_op (snd s) o v1 t1 v2 t2 in Ok (RVal v t, s)
  | EAnd e1 e2 => let* '(b, s) := test e1 s in
                  if b then let* '(b, s) := test e2 s in Ok (RVal (truth b) int, s) else Ok (RVal (VI 0) int, s)
  | EOr e1 e2 => let* '(b, s) := test e1 s in
                 if b then Ok (RVal (VI 1) int, s) else let* '(b, s) := test e2 s in Ok (RVal (truth b) int, s)
  | ECond c e1 e2 => let* '(b, s) := test c s in
                     let* '(v, t, s) := (if b then rval e1 s else rval e2 s) in
                     if is_ptr t then Ok (RVal v t, s)
                     else let* v := conv (promote t) v in Ok (RVal v (promote t), s)
  | EDeref e => let* '(v, t, s) := rval e s in
                match t, v with Tptr t, VP b o => Ok (RLoc (LMem b o) t, s) | _, _ => UB end
  | EAddr e => let* '(r, s) := ev e s in
               match r with RLoc (LMem b o) t => Ok (RVal (VP b o) (Tptr t), s) | _ => UB end
  | EField e f => let* '(r, s) := ev e s in
                  match r with
                  | RLoc (LMem b o) (Tstruct n) =>
                    let* ms := ofopt (assoc n (structs P)) in
                    let* '(t, k) := ofopt (member f ms 0) in Ok (RLoc (LMem b (o + k)) t, s)
                  | _ => UB
                  end
  | ECast t e => let* '(v, _, s) := rval e s in let* v := conv t v in Ok (RVal v t, s)
  | EAssign l e => let* '(r, s) := ev l s in let* '(v, _, s) := rval e s in
                   let* '(v, t, s) := write r v s in Ok (RVal v t, s)
  | EAssignOp o l e => let* '(r, s) := ev l s in let* '(v1, t1) := read r s in let* '(v2, t2, s) := rval e s in
                       let* '(v, t) := bin_op (snd s) o v1 t1 v2 t2 in
                       let* '(v, t, s) := write r v s in Ok (RVal v t, s)
  | EPre o l => let* '(r, s) := ev l s in let* '(v1, t1) := read r s in
                let* '(v, _) := bin_op (snd s) o v1 t1 (VI 1) int in
                let* '(v, t, s) := write r v s in Ok (RVal v t, s)
  | EPost o l => let* '(r, s) := ev l s in let* '(v1, t1) := read r s in
                 let* '(v, _) := bin_op (snd s) o v1 t1 (VI 1) int in
                 let* '(_, t, s) := write r v s in Ok (RVal v1 t, s)
  | EMemmove t d q n =>
    let* '(vd, _, s) := rval d s in let* '(vq, _, s) := rval q s in let* '(vn, _, s) := rval n s in
    let* vn := conv Tsize vn in let* n := num vn in
    let* m := move_mem (snd s) t vd vq n in Ok (RVal vd (Tptr Tvoid), (fst s, m))
  | ECall f l =>
    let* '(vs, s) := args l s in
    match assoc f (fst s), assoc f (globals P) with
    | Some (BReg _ v), _ => let* '(v, t, m) := call_val v vs (snd s) in Ok (RVal v t, (fst s, m))
    | _, Some (t, b) => let* '(v, _) := read (RLoc (LMem b 0) t) s in
                        let* '(v, t, m) := call_val v vs (snd s) in Ok (RVal v t, (fst s, m))
    | _, _ => let* '(v, t, m) := call_name f vs (snd s) in Ok (RVal v t, (fst s, m))
    end
  | ECallPtr f l =>
    let* '(v, _, s) := rval f s in let* '(vs, s) := args l s in
    let* '(v, t, m) := call_val v vs (snd s) in Ok (RVal v t, (fst s, m))
  end.
Definition rval (e : expr) (s : state) : res (val * ty * state) :=
  let* '(r, s) := ev e s in let* '(v, t) := read r s in Ok (v, t, s).
Definition test (e : expr) (s : state) : res (bool * state) :=
  let* '(v, _, s) := rval e s in let* b := is_true v in Ok (b, s).

(** ** Statements *)
Inductive outcome := Next | Broke | Continued | Returned (v : val) (t : ty).
(** at most [n] iterations *)
Fixpoint loop (n : nat) (c : state -> res (bool * state)) (body step : state -> res (outcome * state)) (s : state) : res (outcome * state) :=
  match n with
  | O => NoFuel
  | S n =>
    let* '(b, s) := c s in
    if b then
      let* '(o, s) := body s in
      match o with
      | Next | Continued => let* '(_, s) := step s in loop n c body step s
      | Broke => Ok (Next, s)
      | Returned v t => Ok (Returned v t, s)
      end
    else Ok (Next, s)
  end.
Context (fuel : nat).
Fixpoint exec (c : stmt) (s : state) {struct c} : res (outcome * state) :=
  match c with
  | SSkip => Ok (Next, s)
  | SExpr e => let* '(_, s) := ev e s in Ok (Next, s)
  | SDecl x None =>
    match assoc x (fst s) with
    | Some (BReg t _) => Ok (Next, (assoc_set x (BReg t VU) (fst s), snd s))
    | _ => Ok (Next, s)
    end
  | SDecl x (Some e) =>
    let* '(v, _, s) := rval e s in let* r := var x (fst s) in
    let* '(_, _, s) := write r v s in Ok (Next, s)
  | SSeq c1 c2 => let* '(o, s) := exec c1 s in match o with Next => exec c2 s | o => Ok (o, s) end
  | SIf e c1 c2 => let* '(b, s) := test e s in if b then exec c1 s else exec c2 s
  | SLoop e step body => loop fuel (test e) (exec body) (exec step) s
  | SReturn None => Ok (Returned (VI 0) Tvoid, s)
  | SReturn (Some e) => let* '(v, t, s) := rval e s in Ok (Returned v t, s)
  | SBreak => Ok (Broke, s)
  | SContinue => Ok (Continued, s)
  end.

(** parameters are converted to their types *)
Fixpoint bind_params (ps : list (string * ty)) (vs : list val) : res env :=
  match ps, vs with
  | [], [] => Ok []
  | (x, t) :: ps, v :: vs => let* v := conv t v in let* e := bind_params ps vs in Ok ((x, BReg t v) :: e)
  | _, _ => UB
  end.
(** objects of the local variables kept in memory *)
Fixpoint alloc (l : list (string * ty)) (m : mem) : env * mem :=
  match l with
  | [] => ([], m)
  | (x, t) :: l =>
    let b := next m in
    let '(e, m) := alloc l (MkMem (<[b := replicate (Z.to_nat (cells t)) VU]> (heap m)) (S b)) in
    ((x, BMem t b) :: e, m)
  end.
Definition free (e : env) (m : mem) : mem :=
  fold_right (fun x m => match snd x with BMem _ b => MkMem (delete b (heap m)) (next m) | _ => m end) m e.
(** leaving a function: its local objects cease to exist, the value returned is converted *)
Definition finish (t : ty) (ms : env) (r : res (outcome * state)) : res (val * ty * mem) :=
  let* '(o, s) := r in
  let m := free ms (snd s) in
  match o, t with
  | Returned v _, Tvoid => Ok (VI 0, Tvoid, m)
  | Returned v _, t => let* v := conv t v in Ok (v, t, m)
  | Next, Tvoid => Ok (VI 0, Tvoid, m)
  | Next, t => Ok (VU, t, m)
  | _, _ => UB
  end.
Definition run_fun (f : fdef) (vs : list val) (m : mem) : res (val * ty * mem) :=
  let* ps := bind_params (fparams f) vs in
  let '(ms, m) := alloc (fmem f) m in
  finish (fret f) ms (exec (fbody f) (ps ++ map (fun x => (fst x, BReg (snd x) VU)) (flocals f) ++ ms, m)%list).
End sem.

(** ** Programs *)
Section program.
Context (p : plat) (P : cprog) (fuel : nat).
(** functions that are not part of the program: the user's, and those of the C library *)
Context (ext : string -> list val -> mem -> res (val * ty * mem)).
Context (ext_ptr : val -> list val -> mem -> res (val * ty * mem)).
Fixpoint find_fun (x : string) (l : list fdef) : option fdef :=
  match l with [] => None | f :: l => if String.eqb x (fname f) then Some f else find_fun x l end.
(** [depth]: how deep calls may nest *)
Fixpoint call (depth : nat) (x : string) (vs : list val) (m : mem) : res (val * ty * mem) :=
  match find_fun x (funs P) with
  | Some f => match depth with
              | O => NoFuel
              | S d => run_fun p P (call d) ext_ptr fuel f vs m
              end
  | None => ext x vs m
  end.
End program.
Arguments call : simpl never.
Lemma call_S p P fuel ext ext_ptr d x f vs m : find_fun x (funs P) = Some f ->
  call p P fuel ext ext_ptr (S d) x vs m = run_fun p P (call p P fuel ext ext_ptr d) ext_ptr fuel f vs m.
Proof. intros H. unfold call; fold call. rewrite H. reflexivity. Qed.
