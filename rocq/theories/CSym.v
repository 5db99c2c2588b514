(** * Symbolic execution of CLang programs: equations and tactics used by the proofs about the
    translated source (Src*.v).  No definitions of the model are here. *)
From Verif Require Export CLang.
Open Scope string_scope.
Open Scope Z_scope.

Section eqs.
Context (p : plat) (P : cprog) (cn : string -> list val -> mem -> res (val * ty * mem))
  (cv : val -> list val -> mem -> res (val * ty * mem)) (fuel : nat).
Notation ev := (ev p P cn cv).
Notation rval := (rval p P cn cv).
Notation test := (test p P cn cv).
Notation exec := (exec p P cn cv fuel).
Notation state := (env * mem)%type.
Implicit Types (s : state) (e : expr).

Fixpoint args (l : list expr) (s : state) : res (list val * state) :=
  match l with
  | [] => Ok ([], s)
  | e :: l => let* '(v, t, s) := rval e s in let* '(vs, s) := args l s in Ok (v :: vs, s)
  end.
Lemma args_nil s : args [] s = Ok ([], s). Proof. done. Qed.
Lemma args_cons e l s : args (e :: l) s = let* '(v, t, s) := rval e s in let* '(vs, s) := args l s in Ok (v :: vs, s).
Proof. done. Qed.
Lemma ev_EInt z s : ev (EInt z) s = Ok (RVal (VI z) int, s). Proof. done. Qed.
Lemma ev_EVar x s : ev (EVar x) s = let* r := var P x (fst s) in Ok (r, s). Proof. done. Qed.
Lemma ev_ESizeof t s : ev (ESizeof t) s = Ok (RVal (VI (byte_size p P t)) Tsize, s). Proof. done. Qed.
Lemma ev_ENeg e s : ev (ENeg e) s = let* '(v, t, s) := rval e s in let t := promote t in
  let* v := conv p t v in let* x := num v in let* z := arith p t (- x) in Ok (RVal (VI z) t, s). Proof. done. Qed.
Lemma ev_ENot e s : ev (ENot e) s = let* '(b, s) := test e s in Ok (RVal (truth (negb b)) int, s). Proof. done. Qed.
Lemma ev_EBin o e1 e2 s : ev (EBin o e1 e2) s = let* '(v1, t1, s) := rval e1 s in let* '(v2, t2, s) := rval e2 s in
  let* '(v, t) := bin_op p P (snd s) o v1 t1 v2 t2 in Ok (RVal v t, s). Proof. done. Qed.
Lemma ev_EAnd e1 e2 s : ev (EAnd e1 e2) s = let* '(b, s) := test e1 s in
  if b then let* '(b, s) := test e2 s in Ok (RVal (truth b) int, s) else Ok (RVal (VI 0) int, s). Proof. done. Qed.
Lemma ev_EOr e1 e2 s : ev (EOr e1 e2) s = let* '(b, s) := test e1 s in
  if b then Ok (RVal (VI 1) int, s) else let* '(b, s) := test e2 s in Ok (RVal (truth b) int, s). Proof. done. Qed.
Lemma ev_ECond c e1 e2 s : ev (ECond c e1 e2) s = let* '(b, s) := test c s in
  let* '(v, t, s) := (if b then rval e1 s else rval e2 s) in
  if is_ptr t then Ok (RVal v t, s) else let* v := conv p (promote t) v in Ok (RVal v (promote t), s). Proof. done. Qed.
Lemma ev_EDeref e s : ev (EDeref e) s = let* '(v, t, s) := rval e s in
  match t, v with Tptr t, VP b o => Ok (RLoc (LMem b o) t, s) | _, _ => UB end. Proof. done. Qed.
Lemma ev_EAddr e s : ev (EAddr e) s = let* '(r, s) := ev e s in
  match r with RLoc (LMem b o) t => Ok (RVal (VP b o) (Tptr t), s) | _ => UB end. Proof. done. Qed.
Lemma ev_EField e f s : ev (EField e f) s = let* '(r, s) := ev e s in
  match r with
  | RLoc (LMem b o) (Tstruct n) =>
    let* ms := ofopt (assoc n (structs P)) in
    let* '(t, k) := ofopt (member P f ms 0) in Ok (RLoc (LMem b (o + k)) t, s)
  | _ => UB
  end. Proof. done. Qed.
Lemma ev_ECast t e s : ev (ECast t e) s = let* '(v, _, s) := rval e s in let* v := conv p t v in Ok (RVal v t, s). Proof. done. Qed.
Lemma ev_EAssign l e s : ev (EAssign l e) s = let* '(r, s) := ev l s in let* '(v, _, s) := rval e s in
  let* '(v, t, s) := write p r v s in Ok (RVal v t, s). Proof. done. Qed.
Lemma ev_EAssignOp o l e s : ev (EAssignOp o l e) s = let* '(r, s) := ev l s in let* '(v1, t1) := read r s in
  let* '(v2, t2, s) := rval e s in let* '(v, t) := bin_op p P (snd s) o v1 t1 v2 t2 in
  let* '(v, t, s) := write p r v s in Ok (RVal v t, s). Proof. done. Qed.
Lemma ev_EPre o l s : ev (EPre o l) s = let* '(r, s) := ev l s in let* '(v1, t1) := read r s in
  let* '(v, _) := bin_op p P (snd s) o v1 t1 (VI 1) int in
  let* '(v, t, s) := write p r v s in Ok (RVal v t, s). Proof. done. Qed.
Lemma ev_EPost o l s : ev (EPost o l) s = let* '(r, s) := ev l s in let* '(v1, t1) := read r s in
  let* '(v, _) := bin_op p P (snd s) o v1 t1 (VI 1) int in
  let* '(_, t, s) := write p r v s in Ok (RVal v1 t, s). Proof. done. Qed.
Lemma ev_EMemmove t d q n s : ev (EMemmove t d q n) s =
  let* '(vd, _, s) := rval d s in let* '(vq, _, s) := rval q s in let* '(vn, _, s) := rval n s in
  let* vn := conv p Tsize vn in let* n := num vn in
  let* m := move_mem p P (snd s) t vd vq n in Ok (RVal vd (Tptr Tvoid), (fst s, m)). Proof. done. Qed.
Lemma ev_ECall f l s : ev (ECall f l) s =
  let* '(vs, s) := args l s in
  match assoc f (fst s), assoc f (globals P) with
  | Some (BReg _ v), _ => let* '(v, t, m) := cv v vs (snd s) in Ok (RVal v t, (fst s, m))
  | _, Some (t, b) => let* '(v, _) := read (RLoc (LMem b 0) t) s in
                      let* '(v, t, m) := cv v vs (snd s) in Ok (RVal v t, (fst s, m))
  | _, _ => let* '(v, t, m) := cn f vs (snd s) in Ok (RVal v t, (fst s, m))
  end. Proof. done. Qed.
Lemma ev_ECallPtr f l s : ev (ECallPtr f l) s =
  let* '(v, _, s) := rval f s in let* '(vs, s) := args l s in
  let* '(v, t, m) := cv v vs (snd s) in Ok (RVal v t, (fst s, m)). Proof. done. Qed.
Lemma rval_eq e s : rval e s = let* '(r, s) := ev e s in let* '(v, t) := read r s in Ok (v, t, s). Proof. done. Qed.
Lemma test_eq e s : test e s = let* '(v, _, s) := rval e s in let* b := is_true v in Ok (b, s). Proof. done. Qed.

Lemma exec_SSkip s : exec SSkip s = Ok (Next, s). Proof. done. Qed.
Lemma exec_SExpr e s : exec (SExpr e) s = let* '(_, s) := ev e s in Ok (Next, s). Proof. done. Qed.
Lemma exec_SDeclN x s : exec (SDecl x None) s =
  match assoc x (fst s) with
  | Some (BReg t _) => Ok (Next, (assoc_set x (BReg t VU) (fst s), snd s))
  | _ => Ok (Next, s)
  end. Proof. done. Qed.
Lemma exec_SDecl x e s : exec (SDecl x (Some e)) s =
  let* '(v, _, s) := rval e s in let* r := var P x (fst s) in
  let* '(_, _, s) := write p r v s in Ok (Next, s). Proof. done. Qed.
Lemma exec_SSeq c1 c2 s : exec (SSeq c1 c2) s = let* '(o, s) := exec c1 s in match o with Next => exec c2 s | o => Ok (o, s) end.
Proof. done. Qed.
Lemma exec_SIf e c1 c2 s : exec (SIf e c1 c2) s = let* '(b, s) := test e s in if b then exec c1 s else exec c2 s. Proof. done. Qed.
Lemma exec_SLoop e st c s : exec (SLoop e st c) s = loop fuel (test e) (exec c) (exec st) s. Proof. done. Qed.
Lemma exec_SReturnN s : exec (SReturn None) s = Ok (Returned (VI 0) Tvoid, s). Proof. done. Qed.
Lemma exec_SReturn e s : exec (SReturn (Some e)) s = let* '(v, t, s) := rval e s in Ok (Returned v t, s). Proof. done. Qed.
Lemma exec_SBreak s : exec SBreak s = Ok (Broke, s). Proof. done. Qed.
Lemma exec_SContinue s : exec SContinue s = Ok (Continued, s). Proof. done. Qed.

Lemma run_fun_eq f vs m : run_fun p P cn cv fuel f vs m =
  let* ps := bind_params p (fparams f) vs in
  let '(ms, m) := alloc P (fmem f) m in
  finish p (fret f) ms (exec (fbody f) (ps ++ map (fun x => (fst x, BReg (snd x) VU)) (flocals f) ++ ms, m)%list).
Proof. reflexivity. Qed.

Lemma is_true_truth b : is_true (truth b) = Ok b. Proof. destruct b; reflexivity. Qed.
Lemma num_truth b : num (truth b) = Ok (if b then 1 else 0). Proof. done. Qed.
Lemma truth_if (b : bool) : VI (if b then 1 else 0) = truth b. Proof. done. Qed.
Lemma conv_bool_truth b : conv p Tbool (truth b) = Ok (truth b). Proof. destruct b; reflexivity. Qed.
Lemma conv_int_truth b : conv p int (truth b) = Ok (truth b). Proof. destruct b; reflexivity. Qed.
Lemma conv_size_id x : 0 <= x < size_mod p -> conv p Tsize (VI x) = Ok (VI x).
Proof. intros H. cbn. rewrite to_size_id by lia. reflexivity. Qed.
Lemma conv_int_id x : int_min <= x <= int_max -> conv p int (VI x) = Ok (VI x).
Proof. intros H. cbn. fold (to_int x). rewrite to_int_id by lia. reflexivity. Qed.
Lemma conv_u8_id x : 0 <= x < 256 -> conv p (Tint false W8) (VI x) = Ok (VI x).
Proof. intros H. cbn [conv modw num bind]. rewrite Z.mod_small by lia. reflexivity. Qed.
Lemma conv_u16_id x : 0 <= x < 65536 -> conv p (Tint false W16) (VI x) = Ok (VI x).
Proof. intros H. cbn [conv modw num bind]. rewrite Z.mod_small by lia. reflexivity. Qed.
Lemma conv_u32_id x : 0 <= x < 4294967296 -> conv p (Tint false W32) (VI x) = Ok (VI x).
Proof. intros H. cbn [conv modw num bind]. rewrite Z.mod_small by lia. reflexivity. Qed.
Lemma conv_u64_id x : 0 <= x < 18446744073709551616 -> conv p (Tint false W64) (VI x) = Ok (VI x).
Proof. intros H. cbn [conv modw num bind]. rewrite Z.mod_small by lia. reflexivity. Qed.
Lemma arith_int x : arith p int x = ichk x. Proof. done. Qed.
End eqs.

(** conversions into the types of the model *)
Lemma ld_map {A B} (f : A -> B) l i : ld (f <$> l) i = let* x := ld l i in Ok (f x).
Proof. unfold ld. destruct (i <? 0); [done|]. rewrite list_lookup_fmap. destruct (l !! Z.to_nat i); done. Qed.
Lemma st_map {A B} (f : A -> B) l i x : st (f <$> l) i (f x) = let* l := st l i x in Ok (f <$> l).
Proof. unfold st. rewrite fmap_length. destruct (_ && _); [|done]. cbn [bind]. rewrite list_fmap_insert. done. Qed.
Lemma load_mem_eq m b o c : heap m !! b = Some c -> load_mem m b o = ld c o.
Proof. intros H. unfold load_mem. rewrite H. done. Qed.
(** a pointer to cell [o] of an object of [n] cells *)
Definition ptr_in (b : nat) (n o : Z) : res val := if (0 <=? o) && (o <=? n) then Ok (VP b o) else UB.
Lemma ptr_in_ok b n o : 0 <= o <= n -> ptr_in b n o = Ok (VP b o).
Proof. intros H. unfold ptr_in. rewrite (proj2 (Z.leb_le 0 o)), (proj2 (Z.leb_le o n)) by lia. done. Qed.
Lemma ptr_in_ub b n o : ~ 0 <= o <= n -> ptr_in b n o = UB.
Proof. intros H. unfold ptr_in. destruct (Z.leb_spec 0 o), (Z.leb_spec o n); try done; lia. Qed.
Lemma ptr_add_cell0 P m b t i c : heap m !! b = Some c -> cells P t = 1 ->
  ptr_add P m (VP b 0) t i = ptr_in b (Z.of_nat (length c)) i.
Proof. intros H Hc. unfold ptr_add. rewrite H. cbn [ofopt bind]. rewrite Hc. rewrite Z.add_0_l, Z.mul_1_r. done. Qed.
Lemma ptr_add_cell P m b o t i c : heap m !! b = Some c -> cells P t = 1 ->
  ptr_add P m (VP b o) t i = ptr_in b (Z.of_nat (length c)) (o + i).
Proof. intros H Hc. unfold ptr_add. rewrite H. cbn [ofopt bind]. rewrite Hc. rewrite Z.mul_1_r. done. Qed.
Lemma ptr_add_cells P m b o t i c k : heap m !! b = Some c -> cells P t = k ->
  ptr_add P m (VP b o) t i = ptr_in b (Z.of_nat (length c)) (o + i * k).
Proof. intros H Hc. unfold ptr_add. rewrite H. cbn [ofopt bind]. rewrite Hc. done. Qed.
Lemma ld_bounds {A} (l : list A) i x : ld l i = Ok x -> 0 <= i < Z.of_nat (length l).
Proof.
  unfold ld. destruct (Z.ltb_spec i 0); [done|]. destruct (l !! Z.to_nat i) eqn:E; [|done].
  intros _. apply lookup_lt_Some in E. lia.
Qed.
Lemma ld_UB {A} (l : list A) i : ld l i = UB -> ~ 0 <= i < Z.of_nat (length l).
Proof.
  unfold ld. intros H Hi. destruct (Z.ltb_spec i 0); [lia|].
  destruct (lookup_lt_is_Some_2 l (Z.to_nat i)) as [x Hx]; [lia|]. rewrite Hx in H. discriminate H.
Qed.
Lemma ld_noNF {A} (l : list A) i : ld l i <> NoFuel.
Proof. unfold ld. destruct (i <? 0); [done|]. destruct (_ !! _); done. Qed.
Lemma st_bounds {A} (l : list A) i x l' : st l i x = Ok l' -> 0 <= i < Z.of_nat (length l).
Proof. unfold st. destruct (Z.leb_spec 0 i), (Z.ltb_spec i (Z.of_nat (length l))); try done. Qed.
Lemma st_UB {A} (l : list A) i x : st l i x = UB -> ~ 0 <= i < Z.of_nat (length l).
Proof. unfold st. destruct (Z.leb_spec 0 i), (Z.ltb_spec i (Z.of_nat (length l))); cbn; try done; lia. Qed.
Lemma st_noNF {A} (l : list A) i x : st l i x <> NoFuel.
Proof. unfold st. destruct (_ && _); done. Qed.

Ltac is_lit z := lazymatch z with Z0 => idtac | Zpos ?q => is_plit q | Zneg ?q => is_plit q end
with is_plit q := lazymatch q with xH => idtac | xO ?r => is_plit r | xI ?r => is_plit r end.

(** the place where evaluation is stuck *)
Ltac hd t :=
  lazymatch t with
  | bind ?a _ => hd a
  | finish _ _ _ ?a => hd a
  | (match ?a with _ => _ end) => hd a
  | _ => t
  end.
(** side conditions: ranges of numbers *)
Ltac rng := first [assumption | apply to_size_range | (unfold int_min, int_max; lia)].
Ltac ne := first [assumption | apply not_eq_sym; assumption | congruence | lia].

Ltac ev_step e :=
  lazymatch e with
  | EInt _ => rewrite ev_EInt
  | EVar _ => rewrite ev_EVar
  | ESizeof _ => rewrite ev_ESizeof
  | ENeg _ => rewrite ev_ENeg
  | ENot _ => rewrite ev_ENot
  | EBin _ _ _ => rewrite ev_EBin
  | EAnd _ _ => rewrite ev_EAnd
  | EOr _ _ => rewrite ev_EOr
  | ECond _ _ _ => rewrite ev_ECond
  | EDeref _ => rewrite ev_EDeref
  | EAddr _ => rewrite ev_EAddr
  | EField _ _ => rewrite ev_EField
  | ECast _ _ => rewrite ev_ECast
  | EAssign _ _ => rewrite ev_EAssign
  | EAssignOp _ _ _ => rewrite ev_EAssignOp
  | EPre _ _ => rewrite ev_EPre
  | EPost _ _ => rewrite ev_EPost
  | EMemmove _ _ _ _ => rewrite ev_EMemmove
  | ECall _ _ => rewrite ev_ECall
  | ECallPtr _ _ => rewrite ev_ECallPtr
  end.
Ltac exec_step c :=
  lazymatch c with
  | SSkip => rewrite exec_SSkip
  | SExpr _ => rewrite exec_SExpr
  | SDecl _ None => rewrite exec_SDeclN; cbn [assoc assoc_set String.eqb Ascii.eqb Bool.eqb fst snd]
  | SDecl _ (Some _) => rewrite exec_SDecl
  | SSeq _ _ => rewrite exec_SSeq
  | SIf _ _ _ => rewrite exec_SIf
  | SReturn None => rewrite exec_SReturnN
  | SReturn (Some _) => rewrite exec_SReturn
  | SBreak => rewrite exec_SBreak
  | SContinue => rewrite exec_SContinue
  end.
(** look up an object *)
Ltac look :=
  lazymatch goal with
  | |- context [ofopt (?h !! ?b)] =>
    first [ match goal with H : h !! b = Some _ |- _ => rewrite H end
          | rewrite (lookup_insert _ b)
          | rewrite (lookup_insert_ne _ _ b) by ne ]
  end.
Ltac closed_bool h := first [constr_eq h true | constr_eq h false].
Ltac lit_op a b := is_lit a; is_lit b.
Ltac range := first [assumption | apply to_size_range
  | match goal with |- _ <= _ < size_mod ?p => pose proof (size_mod_big p); lia end | (unfold int_min, int_max; lia)].
Ltac conv_step h t v :=
  first
  [ lazymatch v with truth _ => first [rewrite conv_bool_truth | rewrite conv_int_truth] end
  | lazymatch t with
    | Tbool => lazymatch v with VI 0 => change (conv _ Tbool (VI 0)) with (Ok (truth false)) | VI 1 => change (conv _ Tbool (VI 1)) with (Ok (truth true)) end
    | Tsize => lazymatch v with VI ?x => rewrite (conv_size_id _ x) by range end
    | int => lazymatch v with VI ?x => rewrite (conv_int_id _ x) by range end
    | Tint false W8 => lazymatch v with VI ?x => rewrite (conv_u8_id _ x) by range end
    | Tint false W16 => lazymatch v with VI ?x => rewrite (conv_u16_id _ x) by range end
    | Tint false W32 => lazymatch v with VI ?x => rewrite (conv_u32_id _ x) by range end
    | Tint false W64 => lazymatch v with VI ?x => rewrite (conv_u64_id _ x) by range end
    end
  | let h' := eval cbv beta iota delta [conv modw] in h in change h with h' ].
Ltac nth_cell l n :=
  lazymatch n with
  | O => lazymatch l with ?a :: _ => constr:(a) end
  | S ?n' => lazymatch l with _ :: ?l' => nth_cell l' n' end
  end.
Ltac set_cell l n v :=
  lazymatch n with
  | O => lazymatch l with _ :: ?l' => constr:(v :: l') end
  | S ?n' => lazymatch l with ?a :: ?l' => let l'' := set_cell l' n' v in constr:(a :: l'') end
  end.
(** one step at the head *)
Ltac repl h h' := first [constr_eq h h'; fail 1 | change h with h'].
Ltac norm h :=
  lazymatch h with
  | load_mem _ _ _ => let h' := eval cbv beta iota zeta delta [load_mem fst snd] in h in repl h h'
  | store_mem _ _ _ _ => let h' := eval cbv beta iota zeta delta [store_mem fst snd] in h in repl h h'
  | bin_op _ _ _ _ _ _ _ _ => let h' := eval cbv beta iota zeta delta [bin_op promote] in h in repl h h'
  | int_op _ _ _ _ _ => let h' := eval cbv beta iota zeta delta [int_op unsigned] in h in repl h h'
  | arith _ _ _ => let h' := eval cbv beta iota zeta delta [arith modw] in h in repl h h'
  | common _ _ => let h' := eval cbv beta iota zeta delta [common in_size leb_w andb] in h in repl h h'
  | read _ _ => let h' := eval cbv beta iota zeta delta [read fst snd] in h in repl h h'
  | write _ _ _ _ => let h' := eval cbv beta iota zeta delta [write fst snd] in h in let h' := eval cbn [assoc_set String.eqb Ascii.eqb Bool.eqb] in h' in repl h h'
  | var _ _ _ => let h' := eval cbv beta iota zeta delta [var fst snd] in h in repl h h'
  | is_true _ => let h' := eval cbv beta iota zeta delta [is_true] in h in repl h h'
  | num _ => let h' := eval cbv beta iota zeta delta [num] in h in repl h h'
  | defined (VI ?z) => change h with (Ok (VI z))
  | defined (VP ?b ?o) => change h with (Ok (VP b o))
  | defined VU => change h with (@UB val)
  | defined (truth ?b) => change h with (Ok (truth b))
  | defined _ => match goal with H : forall x, defined _ = _ |- _ => rewrite H end
  | is_ptr _ => let h' := eval cbv beta iota zeta delta [is_ptr] in h in repl h h'
  | ofopt (Some ?a) => change h with (Ok a)
  | ofopt (common _ _ _) => let h' := eval cbv beta iota zeta delta [ofopt common in_size leb_w andb] in h in repl h h'
  | Z.eqb ?a ?b => is_lit a; is_lit b; let h' := eval cbv in h in change h with h'
  | negb (Z.eqb ?a ?b) => is_lit a; is_lit b; let h' := eval cbv in h in change h with h'
  | true => progress cbv iota
  | false => progress cbv iota
  | Next => progress cbv iota
  | Broke => progress cbv iota
  | Continued => progress cbv iota
  | Returned _ _ => progress cbv iota
  | ptr_cmp _ _ _ => let h' := eval cbv beta iota zeta delta [ptr_cmp Nat.eqb] in h in repl h h'
  | Some _ => progress cbv iota
  | None => progress cbv iota
  end.
(** what is known about a function called *)
Ltac call_hook := fail.
(** equal memories *)
Ltac split_keys i :=
  repeat match goal with
  | |- context [<[?b := _]> _ !! i] =>
    destruct (decide (i = b)) as [->|]; [rewrite ?lookup_insert | rewrite (lookup_insert_ne _ b i) by (apply not_eq_sym; assumption)]
  end.
Ltac mem_eq :=
  first [reflexivity |
  f_equal; apply map_eq; let i := fresh "i" in intros i;
  split_keys i; rewrite ?lookup_insert; repeat rewrite lookup_insert_ne by ne; rewrite ?lookup_insert; first [reflexivity | congruence]].
Ltac look_obj m b :=
  lazymatch goal with |- heap _ !! _ = Some _ =>
    cbn [fst snd heap next];
    first [ eassumption | rewrite lookup_insert; reflexivity | rewrite lookup_insert_ne by ne; look_obj m b ] end.
Ltac ptr_step P m b o t i :=
  let k := eval vm_compute in (cells P t) in
  lazymatch k with
  | 1 => lazymatch o with
         | 0 => erewrite (ptr_add_cell0 P m b t i) by (first [look_obj m b | vm_compute; reflexivity])
         | _ => erewrite (ptr_add_cell P m b o t i) by (first [look_obj m b | vm_compute; reflexivity])
         end
  | _ => erewrite (ptr_add_cells P m b o t i _ k) by (first [look_obj m b | vm_compute; reflexivity])
  end.
Ltac cstep :=
  lazymatch goal with
  | |- ?l = _ =>
    let h := hd l in
    lazymatch h with
    | Ok _ => progress cbn [bind finish fst snd free fold_right app]; rewrite ?insert_insert
    | load_mem _ _ (?o + ?k) => first [is_lit o; is_lit k; let z := eval cbv in (o + k) in change (o + k) with z | norm h]
    | store_mem _ _ (?o + ?k) _ => first [is_lit o; is_lit k; let z := eval cbv in (o + k) in change (o + k) with z | norm h]
    | UB => progress cbn [bind finish]
    | ev _ _ _ _ ?e _ => ev_step e
    | rval _ _ _ _ _ _ => rewrite rval_eq
    | test _ _ _ _ _ _ => rewrite test_eq
    | args _ _ _ _ [] _ => rewrite args_nil
    | args _ _ _ _ (_ :: _) _ => rewrite args_cons
    | exec _ _ _ _ _ ?c _ => exec_step c
    | run_fun _ _ _ _ _ ?f _ _ => rewrite run_fun_eq; cbn [fparams flocals fmem fret fbody f alloc app map fst snd bind_params]
    | ofopt (assoc _ _) => let h' := eval vm_compute in h in change h with h'
    | ofopt (member _ _ _ _) => let h' := eval vm_compute in h in change h with h'
    | assoc _ (globals _) => let h' := eval vm_compute in h in change h with h'
    | assoc _ (consts _) => let h' := eval cbv in h in change h with h'
    | assoc _ _ => let h' := eval cbn [assoc assoc_set String.eqb Ascii.eqb Bool.eqb fst snd] in h in change h with h'
    | conv _ (promote ?t) _ => let t' := eval cbv in (promote t) in change (promote t) with t'
    | conv _ ?t ?v => conv_step h t v
    | call _ _ _ _ _ _ _ _ _ => call_hook
    | is_true (truth _) => rewrite is_true_truth
    | arith _ int _ => rewrite arith_int
    | ichk ?z => rewrite (ichk_ok z) by range
    | ofopt (_ !! _) => cbn [fst snd heap next]; look
    | ld (?f <$> ?c) ?i => rewrite (ld_map f c i)
    | ld ?c ?i => is_lit i; let n := eval cbv in (Z.to_nat i) in let a := nth_cell c n in change h with (Ok a)
    | st (?f <$> ?c) ?i (?f ?v) => rewrite (st_map f c i v)
    | ptr_add ?P ?m (VP ?b ?o) ?t ?i => ptr_step P m b o t i
    | ptr_in ?b ?n ?o => rewrite (ptr_in_ok b n o) by (rewrite ?fmap_length; lia)
    | st ?c ?i ?v => is_lit i; let n := eval cbv in (Z.to_nat i) in let c' := set_cell c n v in change h with (Ok c')
    | _ => norm h
    end
  end.
(** ... or what a hypothesis says about the head *)
Ltac hstep :=
  lazymatch goal with
  | |- ?l = _ => let h := hd l in
    first [ match goal with H : h = _ |- _ => rewrite H end
          | lazymatch h with negb ?b => match goal with H : b = _ |- _ => rewrite H; cbn [negb] end end ]
  end.
Ltac csteps := repeat first [cstep | hstep].
