(** * Symbolic execution of the trees of CTree.v: equations and tactics.  No definitions of the
    model are here, except [does], the statement that a tree makes given accesses. *)
From Verif Require Export CTree.
Open Scope string_scope.
Open Scope Z_scope.

(** ** What a call does: its accesses to memory in order, and what it returns.  A read is followed
    up only for the values it can yield ([R]). *)
Inductive acts :=
| ARet (v : val)
| ARead (b : nat) (o : Z) (R : val -> Prop) (k : val -> acts)
| AWrite (b : nat) (o : Z) (v : val) (k : acts).
Fixpoint does (t : tree (val * ty)) (a : acts) : Prop :=
  match a with
  | ARet v => exists ty, t = Ret (v, ty)
  | ARead b o R k => exists k', t = Load b o k' /\ forall v, R v -> does (k' v) (k v)
  | AWrite b o v k => exists k', t = Store b o v k' /\ does k' k
  end.

Section eqs.
Context (p : plat) (P : cprog) (shape : mem) (cn : string -> list val -> tree (val * ty))
  (cv : val -> list val -> tree (val * ty)) (fuel : nat).
Notation tev := (tev p P shape cn cv).
Notation trval := (trval p P shape cn cv).
Notation ttest := (ttest p P shape cn cv).
Notation texec := (texec p P shape cn cv fuel).
Implicit Types (s : env) (e : expr).
Fixpoint targs_ (l : list expr) (s : env) : tree (list val * env) :=
  match l with
  | [] => Ret ([], s)
  | e :: l => let+ '(v, t, s) := trval e s in let+ '(vs, s) := targs_ l s in Ret (v :: vs, s)
  end.
Lemma targs_nil s : targs_ [] s = Ret ([], s). Proof. reflexivity. Qed.
Lemma targs_cons e l s : targs_ (e :: l) s = let+ '(v, t, s) := trval e s in let+ '(vs, s) := targs_ l s in Ret (v :: vs, s).
Proof. reflexivity. Qed.
Lemma tv_EInt z s : tev (EInt z) s = Ret (RVal (VI z) int, s). Proof. reflexivity. Qed.
Lemma tv_EVar x s : tev (EVar x) s = let+ r := lift (var P x s) in Ret (r, s). Proof. reflexivity. Qed.
Lemma tv_ENot e s : tev (ENot e) s = let+ '(b, s) := ttest e s in Ret (RVal (truth (negb b)) int, s). Proof. reflexivity. Qed.
Lemma tv_EBin o e1 e2 s : tev (EBin o e1 e2) s = let+ '(v1, t1, s) := trval e1 s in let+ '(v2, t2, s) := trval e2 s in
  let+ '(v, t) := lift (bin_op p P shape o v1 t1 v2 t2) in Ret (RVal v t, s). Proof. reflexivity. Qed.
Lemma tv_EAnd e1 e2 s : tev (EAnd e1 e2) s = let+ '(b, s) := ttest e1 s in
  if b then let+ '(b, s) := ttest e2 s in Ret (RVal (truth b) int, s) else Ret (RVal (VI 0) int, s). Proof. reflexivity. Qed.
Lemma tv_EOr e1 e2 s : tev (EOr e1 e2) s = let+ '(b, s) := ttest e1 s in
  if b then Ret (RVal (VI 1) int, s) else let+ '(b, s) := ttest e2 s in Ret (RVal (truth b) int, s). Proof. reflexivity. Qed.
Lemma tv_EDeref e s : tev (EDeref e) s = let+ '(v, t, s) := trval e s in
  match t, v with Tptr t, VP b o => Ret (RLoc (LMem b o) t, s) | _, _ => Undefined end. Proof. reflexivity. Qed.
Lemma tv_EAddr e s : tev (EAddr e) s = let+ '(r, s) := tev e s in
  match r with RLoc (LMem b o) t => Ret (RVal (VP b o) (Tptr t), s) | _ => Undefined end. Proof. reflexivity. Qed.
Lemma tv_EField e f s : tev (EField e f) s = let+ '(r, s) := tev e s in
  match r with
  | RLoc (LMem b o) (Tstruct n) =>
    let+ ms := lift (ofopt (assoc n (structs P))) in
    let+ '(t, k) := lift (ofopt (member P f ms 0)) in Ret (RLoc (LMem b (o + k)) t, s)
  | _ => Undefined
  end. Proof. reflexivity. Qed.
Lemma tv_ECast t e s : tev (ECast t e) s = let+ '(v, _, s) := trval e s in let+ v := lift (conv p t v) in Ret (RVal v t, s). Proof. reflexivity. Qed.
Lemma tv_EAssign l e s : tev (EAssign l e) s = let+ '(r, s) := tev l s in let+ '(v, _, s) := trval e s in
  let+ '(v, t, s) := twrite p r v s in Ret (RVal v t, s). Proof. reflexivity. Qed.
Lemma tv_EAssignOp o l e s : tev (EAssignOp o l e) s = let+ '(r, s) := tev l s in let+ '(v1, t1) := tread r s in
  let+ '(v2, t2, s) := trval e s in let+ '(v, t) := lift (bin_op p P shape o v1 t1 v2 t2) in
  let+ '(v, t, s) := twrite p r v s in Ret (RVal v t, s). Proof. reflexivity. Qed.
Lemma tv_EPre o l s : tev (EPre o l) s = let+ '(r, s) := tev l s in let+ '(v1, t1) := tread r s in
  let+ '(v, _) := lift (bin_op p P shape o v1 t1 (VI 1) int) in
  let+ '(v, t, s) := twrite p r v s in Ret (RVal v t, s). Proof. reflexivity. Qed.
Lemma tv_EPost o l s : tev (EPost o l) s = let+ '(r, s) := tev l s in let+ '(v1, t1) := tread r s in
  let+ '(v, _) := lift (bin_op p P shape o v1 t1 (VI 1) int) in
  let+ '(_, t, s) := twrite p r v s in Ret (RVal v1 t, s). Proof. reflexivity. Qed.
Lemma tv_ECall f l s : tev (ECall f l) s =
  let+ '(vs, s) := targs_ l s in
  match assoc f s, assoc f (globals P) with
  | Some (BReg _ v), _ => let+ '(v, t) := cv v vs in Ret (RVal v t, s)
  | _, Some (t, b) => let+ '(v, _) := tread (RLoc (LMem b 0) t) s in
                      let+ '(v, t) := cv v vs in Ret (RVal v t, s)
  | _, _ => let+ '(v, t) := cn f vs in Ret (RVal v t, s)
  end. Proof. reflexivity. Qed.
Lemma trval_eq e s : trval e s = let+ '(r, s) := tev e s in let+ '(v, t) := tread r s in Ret (v, t, s). Proof. reflexivity. Qed.
Lemma ttest_eq e s : ttest e s = let+ '(v, _, s) := trval e s in let+ b := lift (is_true v) in Ret (b, s). Proof. reflexivity. Qed.
Lemma tx_SSkip s : texec SSkip s = Ret (Next, s). Proof. reflexivity. Qed.
Lemma tx_SExpr e s : texec (SExpr e) s = let+ '(_, s) := tev e s in Ret (Next, s). Proof. reflexivity. Qed.
Lemma tx_SDecl x e s : texec (SDecl x (Some e)) s = let+ '(v, _, s) := trval e s in let+ r := lift (var P x s) in
  let+ '(_, _, s) := twrite p r v s in Ret (Next, s). Proof. reflexivity. Qed.
Lemma tx_SSeq c1 c2 s : texec (SSeq c1 c2) s = let+ '(o, s) := texec c1 s in match o with Next => texec c2 s | o => Ret (o, s) end. Proof. reflexivity. Qed.
Lemma tx_SIf e c1 c2 s : texec (SIf e c1 c2) s = let+ '(b, s) := ttest e s in if b then texec c1 s else texec c2 s. Proof. reflexivity. Qed.
Lemma tx_SReturnN s : texec (SReturn None) s = Ret (Returned (VI 0) Tvoid, s). Proof. reflexivity. Qed.
Lemma tx_SReturn e s : texec (SReturn (Some e)) s = let+ '(v, t, s) := trval e s in Ret (Returned v t, s). Proof. reflexivity. Qed.
Lemma trun_fun_eq f vs : trun_fun p P shape cn cv fuel f vs =
  let+ ps := lift (bind_params p (fparams f) vs) in
  match fmem f with
  | [] => tfinish p (fret f) (texec (fbody f) (ps ++ map (fun x => (fst x, BReg (snd x) VU)) (flocals f))%list)
  | _ => Undefined
  end. Proof. reflexivity. Qed.
End eqs.
Lemma tcall_S p P shape fuel d x f vs : find_fun x (funs P) = Some f ->
  tcall p P shape fuel (S d) x vs = trun_fun p P shape (tcall p P shape fuel d) (fun _ _ => Undefined) fuel f vs.
Proof. intros H. unfold tcall; fold tcall. rewrite H. reflexivity. Qed.
Lemma lift_ok {A} (a : A) : lift (Ok a) = Ret a. Proof. reflexivity. Qed.

Ltac tv_step e :=
  lazymatch e with
  | EInt _ => rewrite tv_EInt
  | EVar _ => rewrite tv_EVar
  | ENot _ => rewrite tv_ENot
  | EBin _ _ _ => rewrite tv_EBin
  | EAnd _ _ => rewrite tv_EAnd
  | EOr _ _ => rewrite tv_EOr
  | EDeref _ => rewrite tv_EDeref
  | EAddr _ => rewrite tv_EAddr
  | EField _ _ => rewrite tv_EField
  | ECast _ _ => rewrite tv_ECast
  | EAssign _ _ => rewrite tv_EAssign
  | EAssignOp _ _ _ => rewrite tv_EAssignOp
  | EPre _ _ => rewrite tv_EPre
  | EPost _ _ => rewrite tv_EPost
  | ECall _ _ => rewrite tv_ECall
  end.
Ltac tx_step c :=
  lazymatch c with
  | SSkip => rewrite tx_SSkip
  | SExpr _ => rewrite tx_SExpr
  | SDecl _ (Some _) => rewrite tx_SDecl
  | SSeq _ _ => rewrite tx_SSeq
  | SIf _ _ _ => rewrite tx_SIf
  | SReturn None => rewrite tx_SReturnN
  | SReturn (Some _) => rewrite tx_SReturn
  end.
Ltac thd t :=
  lazymatch t with
  | tbind ?a _ => thd a
  | tfinish _ _ ?a => thd a
  | lift ?a => hd a
  | (match ?a with _ => _ end) => thd a
  | _ => t
  end.
Ltac tstep_ :=
  lazymatch goal with
  | |- does ?l _ =>
    let h := thd l in
    lazymatch h with
    | Ok _ => first [progress cbn [bind] | rewrite lift_ok]
    | Ret _ => progress cbn [tbind tfinish fst snd app]
    | Load _ (?o + ?k) _ => is_lit o; is_lit k; let z := eval cbv in (o + k) in change (o + k) with z
    | Load _ _ _ => progress cbn [tbind tfinish]
    | Store _ (?o + ?k) _ _ => is_lit o; is_lit k; let z := eval cbv in (o + k) in change (o + k) with z
    | Store _ _ _ _ => progress cbn [tbind tfinish]
    | CTree.tev _ _ _ _ _ ?e _ => tv_step e
    | CTree.trval _ _ _ _ _ _ _ => rewrite trval_eq
    | CTree.ttest _ _ _ _ _ _ _ => rewrite ttest_eq
    | targs_ _ _ _ _ _ [] _ => rewrite targs_nil
    | targs_ _ _ _ _ _ (_ :: _) _ => rewrite targs_cons
    | CTree.texec _ _ _ _ _ _ ?c _ => tx_step c
    | trun_fun _ _ _ _ _ _ ?f _ => rewrite trun_fun_eq; cbn [fparams flocals fmem fret fbody f app map fst snd bind_params]
    | tcall _ _ _ _ _ _ _ => erewrite tcall_S by reflexivity
    | tread _ _ => let h' := eval cbv beta iota zeta delta [tread fst snd] in h in repl h h'
    | twrite _ _ _ _ => let h' := eval cbv beta iota zeta delta [twrite fst snd] in h in repl h h'
    | ofopt (assoc _ _) => let h' := eval vm_compute in h in change h with h'
    | ofopt (member _ _ _ _) => let h' := eval vm_compute in h in change h with h'
    | assoc _ (globals _) => let h' := eval vm_compute in h in change h with h'
    | assoc _ (consts _) => let h' := eval cbv in h in change h with h'
    | assoc _ _ => let h' := eval cbn [assoc assoc_set String.eqb Ascii.eqb Bool.eqb fst snd] in h in change h with h'
    | conv _ ?t ?v => conv_step h t v
    | is_true (truth _) => rewrite is_true_truth
    | arith _ int _ => rewrite arith_int
    | ichk ?z => rewrite (ichk_ok z) by range
    | ptr_add ?P ?m (VP ?b ?o) ?t ?i => ptr_step P m b o t i
    | ptr_in ?b ?n ?o => rewrite (ptr_in_ok b n o) by (rewrite ?fmap_length; lia)
    | _ => norm h
    end
  end.
Ltac thyp :=
  lazymatch goal with
  | |- does ?l _ => let h := thd l in match goal with H : h = _ |- _ => rewrite H end
  end.
Ltac tsteps := repeat first [tstep_ | thyp]; cbn [assoc_set String.eqb Ascii.eqb Bool.eqb].
(** the next access *)
Ltac access := lazymatch goal with
  | |- does _ (ARet _) => eexists; reflexivity
  | |- does _ (ARead _ _ _ _) => eexists; split; [reflexivity|]; let v := fresh "v" in intros v
  | |- does _ (AWrite _ _ _ _) => eexists; split; [reflexivity|]
  end.
