(** * Running CLang programs one memory access at a time.

    The same language as CLang.v, with the same meaning, but the result of running a function is a
    tree of the accesses it makes to memory: what happens in memory between two accesses (other
    threads, interrupts) is left open.  [run_alone] runs a tree with nothing in between;
    [tcall_alone] proves that this is what CLang.v says, for every program.
    Functions with local variables in memory, and memmove, are left out (the files used here,
    mu_spsc.c and mu_queue.c, have none). *)
From Verif Require Export CSym.
Open Scope string_scope.
Open Scope Z_scope.

Inductive tree (A : Type) :=
| Ret (a : A)
| Load (b : nat) (o : Z) (k : val -> tree A)
| Store (b : nat) (o : Z) (v : val) (k : tree A)
| Undefined | Exhausted.
Arguments Ret {A}. Arguments Load {A}. Arguments Store {A}. Arguments Undefined {A}. Arguments Exhausted {A}.
Fixpoint tbind {A B} (t : tree A) (f : A -> tree B) : tree B :=
  match t with
  | Ret a => f a
  | Load b o k => Load b o (fun v => tbind (k v) f)
  | Store b o v k => Store b o v (tbind k f)
  | Undefined => Undefined
  | Exhausted => Exhausted
  end.
Definition lift {A} (r : res A) : tree A := match r with Ok a => Ret a | UB => Undefined | NoFuel => Exhausted end.
Notation "'let+' x ':=' m 'in' k" := (tbind m (fun x => k)) (at level 200, x name, m at level 100, k at level 200, right associativity).
Notation "'let+' ' x ':=' m 'in' k" := (tbind m (fun x => k)) (at level 200, x strict pattern, m at level 100, k at level 200, right associativity).

(** one access: what a step of a thread does to memory *)
Definition tstep {A} (t : tree A) (m : mem) : res (tree A * mem) :=
  match t with
  | Load b o k => let* v := load_mem m b o in Ok (k v, m)
  | Store b o v k => let* m := store_mem m b o v in Ok (k, m)
  | Ret a => Ok (Ret a, m)
  | Undefined => UB
  | Exhausted => NoFuel
  end.
Fixpoint run_alone {A} (t : tree A) (m : mem) : res (A * mem) :=
  match t with
  | Ret a => Ok (a, m)
  | Load b o k => let* v := load_mem m b o in run_alone (k v) m
  | Store b o v k => let* m := store_mem m b o v in run_alone k m
  | Undefined => UB
  | Exhausted => NoFuel
  end.

Section sem.
Context (p : plat) (P : cprog).
(** the sizes of the objects: any memory that has objects of these sizes *)
Context (shape : mem).
Notation state := (env).
Definition tread (r : rv) (s : state) : tree (val * ty) :=
  match r with
  | RVal v t => Ret (v, t)
  | RLoc (LMem b o) (Tarr t _) => Ret (VP b o, Tptr t)
  | RLoc (LMem b o) t => Load b o (fun v => let+ v := lift (defined v) in Ret (v, t))
  | RLoc (LReg x) t =>
    match assoc x s with
    | Some (BReg _ v) => let+ v := lift (defined v) in Ret (v, t)
    | _ => Undefined
    end
  end.
Definition twrite (r : rv) (v : val) (s : state) : tree (val * ty * state) :=
  match r with
  | RLoc l t =>
    let+ v := lift (conv p t v) in
    match l with
    | LReg x => Ret (v, t, assoc_set x (BReg t v) s)
    | LMem b o => Store b o v (Ret (v, t, s))
    end
  | RVal _ _ => Undefined
  end.
Context (call_name : string -> list val -> tree (val * ty)).
Context (call_val : val -> list val -> tree (val * ty)).
Fixpoint tev (e : expr) (s : state) {struct e} : tree (rv * state) :=
  let rval e s := let+ '(r, s) := tev e s in let+ '(v, t) := tread r s in Ret (v, t, s) in
  let args := fix args (l : list expr) (s : state) : tree (list val * state) :=
    match l with
    | [] => Ret ([], s)
    | e :: l => let+ '(v, t, s) := rval e s in let+ '(vs, s) := args l s in Ret (v :: vs, s)
    end in
  let test e s := let+ '(v, _, s) := rval e s in let+ b := lift (is_true v) in Ret (b, s) in
  match e with
  | EInt z => Ret (RVal (VI z) int, s)
  | EVar x => let+ r := lift (var P x s) in Ret (r, s)
  | ESizeof t => Ret (RVal (VI (byte_size p P t)) Tsize, s)
  | ENeg e => let+ '(v, t, s) := rval e s in let t := promote t in
              let+ v := lift (conv p t v) in let+ x := lift (num v) in let+ z := lift (arith p t (- x)) in Ret (RVal (VI z) t, s)
  | ENot e => let+ '(b, s) := test e s in Ret (RVal (truth (negb b)) int, s)
  | EBin o e1 e2 => let+ '(v1, t1, s) := rval e1 s in let+ '(v2, t2, s) := rval e2 s in
                    let+ '(v, t) := lift (bin_op p P shape o v1 t1 v2 t2) in Ret (RVal v t, s)
  | EAnd e1 e2 => let+ '(b, s) := test e1 s in
                  if b then let+ '(b, s) := test e2 s in Ret (RVal (truth b) int, s) else Ret (RVal (VI 0) int, s)
  | EOr e1 e2 => let+ '(b, s) := test e1 s in
                 if b then Ret (RVal (VI 1) int, s) else let+ '(b, s) := test e2 s in Ret (RVal (truth b) int, s)
  | ECond c e1 e2 => let+ '(b, s) := test c s in
                     let+ '(v, t, s) := (if b then rval e1 s else rval e2 s) in
                     if is_ptr t then Ret (RVal v t, s)
                     else let+ v := lift (conv p (promote t) v) in Ret (RVal v (promote t), s)
  | EDeref e => let+ '(v, t, s) := rval e s in
                match t, v with Tptr t, VP b o => Ret (RLoc (LMem b o) t, s) | _, _ => Undefined end
  | EAddr e => let+ '(r, s) := tev e s in
               match r with RLoc (LMem b o) t => Ret (RVal (VP b o) (Tptr t), s) | _ => Undefined end
  | EField e f => let+ '(r, s) := tev e s in
                  match r with
                  | RLoc (LMem b o) (Tstruct n) =>
                    let+ ms := lift (ofopt (assoc n (structs P))) in
                    let+ '(t, k) := lift (ofopt (member P f ms 0)) in Ret (RLoc (LMem b (o + k)) t, s)
                  | _ => Undefined
                  end
  | ECast t e => let+ '(v, _, s) := rval e s in let+ v := lift (conv p t v) in Ret (RVal v t, s)
  | EAssign l e => let+ '(r, s) := tev l s in let+ '(v, _, s) := rval e s in
                   let+ '(v, t, s) := twrite r v s in Ret (RVal v t, s)
  | EAssignOp o l e => let+ '(r, s) := tev l s in let+ '(v1, t1) := tread r s in let+ '(v2, t2, s) := rval e s in
                       let+ '(v, t) := lift (bin_op p P shape o v1 t1 v2 t2) in
                       let+ '(v, t, s) := twrite r v s in Ret (RVal v t, s)
  | EPre o l => let+ '(r, s) := tev l s in let+ '(v1, t1) := tread r s in
                let+ '(v, _) := lift (bin_op p P shape o v1 t1 (VI 1) int) in
                let+ '(v, t, s) := twrite r v s in Ret (RVal v t, s)
  | EPost o l => let+ '(r, s) := tev l s in let+ '(v1, t1) := tread r s in
                 let+ '(v, _) := lift (bin_op p P shape o v1 t1 (VI 1) int) in
                 let+ '(_, t, s) := twrite r v s in Ret (RVal v1 t, s)
  | EMemmove t d q n => Undefined
  | ECall f l =>
    let+ '(vs, s) := args l s in
    match assoc f s, assoc f (globals P) with
    | Some (BReg _ v), _ => let+ '(v, t) := call_val v vs in Ret (RVal v t, s)
    | _, Some (t, b) => let+ '(v, _) := tread (RLoc (LMem b 0) t) s in
                        let+ '(v, t) := call_val v vs in Ret (RVal v t, s)
    | _, _ => let+ '(v, t) := call_name f vs in Ret (RVal v t, s)
    end
  | ECallPtr f l =>
    let+ '(v, _, s) := rval f s in let+ '(vs, s) := args l s in
    let+ '(v, t) := call_val v vs in Ret (RVal v t, s)
  end.
Definition trval (e : expr) (s : state) : tree (val * ty * state) :=
  let+ '(r, s) := tev e s in let+ '(v, t) := tread r s in Ret (v, t, s).
Definition ttest (e : expr) (s : state) : tree (bool * state) :=
  let+ '(v, _, s) := trval e s in let+ b := lift (is_true v) in Ret (b, s).
Fixpoint tloop (n : nat) (c : state -> tree (bool * state)) (body step : state -> tree (outcome * state)) (s : state) : tree (outcome * state) :=
  match n with
  | O => Exhausted
  | S n =>
    let+ '(b, s) := c s in
    if b then
      let+ '(o, s) := body s in
      match o with
      | Next | Continued => let+ '(_, s) := step s in tloop n c body step s
      | Broke => Ret (Next, s)
      | Returned v t => Ret (Returned v t, s)
      end
    else Ret (Next, s)
  end.
Context (fuel : nat).
Fixpoint texec (c : stmt) (s : state) {struct c} : tree (outcome * state) :=
  match c with
  | SSkip => Ret (Next, s)
  | SExpr e => let+ '(_, s) := tev e s in Ret (Next, s)
  | SDecl x None =>
    match assoc x s with
    | Some (BReg t _) => Ret (Next, assoc_set x (BReg t VU) s)
    | _ => Ret (Next, s)
    end
  | SDecl x (Some e) =>
    let+ '(v, _, s) := trval e s in let+ r := lift (var P x s) in
    let+ '(_, _, s) := twrite r v s in Ret (Next, s)
  | SSeq c1 c2 => let+ '(o, s) := texec c1 s in match o with Next => texec c2 s | o => Ret (o, s) end
  | SIf e c1 c2 => let+ '(b, s) := ttest e s in if b then texec c1 s else texec c2 s
  | SLoop e step body => tloop fuel (ttest e) (texec body) (texec step) s
  | SReturn None => Ret (Returned (VI 0) Tvoid, s)
  | SReturn (Some e) => let+ '(v, t, s) := trval e s in Ret (Returned v t, s)
  | SBreak => Ret (Broke, s)
  | SContinue => Ret (Continued, s)
  end.
Definition tfinish (t : ty) (r : tree (outcome * state)) : tree (val * ty) :=
  let+ '(o, _) := r in
  match o, t with
  | Returned v _, Tvoid => Ret (VI 0, Tvoid)
  | Returned v _, t => let+ v := lift (conv p t v) in Ret (v, t)
  | Next, Tvoid => Ret (VI 0, Tvoid)
  | Next, t => Ret (VU, t)
  | _, _ => Undefined
  end.
Definition trun_fun (f : fdef) (vs : list val) : tree (val * ty) :=
  let+ ps := lift (bind_params p (fparams f) vs) in
  match fmem f with
  | [] => tfinish (fret f) (texec (fbody f) (ps ++ map (fun x => (fst x, BReg (snd x) VU)) (flocals f))%list)
  | _ => Undefined
  end.
End sem.

(** calls; functions that are not part of the program are not called *)
Fixpoint tcall (p : plat) (P : cprog) (shape : mem) (fuel depth : nat) (x : string) (vs : list val) : tree (val * ty) :=
  match find_fun x (funs P) with
  | Some f => match depth with
              | O => Exhausted
              | S d => trun_fun p P shape (tcall p P shape fuel d) (fun _ _ => Undefined) fuel f vs
              end
  | None => Undefined
  end.
Arguments tcall : simpl never.

(** ** Agreement with CLang.v *)
Lemma tbind_ret {A B} (a : A) (f : A -> tree B) : tbind (Ret a) f = f a. Proof. done. Qed.
Lemma alone_bind {A B} (t : tree A) (f : A -> tree B) : forall m,
  run_alone (tbind t f) m = let* '(a, m) := run_alone t m in run_alone (f a) m.
Proof.
  induction t as [a|b o k IH|b o v k IH| |]; intros m; cbn; try done.
  - destruct (load_mem m b o); cbn; [apply IH|done..].
  - destruct (store_mem m b o v); cbn; [apply IH|done..].
Qed.
Lemma alone_lift {A} (r : res A) m : run_alone (lift r) m = let* a := r in Ok (a, m). Proof. destruct r; done. Qed.

(** memories with objects of the same sizes *)
Definition same_shape (m1 m2 : mem) : Prop := forall b, length <$> heap m1 !! b = length <$> heap m2 !! b.
Lemma ptr_add_shape P m1 m2 v t i : same_shape m1 m2 -> ptr_add P m1 v t i = ptr_add P m2 v t i.
Proof.
  intros H. destruct v as [|b o|]; try done. unfold ptr_add. specialize (H b).
  destruct (heap m1 !! b), (heap m2 !! b); cbn in *; try done. injection H as ->. done.
Qed.
Lemma bin_op_shape p P m1 m2 o v1 t1 v2 t2 : same_shape m1 m2 -> bin_op p P m1 o v1 t1 v2 t2 = bin_op p P m2 o v1 t1 v2 t2.
Proof.
  intros H. unfold bin_op. 
  destruct t1; destruct t2; destruct o; try reflexivity; destruct v1 as [x1|b1 o1|], v2 as [x2|b2 o2|]; cbn [num bind]; try reflexivity;
    repeat match goal with |- context [ptr_add P m1 ?v ?t ?i] => rewrite (ptr_add_shape P m1 m2 v t i H) end; try reflexivity.
Qed.
Lemma store_shape m b o v m' : store_mem m b o v = Ok m' -> same_shape m' m.
Proof.
  unfold store_mem. destruct (heap m !! b) as [c|] eqn:E; cbn; [|done]. unfold st. destruct (_ && _); cbn; [|done].
  intros [= <-] b'. cbn. destruct (decide (b = b')) as [->|Hn].
  - rewrite lookup_insert, E. cbn. rewrite insert_length. done.
  - rewrite lookup_insert_ne by done. done.
Qed.
Lemma alone_shape {A} (t : tree A) : forall m a m', run_alone t m = Ok (a, m') -> same_shape m' m.
Proof.
  induction t as [a|b o k IH|b o v k IH| |]; intros m a' m'; cbn; try done.
  - intros [= _ <-]. done.
  - destruct (load_mem m b o); cbn; try done. apply IH.
  - destruct (store_mem m b o v) as [m1| |] eqn:E; cbn; try done. intros H b'. rewrite (IH _ _ _ H b'). by eapply store_shape.
Qed.

(** programs without memmove and without local variables in memory *)
Fixpoint plain (e : expr) : bool :=
  match e with
  | EInt _ | EVar _ | ESizeof _ => true
  | ENeg e | ENot e | EDeref e | EAddr e | EField e _ | ECast _ e | EPre _ e | EPost _ e => plain e
  | EBin _ e1 e2 | EAnd e1 e2 | EOr e1 e2 | EAssign e1 e2 | EAssignOp _ e1 e2 => plain e1 && plain e2
  | ECond e1 e2 e3 => plain e1 && plain e2 && plain e3
  | EMemmove _ _ _ _ => false
  | ECall _ l => forallb plain l
  | ECallPtr e l => plain e && forallb plain l
  end.
Fixpoint plain_s (c : stmt) : bool :=
  match c with
  | SSkip | SDecl _ None | SReturn None | SBreak | SContinue => true
  | SExpr e | SDecl _ (Some e) | SReturn (Some e) => plain e
  | SSeq c1 c2 => plain_s c1 && plain_s c2
  | SIf e c1 c2 => plain e && plain_s c1 && plain_s c2
  | SLoop e c1 c2 => plain e && plain_s c1 && plain_s c2
  end.
Definition plain_f (f : fdef) : bool := plain_s (fbody f) && match fmem f with [] => true | _ => false end.

Section agree.
Context (p : plat) (P : cprog) (shape : mem) (fuel : nat)
  (tcn : string -> list val -> tree (val * ty)) (cn : string -> list val -> mem -> res (val * ty * mem)).
Notation cv := (fun (_ : val) (_ : list val) (_ : mem) => @UB (val * ty * mem)).
Notation tcv := (fun (_ : val) (_ : list val) => @Undefined (val * ty)).
Notation ev := (ev p P cn cv).
Notation rval := (rval p P cn cv).
Notation test := (test p P cn cv).
Notation exec := (exec p P cn cv fuel).
Notation tev := (tev p P shape tcn tcv).
Notation trval := (trval p P shape tcn tcv).
Notation ttest := (ttest p P shape tcn tcv).
Notation texec := (texec p P shape tcn tcv fuel).
Definition out {A} (r : res (A * (env * mem))) : res (A * env * mem) := let* '(a, (s, m)) := r in Ok (a, s, m).
Context (Hcn : forall f vs m, same_shape m shape -> run_alone (tcn f vs) m = cn f vs m).

Lemma read_alone r s m : run_alone (tread r s) m = let* a := read r (s, m) in Ok (a, m).
Proof.
  destruct r as [v t|[x|b o] t]; cbn [tread read fst snd run_alone bind].
  - done.
  - destruct (assoc x s) as [[]|]; try done. rewrite alone_bind, alone_lift. destruct (defined v); done.
  - destruct t; cbn; try done; (destruct (load_mem m b o) as [v'| |]; cbn; [|done|done]; rewrite alone_bind, alone_lift; destruct (defined v'); done).
Qed.
Lemma write_alone r v s m : run_alone (twrite p r v s) m = out (write p r v (s, m)).
Proof.
  destruct r as [v' t|l t]; cbn [twrite write]; [done|]. rewrite alone_bind, alone_lift. destruct (conv p t v) as [v1| |]; cbn; try done.
  destruct l; cbn; [done|]. destruct (store_mem m b o v1); done.
Qed.
Fixpoint targs (l : list expr) (s : env) : tree (list val * env) :=
  match l with
  | [] => Ret ([], s)
  | e :: l => let+ '(v, t, s) := trval e s in let+ '(vs, s) := targs l s in Ret (v :: vs, s)
  end.
Definition agrees {A} (t : tree (A * env)) (r : env * mem -> res (A * (env * mem))) (s : env) : Prop :=
  forall m, same_shape m shape -> run_alone t m = out (r (s, m)).
Lemma agrees_shape {A} (t : tree (A * env)) r s : agrees t r s -> forall m a s' m', same_shape m shape ->
  r (s, m) = Ok (a, (s', m')) -> same_shape m' shape.
Proof.
  intros H m a s' m' Hm E b. specialize (H m Hm). rewrite E in H. cbn in H. apply alone_shape in H. rewrite (H b). apply Hm.
Qed.
Lemma agrees_bind {A B} (t : tree (A * env)) r s (f : A * env -> tree (B * env)) (g : A * (env * mem) -> res (B * (env * mem))) :
  agrees t r s -> (forall a s', agrees (f (a, s')) (fun s => g (a, s)) s') -> agrees (tbind t f) (fun s => bind (r s) g) s.
Proof.
  intros H1 H2 m Hm. rewrite alone_bind, (H1 m Hm). destruct (r (s, m)) as [[a [s' m']]| |] eqn:E; cbn; [|done..].
  apply H2. by eapply agrees_shape.
Qed.
Lemma agrees_lift {A B} (x : res A) (f : A -> tree (B * env)) (g : A -> env * mem -> res (B * (env * mem))) s :
  (forall a, x = Ok a -> agrees (f a) (g a) s) -> agrees (tbind (lift x) f) (fun s => bind x (fun a => g a s)) s.
Proof. intros H m Hm. rewrite alone_bind, alone_lift. destruct x; cbn; [by apply H|done..]. Qed.
Lemma agrees_ret {A} (a : A) s : agrees (Ret (a, s)) (fun s => Ok (a, s)) s. Proof. done. Qed.
Lemma agrees_read {B} r s (f : val * ty -> tree (B * env)) (g : val * ty -> env * mem -> res (B * (env * mem))) :
  (forall a, agrees (f a) (g a) s) -> agrees (tbind (tread r s) f) (fun s => bind (read r s) (fun a => g a s)) s.
Proof. intros H m Hm. rewrite alone_bind, read_alone. destruct (read r (s, m)); cbn; [by apply H|done..]. Qed.
Lemma agrees_write r v s : agrees (twrite p r v s) (write p r v) s.
Proof. intros m Hm. apply write_alone. Qed.
Lemma agrees_rval e s : (forall s, agrees (tev e s) (ev e) s) -> agrees (trval e s) (rval e) s.
Proof.
  intros H. apply (agrees_bind (tev e s) (ev e) s _ (fun '(r, s) => let* '(v, t) := read r s in Ok (v, t, s))); [apply H|].
  intros r s'. apply (agrees_read r s' (fun '(v, t) => Ret (v, t, s')) (fun a s => let '(v, t) := a in Ok (v, t, s))). intros [v t]. apply agrees_ret.
Qed.
Lemma agrees_test e s : (forall s, agrees (tev e s) (ev e) s) -> agrees (ttest e s) (test e) s.
Proof.
  intros H. apply (agrees_bind (trval e s) (rval e) s _ (fun '(v, _, s) => let* b := is_true v in Ok (b, s))); [by apply agrees_rval|].
  intros [v t] s'. apply (agrees_lift (is_true v) (fun b => Ret (b, s')) (fun b s => Ok (b, s))). intros b _. apply agrees_ret.
Qed.
Lemma agrees_args l s : (forall e s, In e l -> agrees (tev e s) (ev e) s) -> agrees (targs l s) (args p P cn cv l) s.
Proof.
  revert s. induction l as [|e l IH]; intros s H; [apply agrees_ret|]. 
  apply (agrees_bind (trval e s) (rval e) s _ (fun '(v, t, s) => let* '(vs, s) := args p P cn cv l s in Ok (v :: vs, s))).
  - apply agrees_rval. intros s1. apply H. by left.
  - intros [v t] s1. apply (agrees_bind (targs l s1) (args p P cn cv l) s1 _ (fun '(vs, s) => Ok (v :: vs, s))).
    + apply IH. intros. apply H. by right.
    + intros vs s2. apply agrees_ret.
Qed.
Lemma agrees_name {B} x vs s (f : val * ty -> tree (B * env)) (g : val * ty -> env * mem -> res (B * (env * mem))) :
  (forall a, agrees (f a) (g a) s) ->
  agrees (tbind (tcn x vs) f) (fun s => let* '(v, t, m) := cn x vs (snd s) in g (v, t) (fst s, m)) s.
Proof.
  intros H m Hm. rewrite alone_bind. cbn [fst snd]. pose proof (Hcn x vs m Hm) as E. destruct (run_alone (tcn x vs) m) as [[[v t] m']| |] eqn:E1; rewrite <- E; cbn; [|done..].
  apply H. apply alone_shape in E1. intros b. rewrite (E1 b). apply Hm.
Qed.
Lemma agrees_ext {A} (t : tree (A * env)) (r r' : env * mem -> res (A * (env * mem))) s :
  (forall m, r (s, m) = r' (s, m)) -> agrees t r s -> agrees t r' s.
Proof. intros H1 H2 m Hm. rewrite (H2 m Hm), H1. done. Qed.
Lemma agrees_shape_bin {B} o v1 t1 v2 t2 s (f : val * ty -> tree (B * env)) (g : val * ty -> env * mem -> res (B * (env * mem))) :
  (forall a, agrees (f a) (g a) s) ->
  agrees (tbind (lift (bin_op p P shape o v1 t1 v2 t2)) f) (fun s => bind (bin_op p P (snd s) o v1 t1 v2 t2) (fun a => g a s)) s.
Proof.
  intros H m Hm. rewrite alone_bind, alone_lift. cbn [snd]. rewrite (bin_op_shape p P m shape) by done.
  destruct (bin_op _ _ _ _ _ _ _ _); cbn; [by apply H|done..].
Qed.

Lemma write_shape r v s m v' s' m' : write p r v (s, m) = Ok (v', (s', m')) -> same_shape m shape -> same_shape m' shape.
Proof. intros E Hm b. pose proof (write_alone r v s m) as H. rewrite E in H. apply alone_shape in H. rewrite (H b). apply Hm. Qed.
Ltac rd := cbn [bind out fst snd run_alone].
Ltac go IH :=
  rd;
  lazymatch goal with
  | Hm : same_shape ?m shape |- ?l = _ =>
    lazymatch l with
    | context [run_alone (tbind ?t ?f) m] => rewrite (alone_bind t f m); go IH
    | context [run_alone (lift (bin_op p P shape ?o ?v1 ?t1 ?v2 ?t2)) m] =>
      rewrite (alone_lift _ m), <- (bin_op_shape p P m shape o v1 t1 v2 t2 Hm);
      destruct (bin_op p P m o v1 t1 v2 t2) as [[? ?]| |]; rd; [go IH|reflexivity..]
    | context [run_alone (lift ?r) m] => rewrite (alone_lift r m); destruct r; rd; [go IH|reflexivity..]
    | context [run_alone (tread ?r ?s) m] => rewrite (read_alone r s m); destruct (read r (s, m)) as [[? ?]| |]; rd; [go IH|reflexivity..]
    | context [run_alone (twrite p ?r ?v ?s) m] => rewrite (write_alone r v s m);
      let E := fresh "E" in destruct (write p r v (s, m)) as [[[? ?] [? ?]]| |] eqn:E; rd; [|reflexivity..];
      apply write_shape in E; [|exact Hm]; clear Hm; go IH
    | context [run_alone (tev ?e ?s) m] =>
      let H := fresh "H" in pose proof (IH e s) as H; 
      first [specialize (H ltac:(assumption)) | idtac];
      rewrite (H m Hm); let E := fresh "E" in
      destruct (ev e (s, m)) as [[? [? ?]]| |] eqn:E; rd; [|reflexivity..];
      apply (agrees_shape _ _ _ H) in E; [|exact Hm]; clear Hm H; go IH
    | _ => repeat (case_match; rd; try reflexivity; try (go IH))
    end
  end.
Lemma tev_ECall f l s : tev (ECall f l) s =
  let+ '(vs, s) := targs l s in
  match assoc f s, assoc f (globals P) with
  | Some (BReg _ v), _ => let+ '(v, t) := Undefined in Ret (RVal v t, s)
  | _, Some (t, b) => let+ '(v, _) := tread (RLoc (LMem b 0) t) s in
                      let+ '(v, t) := Undefined in Ret (RVal v t, s)
  | _, _ => let+ '(v, t) := tcn f vs in Ret (RVal v t, s)
  end. Proof. reflexivity. Qed.
Lemma tev_ECallPtr f l s : tev (ECallPtr f l) s =
  let+ '(v, _, s) := trval f s in let+ '(vs, s) := targs l s in let+ '(v, t) := Undefined in Ret (RVal v t, s).
Proof. reflexivity. Qed.
Lemma agrees_ev e : forall s, plain e = true -> agrees (tev e s) (ev e) s.
Proof.
  revert e. fix IH 1. intros e s He m Hm. 
  destruct e as [ | | | | | | | | | | | | | | | | | |f l|e l]; cbn [plain] in He; repeat (apply andb_prop in He as [He ?]);
   [cbn [CTree.tev CLang.ev]; (go IH; reflexivity) .. | discriminate He | |].
  - assert (Ha : forall e s, In e l -> agrees (tev e s) (ev e) s).
    { clear s m Hm. induction l as [|e l IHl]; intros e' s' []; cbn in He; apply andb_prop in He as [He1 He2].
      - subst e'. by apply IH.
      - by apply IHl. }
    rewrite tev_ECall, ev_ECall, alone_bind. rewrite (agrees_args l s Ha m Hm). pose proof (agrees_shape _ _ _ (agrees_args l s Ha) m) as Hsh.
    destruct (args p P cn cv l (s, m)) as [[vs [s1 m1]]| |]; rd; [|reflexivity..]. specialize (Hsh _ _ _ Hm eq_refl).
    assert (Hc : run_alone (let+ '(v, t) := tcn f vs in Ret (RVal v t, s1)) m1 =
                 out (let* '(v, t, m) := cn f vs m1 in Ok (RVal v t, (s1, m)))).
    { rewrite alone_bind, (Hcn f vs m1 Hsh). destruct (cn f vs m1) as [[[v t] m2]| |]; done. }
    assert (Hg : forall t b, run_alone (let+ '(v, _) := tread (RLoc (LMem b 0) t) s1 in let+ '(v, t) := @Undefined (val * ty) in Ret (RVal v t, s1)) m1 =
        out (let* '(v, _) := read (RLoc (LMem b 0) t) (s1, m1) in let* '(v, t, m) := @UB (val * ty * mem) in Ok (RVal v t, (s1, m)))).
    { intros t b. rewrite alone_bind, read_alone. destruct (read _ _) as [[? ?]| |]; done. }
    destruct (assoc f s1) as [[t v|t b]|]; [reflexivity|..]; (destruct (assoc f (globals P)) as [[t' b']|]; [apply Hg|exact Hc]).
  - assert (Ha : forall e s, In e l -> agrees (tev e s) (ev e) s).
    { clear s m Hm. induction l as [|e1 l IHl]; intros e' s' []; cbn in H; apply andb_prop in H as [H1 H2].
      - subst e'. by apply IH.
      - by apply IHl. }
    assert (He' : forall s, agrees (tev e s) (ev e) s) by (intros; by apply IH).
    rewrite tev_ECallPtr, ev_ECallPtr, alone_bind. rewrite (agrees_rval e s He' m Hm). pose proof (agrees_shape _ _ _ (agrees_rval e s He') m) as Hsh.
    destruct (rval e (s, m)) as [[[v t] [s1 m1]]| |]; rd; [|reflexivity..]. specialize (Hsh _ _ _ Hm eq_refl).
    rewrite alone_bind, (agrees_args l s1 Ha m1 Hsh). destruct (args p P cn cv l (s1, m1)) as [[vs [s2 m2]]| |]; reflexivity.
Qed.
Lemma agrees_loop e body step n : plain e = true -> (forall s, agrees (texec body s) (exec body) s) -> (forall s, agrees (texec step s) (exec step) s) ->
  forall s, agrees (tloop n (ttest e) (texec body) (texec step) s) (loop n (test e) (exec body) (exec step)) s.
Proof.
  intros He Hb Hs. induction n as [|n IH]; intros s m Hm; [done|]. cbn [tloop loop]. rewrite alone_bind.
  assert (Ht : agrees (ttest e s) (test e) s) by (apply agrees_test; intros; by apply agrees_ev).
  rewrite (Ht m Hm). pose proof (agrees_shape _ _ _ Ht m) as Hsh.
  destruct (test e (s, m)) as [[b [s1 m1]]| |]; rd; [|reflexivity..]. specialize (Hsh _ _ _ Hm eq_refl).
  destruct b; [|reflexivity]. rewrite alone_bind, (Hb s1 m1 Hsh). pose proof (agrees_shape _ _ _ (Hb s1) m1) as Hsh2.
  destruct (exec body (s1, m1)) as [[o [s2 m2]]| |]; rd; [|reflexivity..]. specialize (Hsh2 _ _ _ Hsh eq_refl).
  destruct o; try reflexivity; rewrite alone_bind, (Hs s2 m2 Hsh2); pose proof (agrees_shape _ _ _ (Hs s2) m2) as Hsh3;
    (destruct (exec step (s2, m2)) as [[o [s3 m3]]| |]; rd; [|reflexivity..]; specialize (Hsh3 _ _ _ Hsh2 eq_refl); by apply IH).
Qed.
Lemma agrees_exec c : plain_s c = true -> forall s, agrees (texec c s) (exec c) s.
Proof.
  induction c as [|e|x [e|]|c1 IH1 c2 IH2|e c1 IH1 c2 IH2|e c1 IH1 c2 IH2|[e|]| |]; intros Hc s m Hm; cbn [plain_s] in Hc;
    repeat (apply andb_prop in Hc as [Hc ?]); cbn [CTree.texec CLang.exec]; unfold CTree.trval, CLang.rval, CTree.ttest, CLang.test, CTree.trval, CLang.rval.
  - reflexivity.
  - go agrees_ev. reflexivity.
  - go agrees_ev. reflexivity.
  - cbn [fst snd]. destruct (assoc x s) as [[]|]; reflexivity.
  - rewrite alone_bind. rewrite (IH1 Hc s m Hm). pose proof (agrees_shape _ _ _ (IH1 Hc s) m) as Hsh.
    destruct (exec c1 (s, m)) as [[o [s1 m1]]| |]; rd; [|reflexivity..]. specialize (Hsh _ _ _ Hm eq_refl).
    destruct o; [by apply IH2|reflexivity..].
  - go agrees_ev; [by apply IH1|by apply IH2].
  - apply (agrees_loop e c2 c1 fuel); auto.
  - go agrees_ev. reflexivity.
  - reflexivity.
  - reflexivity.
  - reflexivity.
Qed.
Lemma agrees_fun f vs m : plain_f f = true -> same_shape m shape ->
  run_alone (trun_fun p P shape tcn tcv fuel f vs) m = run_fun p P cn cv fuel f vs m.
Proof.
  intros Hf Hm. apply andb_prop in Hf as [Hf Hl]. unfold trun_fun. rewrite run_fun_eq, alone_bind, alone_lift.
  destruct (bind_params p (fparams f) vs) as [ps| |]; cbn [bind]; [|done..]. destruct (fmem f) as [|]; [|done]. cbn [alloc].
  unfold tfinish, finish. rewrite alone_bind. rewrite app_nil_r. rewrite (agrees_exec _ Hf _ m Hm).
  destruct (exec _ _) as [[o [s1 m1]]| |]; rd; [|reflexivity..]. cbn [free fold_right]. 
  destruct o; try reflexivity; destruct (fret f); try reflexivity; rewrite alone_bind, alone_lift; destruct (conv _ _ _); reflexivity.
Qed.
End agree.

(** Theorem: a call run with nothing in between is the call of CLang.v, for every program without
    memmove and without local variables in memory. *)
Theorem tcall_alone p P shape fuel : forallb plain_f (funs P) = true ->
  forall depth x vs m, same_shape m shape ->
  run_alone (tcall p P shape fuel depth x vs) m = call p P fuel (fun _ _ _ => UB) (fun _ _ _ => UB) depth x vs m.
Proof.
  intros HP. assert (Hfind : forall x f, find_fun x (funs P) = Some f -> plain_f f = true).
  { intros x f. induction (funs P) as [|f0 l IH]; cbn in *; [done|]. apply andb_prop in HP as [H1 H2].
    destruct (String.eqb x (fname f0)); [intros [= <-]; done|by apply IH]. }
  induction depth as [|d IH]; intros x vs m Hm; unfold tcall, call; fold tcall; fold call; destruct (find_fun x (funs P)) as [f|] eqn:E; try done.
  apply agrees_fun; [by apply IH|by eapply Hfind|done].
Qed.
Print Assumptions tcall_alone.
