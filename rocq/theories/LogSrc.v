(** * Property C117: the C text of mu_log.c (SrcLog.v), run by CLang.v *)
From Verif Require Import CSym SrcLog.
Open Scope string_scope. Open Scope Z_scope.
Notation length := List.length.

(** ** Specification: a logger is a threshold, a reporting level and a logging function (None: NULL) *)
Record logger := MkLogger { threshold : Z; level : Z; logfn : option nat }.
Definition fnval (f : option nat) : val := match f with Some f => VP f 0 | None => VI 0 end.
Definition chars (s : string) : list Z := ((fun c => Z.of_nat (Ascii.nat_of_ascii c)) <$> list_ascii_of_string s) ++ [0].
(** the names of the levels, and where the text keeps them: objects 0 to 5 and 10 *)
Definition names : list (nat * string) := [(0, "TRACE"); (1, "DEBUG"); (2, "INFO"); (3, "WARN"); (4, "ERROR"); (5, "FATAL"); (10, "UNKNOWN")]%nat.
Definition name_object (l : Z) : nat := if l <? 6 then Z.to_nat l else 10.

(** calls of the library; [fmt] and [ap] (the variable arguments) are pointers of the caller's *)
Inductive lop :=
| OInit (t : Z) (f : option nat) | OSetThreshold (t : Z) | OGetThreshold | OSetFn (f : option nat) | OGetFn
| OGetLevel | OIsReporting (l : Z) | OName (l : Z) | OLog (l : Z) (fmt ap : nat * Z).
(** a call, and what the logging function does (calls it makes) if it is called by it *)
Inductive act := Act (o : lop) (inside : list act).
Definition ptrv (q : nat * Z) : val := VP (fst q) (snd q).
Definition uint_ok (x : Z) : Prop := 0 <= x < 4294967296.
Definition op_ok (o : lop) : Prop :=
  match o with OInit t _ => uint_ok t | OSetThreshold t => uint_ok t | OIsReporting l => uint_ok l | OName l => uint_ok l | OLog l _ _ => uint_ok l | _ => True end.
Inductive act_ok : act -> Prop := ok_act o inside : op_ok o -> Forall act_ok inside -> act_ok (Act o inside).

(** the record: [1; function; format; arguments] when the logging function is entered, [0; result] when a call returns *)
Fixpoint spec_act (a : act) (s : logger) {struct a} : logger * list val :=
  let specs := fix specs (l : list act) (s : logger) : logger * list val :=
    match l with [] => (s, []) | a :: l => let '(s, tr) := spec_act a s in let '(s, trs) := specs l s in (s, (tr ++ trs)%list) end in
  match a with Act o inside =>
    match o with
    | OInit t f => (MkLogger t (level s) f, [VI 0; VI 0])
    | OSetThreshold t => (MkLogger t (level s) (logfn s), [VI 0; VI 0])
    | OGetThreshold => (s, [VI 0; VI (threshold s)])
    | OSetFn f => (MkLogger (threshold s) (level s) f, [VI 0; VI 0])
    | OGetFn => (s, [VI 0; fnval (logfn s)])
    | OGetLevel => (s, [VI 0; VI (level s)])
    | OIsReporting l => (s, [VI 0; truth (threshold s <=? l)])
    | OName l => (s, [VI 0; VP (name_object l) 0])
    | OLog l fmt ap =>
      match logfn s with
      | Some f => if threshold s <=? l then
          let '(s, tr) := specs inside (MkLogger (threshold s) l (Some f)) in (s, (VI 1 :: VP f 0 :: ptrv fmt :: ptrv ap :: tr ++ [VI 0; VI 0])%list)
        else (s, [VI 0; VI 0])
      | None => (s, [VI 0; VI 0])
      end
    end
  end.
Fixpoint spec_acts (l : list act) (s : logger) : logger * list val :=
  match l with [] => (s, []) | a :: l => let '(s, tr) := spec_act a s in let '(s, trs) := spec_acts l s in (s, (tr ++ trs)%list) end.

(** ** The text *)
(** the file-scope objects of mu_log.c *)
Record statics (M : mem) (s : logger) : Prop := {
  st_t : heap M !! 7%nat = Some [VI (threshold s)];
  st_l : heap M !! 8%nat = Some [VI (level s)];
  st_f : heap M !! 9%nat = Some [fnval (logfn s)];
  st_n : heap M !! 6%nat = Some ((fun k => VP k 0) <$> init_s_level_names);
  st_names : forall k x, (k, x) ∈ names -> heap M !! k = Some (VI <$> chars x);
  st_range : uint_ok (threshold s) /\ uint_ok (level s) }.
Section log.
Context (p : plat) (fuel : nat) (ext : string -> list val -> mem -> res (val * ty * mem)).
Notation lcall user d := (CLang.call p log_prog fuel ext user d).
Definition with_t (M : mem) (t : Z) : mem := MkMem (<[7%nat := [VI t]]> (heap M)) (next M).
Definition with_l (M : mem) (l : Z) : mem := MkMem (<[8%nat := [VI l]]> (heap M)) (next M).
Definition with_f (M : mem) (f : option nat) : mem := MkMem (<[9%nat := [fnval f]]> (heap M)) (next M).
Ltac csw := repeat first [hstep | cstep].
Lemma src_set_threshold user d M s t : statics M s -> uint_ok t -> lcall user (S d) "mu_log_set_reporting_threshold" [VI t] M = Ok (VI 0, Tvoid, with_t M t).
Proof. intros [H7 H8 H9 _ _ _] Ht. unfold uint_ok in *. erewrite call_S by reflexivity. csw. reflexivity. Qed.
Lemma src_set_fn user d M s f : statics M s -> lcall user (S d) "mu_log_set_logging_function" [fnval f] M = Ok (VI 0, Tvoid, with_f M f).
Proof. intros [H7 H8 H9 _ _ _]. unfold with_f. destruct f as [f|]; cbn [fnval]; erewrite call_S by reflexivity; csw; reflexivity. Qed.
Lemma src_get_threshold user d M s : statics M s -> lcall user (S d) "mu_log_get_reporting_threshold" [] M = Ok (VI (threshold s), Tint false W32, M).
Proof. intros [H7 H8 H9 _ _ [Hr _] ]. unfold uint_ok in *. erewrite call_S by reflexivity. csw. reflexivity. Qed.
Lemma src_get_level user d M s : statics M s -> lcall user (S d) "mu_log_get_reporting_level" [] M = Ok (VI (level s), Tint false W32, M).
Proof. intros [H7 H8 H9 _ _ [_ Hr] ]. unfold uint_ok in *. erewrite call_S by reflexivity. csw. reflexivity. Qed.
Lemma src_get_fn user d M s : statics M s -> lcall user (S d) "mu_log_get_logging_function" [] M = Ok (fnval (logfn s), Tptr Tfn, M).
Proof. intros [H7 H8 H9 _ _ _]. destruct (logfn s) as [f|]; cbn [fnval] in *; erewrite call_S by reflexivity; csw; reflexivity. Qed.
Lemma src_is_reporting user d M s l : statics M s -> uint_ok l -> lcall user (S d) "mu_log_is_reporting" [VI l] M = Ok (truth (threshold s <=? l), Tbool, M).
Proof.
  intros [H7 H8 H9 _ _ [Hr _] ] Hl. unfold uint_ok in *. erewrite call_S by reflexivity; csw; destruct (threshold s <=? l); reflexivity.
Qed.
Ltac sizes := first
  [ match goal with |- context [ptr_in ?o ?n ?i] => let x := eval cbv in (ptr_in o n i) in progress change (ptr_in o n i) with x end | progress change (byte_size P32 log_prog (Tptr (Tint true W8))) with 4 | progress change (byte_size P64 log_prog (Tptr (Tint true W8))) with 8
  | progress change (byte_size P32 log_prog (Tarr (Tptr (Tint true W8)) 6)) with 24 | progress change (byte_size P64 log_prog (Tarr (Tptr (Tint true W8)) 6)) with 48
  | progress change (to_size P32 (byte_size P32 log_prog (Tptr (Tint true W8)))) with 4
  | progress change (to_size P64 (byte_size P64 log_prog (Tptr (Tint true W8)))) with 8
  | progress change (to_size P32 (byte_size P32 log_prog (Tarr (Tptr (Tint true W8)) 6))) with 24
  | progress change (to_size P64 (byte_size P64 log_prog (Tarr (Tptr (Tint true W8)) 6))) with 48
  | progress change (4 =? 0) with false | progress change (8 =? 0) with false
  | progress change (24 / 4) with 6 | progress change (48 / 8) with 6
  | progress change (to_size P32 6) with 6 | progress change (to_size P64 6) with 6
  | progress change (0 <? 6) with true | progress change (1 <? 6) with true | progress change (2 <? 6) with true | progress change (3 <? 6) with true | progress change (4 <? 6) with true | progress change (5 <? 6) with true
  | progress change (arith P32 Tsize 6) with (@Ok Z 6) | progress change (arith P64 Tsize 6) with (@Ok Z 6)].
Lemma src_level_name user d M s l : statics M s -> uint_ok l -> lcall user (S d) "mu_log_level_name" [VI l] M = Ok (VP (name_object l) 0, Tptr (Tint true W8), M).
Proof.
  intros [_ _ _ H6 _ _] Hl. cbn in H6. unfold uint_ok, name_object in *. destruct (l <? 6) eqn:E.
  - apply Z.ltb_lt in E. assert (l = 0 \/ l = 1 \/ l = 2 \/ l = 3 \/ l = 4 \/ l = 5) as [-> |[-> |[-> |[-> |[-> | ->] ] ] ] ] by lia; destruct p; erewrite call_S by reflexivity; repeat first [sizes | hstep | cstep]; reflexivity.
  - apply Z.ltb_ge in E as E'. assert (forall q, size_mod q >= 4294967296) as Hq by (intros []; cbv; discriminate). pose proof (Hq P32). pose proof (Hq P64). assert (0 <= l < size_mod P32) by lia. assert (0 <= l < size_mod P64) by lia. destruct p; erewrite call_S by reflexivity; repeat first [sizes | hstep | cstep]; reflexivity.
Qed.
Lemma src_init user d M s t f : statics M s -> uint_ok t -> lcall user (S (S d)) "mu_log_init" [VI t; fnval f] M = Ok (VI 0, Tvoid, with_f (with_t M t) f).
Proof.
  intros Hs Ht. pose proof (src_set_threshold user d M s t Hs Ht) as E1.
  assert (statics (with_t M t) (MkLogger t (level s) (logfn s))) as Hs'.
  { destruct Hs as [H7 H8 H9 H6 Hn Hr]. unfold with_t. constructor; cbn [heap threshold level logfn]; [apply lookup_insert|rewrite lookup_insert_ne by lia; done..| | ].
    - intros k x Hk. rewrite lookup_insert_ne; [by apply Hn|]. unfold names in Hk. repeat (apply elem_of_cons in Hk as [Hk|Hk]; [injection Hk as -> ->; lia|]). by apply elem_of_nil in Hk.
    - split; [done|apply Hr]. }
  pose proof (src_set_fn user d (with_t M t) _ f Hs') as E2. unfold uint_ok in Ht.
  destruct f as [f|]; cbn [fnval] in *; erewrite call_S by reflexivity; csw; reflexivity.
Qed.
Lemma src_log user d M s l fmt ap : statics M s -> uint_ok l ->
  lcall user (S (S d)) "mu_log" [VI l; ptrv fmt; ptrv ap] M =
    match logfn s with
    | Some f => if threshold s <=? l then let* '(_, _, M) := user (VP f 0) [ptrv fmt; ptrv ap] (with_l M l) in Ok (VI 0, Tvoid, M) else Ok (VI 0, Tvoid, M)
    | None => Ok (VI 0, Tvoid, M)
    end.
Proof.
  intros Hs Hl. pose proof (src_is_reporting user d M s l Hs Hl) as E. destruct Hs as [H7 H8 H9 _ _ _]. unfold uint_ok, ptrv in *.
  destruct fmt as [fb fo], ap as [ab ao]. cbn [fst snd].
  destruct (threshold s <=? l), (logfn s) as [f|]; cbn [fnval truth] in *; erewrite call_S by reflexivity; csw; try reflexivity.
  all: unfold with_l; destruct (user _ _ _) as [ [ [v t] M']| |]; cbn; csw; reflexivity.
Qed.
End log.
