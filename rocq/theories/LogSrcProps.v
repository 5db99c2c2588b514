(** * Property C117: every history of calls of the text of mu_log.c, with logging functions that call it again *)
From Verif Require Import CSym SrcLog LogSrc.
Open Scope string_scope. Open Scope Z_scope.
Notation length := List.length.

(** ** The program: it makes the calls, keeps a record in the object [tr] and makes the calls [inside] when its logging
    function is called *)
Definition op_call (o : lop) : string * list val :=
  match o with
  | OInit t f => ("mu_log_init", [VI t; fnval f]) | OSetThreshold t => ("mu_log_set_reporting_threshold", [VI t])
  | OGetThreshold => ("mu_log_get_reporting_threshold", []) | OSetFn f => ("mu_log_set_logging_function", [fnval f])
  | OGetFn => ("mu_log_get_logging_function", []) | OGetLevel => ("mu_log_get_reporting_level", [])
  | OIsReporting l => ("mu_log_is_reporting", [VI l]) | OName l => ("mu_log_level_name", [VI l])
  | OLog l fmt ap => ("mu_log", [VI l; ptrv fmt; ptrv ap])
  end.
Definition note (tr : nat) (vs : list val) (M : mem) : res mem :=
  match heap M !! tr with Some l => Ok (MkMem (<[tr := (l ++ vs)%list]> (heap M)) (next M)) | None => UB end.
Section run.
Context (p : plat) (fuel : nat) (ext : string -> list val -> mem -> res (val * ty * mem)) (tr : nat).
Fixpoint run_act (a : act) (M : mem) {struct a} : res mem :=
  let runs := fix runs (l : list act) (M : mem) : res mem := match l with [] => Ok M | a :: l => let* M := run_act a M in runs l M end in
  match a with Act o inside =>
    let* '(v, _, M) := CLang.call p log_prog fuel ext
      (fun f vs M => let* M := note tr (VI 1 :: f :: vs) M in let* M := runs inside M in Ok (VI 0, Tvoid, M)) 3 (fst (op_call o)) (snd (op_call o)) M in
    note tr [VI 0; v] M
  end.
Fixpoint run_acts (l : list act) (M : mem) : res mem := match l with [] => Ok M | a :: l => let* M := run_act a M in run_acts l M end.

(** ** Proof *)
Definition after (M M' : mem) (s : logger) (t : list val) : Prop :=
  statics M' s /\ heap M' !! tr = Some t /\ next M' = next M /\ forall k, k <> tr -> (k < 7 \/ 9 < k)%nat -> heap M' !! k = heap M !! k.
Lemma statics_names k x : (k, x) ∈ names -> (k < 6 \/ k = 10)%nat.
Proof. unfold names. intros Hk. repeat (apply elem_of_cons in Hk as [Hk|Hk]; [injection Hk as -> ->; lia|]). by apply elem_of_nil in Hk. Qed.
Lemma statics_put M s k v s' : statics M s -> (k = 7 /\ (exists t, uint_ok t /\ v = [VI t] /\ s' = MkLogger t (level s) (logfn s)) \/
    k = 8 /\ (exists l, uint_ok l /\ v = [VI l] /\ s' = MkLogger (threshold s) l (logfn s)) \/
    k = 9 /\ (exists f, v = [fnval f] /\ s' = MkLogger (threshold s) (level s) f) \/ 10 < k /\ s' = s)%nat ->
  statics (MkMem (<[k := v]> (heap M)) (next M)) s'.
Proof.
  intros [H7 H8 H9 H6 Hn Hr] Hk. assert (k >= 7 /\ k <> 10)%nat as Hk' by (destruct Hk as [Hk|[Hk|[Hk|Hk] ] ]; lia).
  assert (forall j x, (j, x) ∈ names -> heap (MkMem (<[k := v]> (heap M)) (next M)) !! j = Some (VI <$> chars x)) as Hn'.
  { intros j x Hj. cbn [heap]. rewrite lookup_insert_ne; [by apply Hn|]. apply statics_names in Hj. lia. }
  destruct Hk as [ [-> (t & Ht & -> & ->)]|[ [-> (l & Hl & -> & ->)]|[ [-> (f & -> & ->)]|[Hk ->] ] ] ];
    constructor; cbn [heap threshold level logfn]; try exact Hn'; try (rewrite lookup_insert_ne by lia; first [assumption|rewrite H6; reflexivity]); try apply lookup_insert; try exact Hr; try (split; [assumption|apply Hr]); try (split; [apply Hr|assumption]).
Qed.
Lemma after_refl M s t : statics M s -> heap M !! tr = Some t -> after M M s t.
Proof. intros H1 H2. split_and!; [exact H1|exact H2|reflexivity|reflexivity]. Qed.
Lemma after_trans M M1 M2 s t s' t' : after M M1 s t -> after M1 M2 s' t' -> after M M2 s' t'.
Proof. intros (_ & _ & Hn & Hk) (A & B & C & D). split_and!; [done|done|by rewrite C|]. intros k H1 H2. rewrite D, Hk; done. Qed.
Context (Htr : (10 < tr)%nat).
Lemma note_after M s t vs : statics M s -> heap M !! tr = Some t -> exists M', note tr vs M = Ok M' /\ after M M' s (t ++ vs)%list.
Proof.
  intros Hs Ht. unfold note. rewrite Ht. eexists. split; [reflexivity|]. split_and!; cbn [heap next].
  - apply statics_put with s; [done|]. right; right; right. done.
  - apply lookup_insert.
  - done.
  - intros k Hk _. by rewrite lookup_insert_ne.
Qed.
Lemma put_after M s t k v s' : statics M s -> heap M !! tr = Some t -> (7 <= k <= 9)%nat -> statics (MkMem (<[k := v]> (heap M)) (next M)) s' ->
  after M (MkMem (<[k := v]> (heap M)) (next M)) s' t.
Proof. intros Hs Ht Hk Hs'. split_and!; cbn [heap next]; [done|rewrite lookup_insert_ne by lia; done|done|]. intros j _ Hj. rewrite lookup_insert_ne by lia. done. Qed.
Definition sim (r : mem -> res mem) (sp : logger -> logger * list val) : Prop :=
  forall M s t, statics M s -> heap M !! tr = Some t -> exists M', r M = Ok M' /\ after M M' (sp s).1 (t ++ (sp s).2)%list.
Lemma acts_sim l : Forall (fun a => sim (run_act a) (spec_act a)) l -> sim (run_acts l) (spec_acts l).
Proof.
  induction 1 as [|a l Ha _ IH]; intros M s t Hs Ht; cbn [run_acts spec_acts].
  - exists M. split; [done|]. cbn. rewrite app_nil_r. by apply after_refl.
  - destruct (Ha M s t Hs Ht) as (M1 & -> & A1). cbn. destruct (spec_act a s) as [s1 t1] eqn:E1. cbn [fst snd] in A1.
    destruct (IH M1 s1 (t ++ t1)%list) as (M2 & -> & A2); [apply A1|apply A1|]. destruct (spec_acts l s1) as [s2 t2]. cbn [fst snd] in *.
    exists M2. split; [done|]. rewrite app_assoc. by apply (after_trans _ M1 _ s1 (t ++ t1)%list).
Qed.
Lemma run_act_eq o inside M : run_act (Act o inside) M =
  let* '(v, _, M) := CLang.call p log_prog fuel ext
      (fun f vs M => let* M := note tr (VI 1 :: f :: vs) M in let* M := run_acts inside M in Ok (VI 0, Tvoid, M)) 3 (fst (op_call o)) (snd (op_call o)) M in
    note tr [VI 0; v] M.
Proof. reflexivity. Qed.
Lemma spec_act_log l fmt ap inside s f : logfn s = Some f -> threshold s <=? l = true -> spec_act (Act (OLog l fmt ap) inside) s =
  (let '(s, tr) := spec_acts inside (MkLogger (threshold s) l (Some f)) in (s, (VI 1 :: VP f 0 :: ptrv fmt :: ptrv ap :: tr ++ [VI 0; VI 0])%list)).
Proof. intros Hf Ht. cbn. rewrite Hf, Ht. reflexivity. Qed.
Lemma act_sim o inside : op_ok o -> sim (run_acts inside) (spec_acts inside) -> sim (run_act (Act o inside)) (spec_act (Act o inside)).
Proof.
  intros Ho IH M s t Hs Ht. rewrite run_act_eq.
  assert (forall M1 s1 t1 v, after M M1 s1 t1 -> exists M', note tr [VI 0; v] M1 = Ok M' /\ after M M' s1 (t1 ++ [VI 0; v])%list) as Hdone.
  { intros M1 s1 t1 v A. destruct (note_after M1 s1 t1 [VI 0; v]) as (M2 & E & A2); [apply A|apply A|]. exists M2. split; [done|]. by apply (after_trans _ M1 _ s1 t1). }
  destruct o as [th f|th| |f| | |l|l|l fmt ap]; cbn [op_call fst snd op_ok] in *.
  - erewrite src_init by eassumption. cbn. apply Hdone. apply (after_trans _ (with_t M th) _ (MkLogger th (level s) (logfn s)) t).
    + apply put_after with s; [done|done|lia|]. apply statics_put with s; [done|]. left. split; [done|]. by exists th.
    + assert (statics (with_t M th) (MkLogger th (level s) (logfn s))) as Hs1 by (apply statics_put with s; [done|]; left; split; [done|]; by exists th).
      apply put_after with (MkLogger th (level s) (logfn s)); [done|cbn; rewrite lookup_insert_ne by lia; done|lia|].
      apply statics_put with (MkLogger th (level s) (logfn s)); [done|]. right; right; left. split; [done|]. by exists f.
  - erewrite src_set_threshold by eassumption. cbn. apply Hdone. apply put_after with s; [done|done|lia|]. apply statics_put with s; [done|]. left. split; [done|]. by exists th.
  - erewrite src_get_threshold by eassumption. cbn. apply Hdone. by apply after_refl.
  - erewrite src_set_fn by eassumption. cbn. apply Hdone. apply put_after with s; [done|done|lia|]. apply statics_put with s; [done|]. right; right; left. split; [done|]. by exists f.
  - erewrite src_get_fn by eassumption. cbn. apply Hdone. by apply after_refl.
  - erewrite src_get_level by eassumption. cbn. apply Hdone. by apply after_refl.
  - erewrite src_is_reporting by eassumption. cbn. apply Hdone. by apply after_refl.
  - erewrite src_level_name by eassumption. cbn. apply Hdone. by apply after_refl.
  - erewrite src_log by eassumption. destruct (logfn s) as [f|] eqn:Ef.
    2:{ cbn [spec_act]. rewrite Ef. cbn. apply Hdone. by apply after_refl. }
    destruct (threshold s <=? l) eqn:El.
    2:{ cbn [spec_act]. rewrite Ef, El. cbn. apply Hdone. by apply after_refl. }
    rewrite (spec_act_log _ _ _ _ _ f Ef El).
    assert (statics (with_l M l) (MkLogger (threshold s) l (Some f))) as Hs1.
    { apply statics_put with s; [done|]. right; left. split; [done|]. exists l. by rewrite Ef. }
    assert (after M (with_l M l) (MkLogger (threshold s) l (Some f)) t) as A1 by (by apply put_after with s; [done|done|lia|]).
    destruct (note_after (with_l M l) _ t [VI 1; VP f 0; ptrv fmt; ptrv ap] Hs1) as (M2 & E2 & A2); [apply A1|].
    rewrite E2. cbn. destruct (IH M2 _ _ (proj1 A2) (proj1 (proj2 A2))) as (M3 & E3 & A3). rewrite E3. cbn.
    destruct (spec_acts inside _) as [s3 t3]. cbn [fst snd] in *.
    destruct (Hdone M3 s3 _ (VI 0) (after_trans _ _ _ _ _ _ _ (after_trans _ _ _ _ _ _ _ A1 A2) A3)) as (M4 & E4 & A4).
    exists M4. split; [done|]. revert A4. rewrite <- !app_assoc. done.
Qed.
Fixpoint act_rect' (P : act -> Prop) (H : forall o inside, Forall P inside -> P (Act o inside)) (a : act) : P a :=
  match a with Act o inside => H o inside ((fix go l : Forall P l := match l with [] => Forall_nil_2 P | a :: l => Forall_cons_2 P a l (act_rect' P H a) (go l) end) inside) end.
Lemma run_act_sim a : act_ok a -> sim (run_act a) (spec_act a).
Proof.
  induction a as [o inside IH] using act_rect'. intros Hok. inversion Hok as [o' i' Ho Hi]; subst. apply act_sim; [done|]. apply acts_sim.
  clear Hok. induction inside as [|a l IHl]; [by apply Forall_nil|]. apply Forall_cons in IH as [Ha Hl]. apply Forall_cons in Hi as [Hia Hil].
  apply Forall_cons. split; [by apply Ha|by apply IHl].
Qed.
End run.

(** ** Theorems *)
(** Every history: the calls [l], and the calls their logging functions make, run by the rules of C from any memory in
    which the file's objects exist, do no undefined behaviour, and what the program has recorded (every entry of a logging
    function with its arguments, every result) is exactly what the specification says; nothing else is written. *)
Theorem C117_source_history p fuel ext tr l M s t :
  (10 < tr)%nat -> Forall act_ok l -> statics M s -> heap M !! tr = Some t ->
  exists M', run_acts p fuel ext tr l M = Ok M' /\
    statics M' (spec_acts l s).1 /\ heap M' !! tr = Some (t ++ (spec_acts l s).2)%list /\ next M' = next M /\
    forall k, k <> tr -> (k < 7 \/ 9 < k)%nat -> heap M' !! k = heap M !! k.
Proof.
  intros Htr Hl Hs Ht. apply (acts_sim p fuel ext tr l); [|done|done].
  apply Forall_impl with (2 := fun a => run_act_sim p fuel ext tr Htr a). done.
Qed.
(** mu_log itself, for any logging function the user can write: [user f args m] is what calling the user's function does to
    the memory, or the undefined behaviour it commits. The level is stored before the call; nothing is done after it. *)
Theorem C117_source_log p fuel ext user d M s l fmt ap : statics M s -> uint_ok l ->
  CLang.call p log_prog fuel ext user (S (S d)) "mu_log" [VI l; ptrv fmt; ptrv ap] M =
    match logfn s with
    | Some f => if threshold s <=? l
        then let* '(_, _, M) := user (VP f 0) [ptrv fmt; ptrv ap] (MkMem (<[8%nat := [VI l]]> (heap M)) (next M)) in Ok (VI 0, Tvoid, M)
        else Ok (VI 0, Tvoid, M)
    | None => Ok (VI 0, Tvoid, M)
    end.
Proof. apply src_log. Qed.
(** the name of a level, as characters: read from where the returned pointer points to *)
Theorem C117_source_level_name p fuel ext user d M s l : statics M s -> uint_ok l ->
  exists k, CLang.call p log_prog fuel ext user (S d) "mu_log_level_name" [VI l] M = Ok (VP k 0, Tptr (Tint true W8), M) /\
    heap M !! k = Some (VI <$> chars (nth (Z.to_nat (Z.min l 6)) ["TRACE"; "DEBUG"; "INFO"; "WARN"; "ERROR"; "FATAL"; "UNKNOWN"] "")).
Proof.
  intros Hs Hl. exists (name_object l). split; [by apply src_level_name with s|]. destruct Hs as [_ _ _ _ Hn _]. apply Hn.
  unfold uint_ok, name_object, names in *. destruct (l <? 6) eqn:E.
  - apply Z.ltb_lt in E. assert (l = 0 \/ l = 1 \/ l = 2 \/ l = 3 \/ l = 4 \/ l = 5) as [-> |[-> |[-> |[-> |[-> | ->] ] ] ] ] by lia; cbn; repeat (first [apply elem_of_list_here|apply elem_of_list_further]).
  - apply Z.ltb_ge in E. rewrite Z.min_r by lia. cbn. repeat (first [apply elem_of_list_here|apply elem_of_list_further]).
Qed.
(** the objects the text itself initialises are the ones [statics] describes *)
Definition first_memory : mem := MkMem (list_to_map
  [(0%nat, VI <$> lit_str_0); (1%nat, VI <$> lit_str_1); (2%nat, VI <$> lit_str_2); (3%nat, VI <$> lit_str_3); (4%nat, VI <$> lit_str_4); (5%nat, VI <$> lit_str_5);
   (6%nat, (fun k => VP k 0) <$> init_s_level_names); (7%nat, [VI 0]); (8%nat, [VI 0]); (9%nat, [VI 0]); (10%nat, VI <$> lit_str_6); (11%nat, [])]) 12.
Theorem C117_source_start : statics first_memory (MkLogger 0 0 None).
Proof.
  constructor; try reflexivity; [|unfold uint_ok; cbn; lia].
  intros k x Hk. unfold names in Hk. repeat (apply elem_of_cons in Hk as [Hk|Hk]; [injection Hk as -> ->; reflexivity|]). by apply elem_of_nil in Hk.
Qed.
(** non-vacuity: init (WARN, f at 30); log INFO (no report); log ERROR, whose logging function asks for the level, raises
    the threshold to FATAL and logs ERROR again (not reported); then a log with NULL installed *)
Definition example : list act :=
  [Act (OInit 3 (Some 30%nat)) []; Act (OLog 2 (20%nat, 0) (21%nat, 0)) [Act OGetLevel []];
   Act (OLog 4 (20%nat, 0) (21%nat, 0)) [Act OGetLevel []; Act (OSetThreshold 5) []; Act (OLog 4 (22%nat, 0) (21%nat, 0)) []];
   Act (OSetFn None) []; Act (OLog 5 (20%nat, 0) (21%nat, 0)) []; Act OGetThreshold []; Act (OName 6) []].
Theorem C117_example : Forall act_ok example /\
  match run_acts P32 5 (fun _ _ _ => UB) 11 example first_memory with Ok M => heap M !! 11%nat | _ => None end = Some
    [VI 0; VI 0; VI 0; VI 0; VI 1; VP 30 0; VP 20 0; VP 21 0; VI 0; VI 4; VI 0; VI 0; VI 0; VI 0; VI 0; VI 0; VI 0; VI 0; VI 0; VI 0; VI 0; VI 5; VI 0; VP 10 0].
Proof. split; [|vm_compute; reflexivity]. unfold example. repeat (apply Forall_cons; split; [repeat (constructor; unfold uint_ok; try lia)|]). by apply Forall_nil. Qed.
