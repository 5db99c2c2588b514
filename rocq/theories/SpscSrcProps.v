(** * Properties C108 and C109: the text of mu_spsc.c, alone and run by two threads *)
From Verif Require Import CTreeSym SrcSpsc.
From Verif Require Import FifoSpec SpscModel SpscProofs SpscProps SpscSrc SpscThreads.
Open Scope string_scope. Open Scope Z_scope.

Section source.
Context (p : plat) (fuel : nat) (ext : string -> list val -> mem -> res (val * ty * mem))
  (ext_ptr : val -> list val -> mem -> res (val * ty * mem)).
(** a call of a function of mu_spsc.c *)
Definition scall (f : string) (vs : list val) (m : mem) : res (val * mem) :=
  let* '(v, _, m) := call p spsc_prog fuel ext ext_ptr 2 f vs m in Ok (v, m).
(** one call by a user whose queue is object [qb] and whose variable for the item is object [eb] *)
Definition src_sop (qb eb : nat) (op : sop) (m : mem) : res (qobs * mem) :=
  match op with
  | SPut x => let* '(v, m) := scall "mu_spsc_put" [VP qb 0; VI x] m in
              match v with VI 0 => Ok (QBool true, m) | VI 2 => Ok (QBool false, m) | _ => UB end
  | SGet => let* '(v, m) := scall "mu_spsc_get" [VP qb 0; VP eb 0] m in
            let* e := load_mem m eb 0 in let* x := num e in
            match v with VI 0 => Ok (QItem true x, m) | VI 1 => Ok (QItem false x, m) | _ => UB end
  | SReset => let* '(v, m) := scall "mu_spsc_reset" [VP qb 0] m in
              match v with VI 0 => Ok (QUnit, m) | _ => UB end
  | SCapacity => let* '(v, m) := scall "mu_spsc_capacity" [VP qb 0] m in let* n := num v in Ok (QNum n, m)
  end.
Fixpoint src_sops (qb eb : nat) (ops : list sop) (m : mem) : res (list qobs * mem) :=
  match ops with
  | [] => Ok ([], m)
  | op :: ops => let* '(o, m) := src_sop qb eb op m in let* '(os, m) := src_sops qb eb ops m in Ok (o :: os, m)
  end.
Definition untouched (m m' : mem) (bs : list nat) : Prop :=
  next m' = next m /\ forall b, ~ In b bs -> heap m' !! b = heap m !! b.
Notation sat := (spsc_at VI).
Notation setq := (set_spsc VI).
Lemma VI_def : forall x : Z, defined (VI x) = Ok (VI x). Proof. done. Qed.
Lemma set_at m qb sb q q' : sat m qb sb q -> 0 <= s_mask q' < 65536 -> 0 <= s_head q' < 65536 ->
  0 <= s_tail q' < 65536 -> sat (setq m qb sb q') qb sb q'.
Proof.
  intros [H1 H2 Hne _ _ _] Hc Hn Hi. split; try done; cbn.
  - by rewrite lookup_insert.
  - rewrite lookup_insert_ne by done. by rewrite lookup_insert.
Qed.
Lemma set_var_at m qb sb eb q v : sat m qb sb q -> eb <> qb -> eb <> sb -> sat (set_var m eb v) qb sb q.
Proof. intros [H1 H2 Hne Hc Hn Hi] He1 He2. split; try done; cbn; by rewrite lookup_insert_ne. Qed.
Lemma set_other m qb sb q : untouched m (setq m qb sb q) [qb; sb].
Proof. split; [done|]. intros b Hb. cbn. rewrite !lookup_insert_ne by (intros ->; apply Hb; cbn; tauto). done. Qed.
Lemma put_range q x e q' : 0 <= s_mask q < 65536 -> 0 <= s_head q < 65536 -> 0 <= s_tail q < 65536 -> mu_spsc_put q x = Ok (e, q') ->
  0 <= s_mask q' < 65536 /\ 0 <= s_head q' < 65536 /\ 0 <= s_tail q' < 65536 /\ e <> SPSC_EMPTY /\ e <> SPSC_SIZE.
Proof.
  intros Hm Hh Ht. unfold mu_spsc_put. destruct (_ =? _); [intros [= <- <-]; done|].
  destruct (st _ _ _); cbn; try done. intros [= <- <-]. cbn. split; [done|]. split; [done|]. split; [|done]. unfold to_u16. apply Z.mod_pos_bound. lia.
Qed.
Lemma get_range q x e q' : 0 <= s_mask q < 65536 -> 0 <= s_head q < 65536 -> 0 <= s_tail q < 65536 -> mu_spsc_get q = Ok (e, x, q') ->
  0 <= s_mask q' < 65536 /\ 0 <= s_head q' < 65536 /\ 0 <= s_tail q' < 65536 /\ e <> SPSC_FULL /\ e <> SPSC_SIZE.
Proof.
  intros Hm Hh Ht. unfold mu_spsc_get. destruct (_ =? _); [intros [= <- _ <-]; done|].
  destruct (ld _ _); cbn; try done. intros [= <- _ <-]. cbn. split; [done|]. split; [|done]. unfold to_u16. apply Z.mod_pos_bound. lia.
Qed.
Lemma op_ok m qb sb eb q op v0 o q' : sat m qb sb q -> eb <> qb -> eb <> sb -> heap m !! eb = Some [v0] ->
  srun1 q op = Ok (o, q') ->
  exists m' v1, src_sop qb eb op m = Ok (o, m') /\ sat m' qb sb q' /\ heap m' !! eb = Some [v1] /\ untouched m m' [qb; sb; eb].
Proof.
  intros Hq He1 He2 Hv E. pose proof Hq as [_ _ _ Hc Hn Hi].
  assert (Hs : forall q1, untouched m (setq m qb sb q1) [qb; sb; eb]).
  { intros q1. split; [done|]. intros b Hb. apply set_other. cbn in *. tauto. }
  destruct op; cbn [srun1] in E; unfold src_sop, scall.
  - erewrite src_put by (done || exact VI_def). destruct (mu_spsc_put q x) as [[b q1]| |] eqn:E1; cbn in E; try discriminate E.
    destruct (put_range _ _ _ _ Hc Hn Hi E1) as (? & ? & ? & Hne1 & Hne2).
    injection E as <- <-. cbn [bind]. exists (setq m qb sb q1), v0. split; [destruct b; done|]. split; [by eapply set_at|]. split; [|apply Hs].
    cbn. rewrite !lookup_insert_ne by done. exact Hv.
  - erewrite src_get by (done || exact VI_def || eauto). destruct (mu_spsc_get q) as [[[b e] q1]| |] eqn:E1; cbn in E; try discriminate E.
    destruct (get_range _ _ _ _ Hc Hn Hi E1) as (? & ? & ? & Hne1 & Hne2).
    injection E as <- <-. cbn [bind]. exists (set_var (setq m qb sb q1) eb (VI e)), (VI e).
    unfold load_mem. cbn [bind heap set_var next]. rewrite lookup_insert. cbn [ofopt bind]. split; [destruct b; done|].
    split; [apply set_var_at; [by eapply set_at|done|done]|]. split; [first [reflexivity | apply lookup_insert]|].
    split; [done|]. intros b' Hb. cbn in *. rewrite !lookup_insert_ne by (intros ->; tauto). done.
  - injection E as <- <-. erewrite src_reset by (done || exact VI_def). cbn.
    eexists _, _. split; [reflexivity|]. split; [eapply set_at; [done|done|cbn; lia..]|].
    split; [|apply Hs]. cbn. rewrite !lookup_insert_ne by done. exact Hv.
  - injection E as <- <-. erewrite src_capacity by (done || exact VI_def). cbn. exists m, v0. done.
Qed.
Lemma ops_ok ops : forall m qb sb eb q v0 os q', sat m qb sb q -> eb <> qb -> eb <> sb -> heap m !! eb = Some [v0] ->
  srun q ops = Ok (os, q') ->
  exists m', src_sops qb eb ops m = Ok (os, m') /\ untouched m m' [qb; sb; eb] /\ sat m' qb sb q'.
Proof.
  induction ops as [|op ops IH]; intros m qb sb eb q v0 os q' Hq He1 He2 Hv E; cbn in E.
  - injection E as <- <-. exists m. done.
  - destruct (srun1 q op) as [[o q1]| |] eqn:E1; cbn in E; try discriminate E.
    destruct (srun q1 ops) as [[os1 q2]| |] eqn:E2; cbn in E; try discriminate E. injection E as <- <-.
    destruct (op_ok _ _ _ _ _ _ _ _ _ Hq He1 He2 Hv E1) as (m1 & v1 & Hs & Hq1 & Hv1 & Hu1).
    destruct (IH _ _ _ _ _ _ _ _ Hq1 He1 He2 Hv1 E2) as (m2 & Hs2 & Hu2 & Hq2).
    exists m2. cbn. rewrite Hs. cbn. rewrite Hs2. split; [done|]. split; [|done].
    destruct Hu1 as [Hn1 Hu1], Hu2 as [Hn2 Hu2]. split; [congruence|]. intros b Hb. rewrite Hu2, Hu1 by done. done.
Qed.
End source.

(** ** C108: in any memory with a queue object [qb] and slots [sb], an array of pointers of any
    contents: [mu_spsc_init] succeeds exactly if the number of slots is a power of two, at least 2,
    and otherwise reports the error and changes nothing. *)
Theorem C108_source_init : forall p fuel ext ext_ptr m qb sb c items,
  heap m !! qb = Some c -> length c = 4%nat -> heap m !! sb = Some (VI <$> items) -> qb <> sb ->
  let size := Z.of_nat (length items) in size < 65536 ->
  ((exists k, 1 <= k /\ size = 2 ^ k) ->
    exists m1, scall p fuel ext ext_ptr "mu_spsc_init" [VP qb 0; VP sb 0; VI size] m = Ok (VI 0, m1) /\ untouched m m1 [qb]) /\
  (~ (exists k, 1 <= k /\ size = 2 ^ k) -> scall p fuel ext ext_ptr "mu_spsc_init" [VP qb 0; VP sb 0; VI size] m = Ok (VI 3, m)).
Proof.
  intros p fuel ext ext_ptr m qb sb c items H1 Hl H2 Hne size Hs. unfold scall.
  erewrite (src_init p fuel ext ext_ptr VI) by (done || exact VI_def || (unfold size; lia)).
  destruct (C12_spsc_init (MkS [] 0 0 0) items size ltac:(unfold size in *; lia)) as [Hok Hbad]. unfold mu_spsc_init in Hok, Hbad. split; intros Hk.
  - destruct (Hok Hk) as (q' & E & _). destruct (_ || _); [discriminate E|]. cbn [bind]. eexists. split; [reflexivity|].
    split; [done|]. intros b Hb. cbn. rewrite lookup_insert_ne by (intros ->; apply Hb; cbn; tauto).
    destruct (decide (b = sb)) as [->|Hn]; [rewrite lookup_insert; done|rewrite lookup_insert_ne by done; done].
  - specialize (Hbad Hk). destruct (_ || _); [done|]. discriminate Hbad.
Qed.
Print Assumptions C108_source_init.
Lemma init_at p fuel ext ext_ptr m qb sb c items m1 : heap m !! qb = Some c -> length c = 4%nat -> heap m !! sb = Some (VI <$> items) -> qb <> sb ->
  let size := Z.of_nat (length items) in size < 65536 ->
  scall p fuel ext ext_ptr "mu_spsc_init" [VP qb 0; VP sb 0; VI size] m = Ok (VI 0, m1) ->
  exists q0, mu_spsc_init (MkS [] 0 0 0) items size = (SPSC_NONE, q0) /\ spsc_at VI m1 qb sb q0 /\ 2 <= size <= 32768 /\ s_mask q0 = size - 1 /\
    untouched m m1 [qb; sb] /\ same_shape m1 m.
Proof.
  intros H1 Hl H2 Hne size Hs. unfold scall.
  erewrite (src_init p fuel ext ext_ptr VI) by (done || exact VI_def || (unfold size; lia)).
  unfold mu_spsc_init. destruct (_ || _) eqn:E; [intros [=]|]. cbn [bind]. intros [= <-]. 
  eexists. split; [reflexivity|]. assert (Hb : 2 <= size). { apply orb_false_elim in E as [E _]. apply Z.ltb_ge in E. done. }
  assert (Hr : srep size (snd (mu_spsc_reset (MkS items (to_u16 (size - 1)) 0 0))) []).
  { eapply (init_rep (MkS [] 0 0 0) items size SPSC_NONE); [unfold size in *; lia|done|unfold mu_spsc_init; rewrite E; done|done]. }
  destruct Hr as ((k & _ & _ & Hle) & Hmask & _). cbn in Hmask |- *. rewrite Hmask. split.
  { split; cbn; try lia; try done; [by rewrite lookup_insert|]. rewrite lookup_insert_ne, lookup_insert by done. done. }
  split; [lia|]. split; [done|]. split; [apply set_other|].
  intros b. cbn. destruct (decide (b = qb)) as [->|Hn]; [rewrite lookup_insert, H1; cbn; rewrite Hl; done|].
  rewrite lookup_insert_ne by done. destruct (decide (b = sb)) as [->|Hn2]; [rewrite lookup_insert, H2; done|by rewrite lookup_insert_ne].
Qed.
(** ... and then any sequence of calls by one thread returns what the FIFO of capacity [size - 1]
    returns, without undefined behaviour, and changes no other object. *)
Theorem C108_source_fifo : forall p fuel ext ext_ptr m qb sb eb c items v0 m1 ops,
  heap m !! qb = Some c -> length c = 4%nat -> heap m !! sb = Some (VI <$> items) -> heap m !! eb = Some [v0] ->
  qb <> sb -> eb <> qb -> eb <> sb ->
  let size := Z.of_nat (length items) in size < 65536 ->
  scall p fuel ext ext_ptr "mu_spsc_init" [VP qb 0; VP sb 0; VI size] m = Ok (VI 0, m1) ->
  exists m2, src_sops p fuel ext ext_ptr qb eb ops m1 = Ok (fst (fifo_run (size - 1) [] (map sop_q ops)), m2) /\
    untouched m m2 [qb; sb; eb].
Proof.
  intros p fuel ext ext_ptr m qb sb eb c items v0 m1 ops H1 Hl H2 H3 Hne He1 He2 size Hs E.
  destruct (init_at _ _ _ _ _ _ _ _ _ _ H1 Hl H2 Hne Hs E) as (q0 & Hi & Hat & _ & _ & Hu & _). fold size in Hi.
  destruct (C13_spsc_sequential_fifo (MkS [] 0 0 0) items size q0 ops ltac:(unfold size in *; lia) eq_refl Hi) as (q' & Hq).
  assert (H3' : heap m1 !! eb = Some [v0]). { destruct Hu as [_ Hu]. rewrite Hu; [done|]. cbn. intuition. }
  destruct (ops_ok p fuel ext ext_ptr ops m1 qb sb eb q0 v0 _ q' Hat He1 He2 H3' Hq) as (m2 & Hm2 & Hu2 & _).
  exists m2. split; [exact Hm2|]. destruct Hu as [Hn Hu], Hu2 as [Hn2 Hu2]. split; [congruence|]. intros b Hb. rewrite Hu2 by done. apply Hu. cbn in *; tauto.
Qed.
Print Assumptions C108_source_fifo.
Example C108_example :
  let m := MkMem (<[10%nat := [VU; VU; VU; VU]]> (<[11%nat := [VI 7; VI 7; VI 7; VI 7]]> (<[12%nat := [VU]]> ∅))) 20 in
  let none1 := fun _ _ _ => UB in let none2 := fun _ _ _ => UB in
  (let* '(v, m1) := scall P32 0 none1 none2 "mu_spsc_init" [VP 10 0; VP 11 0; VI 4] m in
   let* '(os, _) := src_sops P32 0 none1 none2 10 12 [SPut 1; SPut 2; SPut 3; SPut 4; SGet; SPut 5; SGet; SGet; SGet; SGet; SCapacity] m1 in Ok (v, os)) =
    Ok (VI 0, [QBool true; QBool true; QBool true; QBool false; QItem true 1; QBool true; QItem true 2; QItem true 3; QItem true 5; QItem false 0; QNum 3]).
Proof. vm_compute. reflexivity. Qed.
(** the functions one by one are those of the model of C12-C15 *)
Theorem C108_source_is_model : forall p fuel ext ext_ptr m qb sb eb q v0,
  spsc_at VI m qb sb q -> heap m !! eb = Some [v0] -> eb <> qb -> eb <> sb ->
  let run f vs := call p spsc_prog fuel ext ext_ptr 2 f vs m in
  (forall x, run "mu_spsc_put" [VP qb 0; VI x] =
     let* '(e, q) := mu_spsc_put q x in Ok (VI (err_code e), Tint false W32, set_spsc VI m qb sb q)) /\
  run "mu_spsc_get" [VP qb 0; VP eb 0] =
     (let* '(e, x, q) := mu_spsc_get q in Ok (VI (err_code e), Tint false W32, set_var (set_spsc VI m qb sb q) eb (VI x))) /\
  run "mu_spsc_reset" [VP qb 0] = Ok (VI 0, Tint false W32, set_spsc VI m qb sb (snd (mu_spsc_reset q))) /\
  run "mu_spsc_capacity" [VP qb 0] = Ok (VI (mu_spsc_capacity q), Tint false W16, m).
Proof.
  intros p fuel ext ext_ptr m qb sb eb q v0 Hq Hv He1 He2 run. unfold run. split_and!.
  - intros x. apply src_put; done || exact VI_def.
  - apply src_get; done || exact VI_def || eauto.
  - eapply (src_reset p fuel ext ext_ptr VI); done.
  - eapply (src_capacity p fuel ext ext_ptr VI); done.
Qed.
Print Assumptions C108_source_is_model.

(** ** C109: one thread calls put, the other get, in any interleaving of their memory accesses.
    No undefined behaviour, and the history is linearizable. *)
Theorem C109_source_linearizable : forall p fuel ext ext_ptr m qb sb eb c items v0 m1 schedule,
  heap m !! qb = Some c -> length c = 4%nat -> heap m !! sb = Some (VI <$> items) -> heap m !! eb = Some [v0] ->
  qb <> sb -> eb <> qb -> eb <> sb ->
  let size := Z.of_nat (length items) in size < 65536 ->
  scall p fuel ext ext_ptr "mu_spsc_init" [VP qb 0; VP sb 0; VI size] m = Ok (VI 0, m1) ->
  exists s evs, thrun p fuel m1 qb eb (MkTh m1 None None) schedule = Ok (s, evs) /\ linearizable (size - 1) evs.
Proof.
  intros p fuel ext ext_ptr m qb sb eb c items v0 m1 ls H1 Hl H2 H3 Hne He1 He2 size Hs E.
  destruct (init_at _ _ _ _ _ _ _ _ _ _ H1 Hl H2 Hne Hs E) as (q0 & Hi & Hat & Hb & _ & Hu & _). fold size in Hi, Hb.
  assert (H3' : heap m1 !! eb = Some [v0]). { destruct Hu as [_ Hu]. rewrite Hu; [done|]. cbn. intuition. }
  pose proof (init_rep (MkS [] 0 0 0) items size SPSC_NONE q0 ltac:(unfold size in *; lia) eq_refl Hi eq_refl) as Hr. pose proof Hat as [Ha1 Ha2 _ _ _ _].
  assert (Hlen : Z.of_nat (length (VI <$> s_store q0)) = size) by (rewrite fmap_length; destruct Hr as (_ & _ & Hr & _); exact Hr).
  destruct (run_sim p fuel m1 qb sb eb size Hne He1 He2 (fun x => put_does p fuel m1 qb sb size _ Ha2 Hlen 0 x)
    (get_does p fuel m1 qb sb eb size _ Ha2 Hlen 0) Hb ls (MkTh m1 None None) (MkC q0 PIdle CIdle) [] Out Out)
    as (s' & evs & h & ls' & c' & mevs & l' & fp & fc & Hrun & Hc & _ & _ & Hev & Hef & Hp & Hg).
  - split; cbn; try done. exists v0. done.
  - split; done.
  - exists s', evs. split; [exact Hrun|]. exists h. split; [done|]. split; [by eexists|]. split; [by eexists|]. cbv zeta. rewrite Hef.
    destruct (C14_spsc_linearizable (MkS [] 0 0 0) items size q0 ls' ltac:(unfold size in *; lia) eq_refl Hi) as (s2 & e2 & Hc2 & Hf).
    rewrite Hc in Hc2. injection Hc2 as <- <-. exact Hf.
Qed.
Print Assumptions C109_source_linearizable.

(** the next access of a thread: which cell, and whether it is a write *)
Definition next_access (t : tree (val * ty)) : option (nat * Z * bool) :=
  match t with Load b o _ => Some (b, o, false) | Store b o _ _ => Some (b, o, true) | _ => None end.
(** mu_spsc.h:60-61: the members declared volatile *)
Definition volatile (qb : nat) (b : nat) (o : Z) : Prop := b = qb /\ (o = 1 \/ o = 2).
(** No data race: when both threads are about to access the same cell, and one to write it, then
    that cell is [head] or [tail]. *)
Theorem C109_source_no_race : forall p fuel ext ext_ptr m qb sb eb c items v0 m1 schedule s evs,
  heap m !! qb = Some c -> length c = 4%nat -> heap m !! sb = Some (VI <$> items) -> heap m !! eb = Some [v0] ->
  qb <> sb -> eb <> qb -> eb <> sb ->
  let size := Z.of_nat (length items) in size < 65536 ->
  scall p fuel ext ext_ptr "mu_spsc_init" [VP qb 0; VP sb 0; VI size] m = Ok (VI 0, m1) ->
  thrun p fuel m1 qb eb (MkTh m1 None None) schedule = Ok (s, evs) ->
  forall x tp tc b o w1 w2, th_p s = Some (x, tp) -> th_c s = Some tc ->
  next_access tp = Some (b, o, w1) -> next_access tc = Some (b, o, w2) -> w1 || w2 = true -> volatile qb b o.
Proof.
  intros p fuel ext ext_ptr m qb sb eb c items v0 m1 ls s evs H1 Hl H2 H3 Hne He1 He2 size Hs E Hrun.
  destruct (init_at _ _ _ _ _ _ _ _ _ _ H1 Hl H2 Hne Hs E) as (q0 & Hi & Hat & Hb & _ & Hu & _). fold size in Hi, Hb.
  assert (H3' : heap m1 !! eb = Some [v0]). { destruct Hu as [_ Hu]. rewrite Hu; [done|]. cbn. intuition. }
  pose proof (init_rep (MkS [] 0 0 0) items size SPSC_NONE q0 ltac:(unfold size in *; lia) eq_refl Hi eq_refl) as Hr. pose proof Hat as [Ha1 Ha2 _ _ _ _].
  assert (Hlen : Z.of_nat (length (VI <$> s_store q0)) = size) by (rewrite fmap_length; destruct Hr as (_ & _ & Hr & _); exact Hr).
  destruct (run_sim p fuel m1 qb sb eb size Hne He1 He2 (fun x => put_does p fuel m1 qb sb size _ Ha2 Hlen 0 x)
    (get_does p fuel m1 qb sb eb size _ Ha2 Hlen 0) Hb ls (MkTh m1 None None) (MkC q0 PIdle CIdle) [] Out Out)
    as (s' & evs' & h & ls' & c' & mevs & l' & fp & fc & Hrun' & Hc & Hsim & Hinv & _).
  { split; cbn; try done. exists v0. done. }
  { split; done. }
  rewrite Hrun in Hrun'. injection Hrun' as <- <-. intros x tp tc b o w1 w2 Htp Htc Hn1 Hn2 Hw.
  destruct Hsim as [_ _ (e & _ & Hcc) Hpp]. rewrite Htp in Hpp. rewrite Htc in Hcc.
  destruct Hpp as (_ & ap & Hdp & Hrp). destruct Hcc as (ac & Hdc & Hrc). destruct Hinv as (Hr' & Hpi & Hci).
  inversion Hrp as [E1|t Ht E1|nt E1|nt E1|nt E1|nt t E1|nt E1]; subst ap; destruct Hdp as (k1 & -> & _); cbn in Hn1; injection Hn1 as <- <- <-;
  inversion Hrc as [E2|h2 E2|E2|E2|E2|h2 E2|v E2|v Hv E2|v h2 Hv Hh E2|v h2 Hv E2]; subst ac; destruct Hdc as (k2 & -> & _); cbn in Hn2; injection Hn2; intros; subst;
  try discriminate Hw; try (by exfalso; congruence); try (split; [done|]; tauto).
  (* the producer writes a slot, the consumer reads one *)
  exfalso. rewrite <- E1 in Hpi. rewrite <- E2 in Hci. cbn in Hpi, Hci. destruct Hpi as (_ & _ & ->), Hci as (Heq & Hl').
  apply Hl'. apply (empty_iff size (c_q c') l' Hr'). congruence.
Qed.
Print Assumptions C109_source_no_race.

(** The threads run the program of C108: a call whose accesses are made with nothing in between is
    the call of CLang.v. *)
Theorem C109_alone_is_C108 : forall p fuel qb eb m x,
  run_alone (the_put p fuel m qb x) m = call p spsc_prog fuel (fun _ _ _ => UB) (fun _ _ _ => UB) 1 "mu_spsc_put" [VP qb 0; VI x] m /\
  run_alone (the_get p fuel m qb eb) m = call p spsc_prog fuel (fun _ _ _ => UB) (fun _ _ _ => UB) 1 "mu_spsc_get" [VP qb 0; VP eb 0] m.
Proof. intros. split; apply tcall_alone; done. Qed.
Print Assumptions C109_alone_is_C108.
(** One slot in use of a queue of two: the producer finds the queue full because the consumer, whose
    call began earlier, has read the item but not yet moved [head]; both orders are seen. *)
Example C109_example :
  let m := MkMem (<[10%nat := [VU; VU; VU; VU]]> (<[11%nat := [VI 7; VI 7]]> (<[12%nat := [VI 5]]> ∅))) 20 in
  let none1 := fun _ _ _ => UB in let none2 := fun _ _ _ => UB in
  let lp n := replicate n LP in let lc n := replicate n LC in
  (let* '(_, m1) := scall P32 0 none1 none2 "mu_spsc_init" [VP 10 0; VP 11 0; VI 2] m in
   let* '(_, evs) := thrun P32 0 m1 10 12 (MkTh m1 None None)
     ([LPut 1] ++ lp 7%nat ++ [LGet] ++ lc 6%nat ++ [LPut 2] ++ lp 4%nat ++ lc 3%nat ++ [LPut 3; LGet] ++ lp 6%nat ++ lc 2%nat ++ lp 1%nat ++ lc 1%nat)%list in Ok evs) =
  Ok [InvPut 1; RespPut 1 true; InvGet; InvPut 2; RespPut 2 false; RespGet true 1; InvPut 3; InvGet; RespPut 3 true; RespGet false 0].
Proof. vm_compute. reflexivity. Qed.
