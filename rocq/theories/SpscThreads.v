(** * mu_spsc.c run by two threads, one memory access at a time *)
From Verif Require Import CTreeSym SrcSpsc.
From Verif Require Import FifoSpec SpscModel SpscProofs SpscProps.
Open Scope string_scope. Open Scope Z_scope.

Lemma land_u16 a b : 0 <= a -> 0 <= b < 65536 -> 0 <= Z.land a b < 65536.
Proof.
  intros Ha Hb. replace (Z.land a b) with (Z.land a b mod 65536); [apply Z.mod_pos_bound; lia|].
  change 65536 with (2 ^ 16). rewrite <- Z.land_ones, <- Z.land_assoc, Z.land_ones by lia.
  rewrite (Z.mod_small b) by lia. done.
Qed.

Section acts.
Context (p : plat) (fuel : nat) (shape : mem) (qb sb eb : nat) (n : Z) (cells : list val).
Context (Hsb : heap shape !! sb = Some cells) (Hn : Z.of_nat (length cells) = n).
Definition u16v (v : val) : Prop := exists z, v = VI z /\ 0 <= z < 65536.
Definition slotv (v : val) : Prop := exists z, v = VI z /\ 0 <= z < n /\ z < 65536.
Definition itemv (v : val) : Prop := exists z, v = VI z.
Definition zv (v : val) : Z := match v with VI z => z | _ => 0 end.
(** mu_spsc.c:67-79, from the last access to the first *)
Definition put6 (nt : Z) : acts := AWrite qb 2 (VI nt) (ARet (VI 0)).
Definition put5 (x nt t : Z) : acts := AWrite sb t (VI x) (put6 nt).
Definition put4 (x nt : Z) : acts := ARead qb 2 slotv (fun t => put5 x nt (zv t)).
Definition put3 (x nt : Z) : acts := ARead qb 3 (eq (VP sb 0)) (fun _ => put4 x nt).
Definition put2 (x nt : Z) : acts := ARead qb 1 u16v (fun h => if nt =? zv h then ARet (VI 2) else put3 x nt).
Definition put1 (x t : Z) : acts := ARead qb 0 u16v (fun mk => put2 x (Z.land (t + 1) (zv mk))).
Definition put_acts (x : Z) : acts := ARead qb 2 u16v (fun t => put1 x (zv t)).
(** mu_spsc.c:84-96 *)
Definition get8 (h : Z) : acts := AWrite qb 1 (VI h) (ARet (VI 0)).
Definition get7 (h : Z) : acts := ARead qb 0 u16v (fun mk => get8 (Z.land (h + 1) (zv mk))).
Definition get6 : acts := ARead qb 1 u16v (fun h => get7 (zv h)).
Definition get5 (v : Z) : acts := AWrite eb 0 (VI v) get6.
Definition get4 (h : Z) : acts := ARead sb h itemv (fun v => get5 (zv v)).
Definition get3 : acts := ARead qb 1 slotv (fun h => get4 (zv h)).
Definition get2 : acts := ARead qb 3 (eq (VP sb 0)) (fun _ => get3).
Definition gete : acts := AWrite eb 0 (VI 0) (ARet (VI 1)).
Definition get1 (h : Z) : acts := ARead qb 2 u16v (fun t => if h =? zv t then gete else get2).
Definition get_acts : acts := ARead qb 1 u16v (fun h => get1 (zv h)).
Lemma put_does d x : does (tcall p spsc_prog shape fuel (S d) "mu_spsc_put" [VP qb 0; VI x]) (put_acts x).
Proof.
  unfold put_acts, put1, put2, put3, put4, put5, put6. tsteps. access. intros (t & -> & Ht). tsteps. access. intros (mk & -> & Hmk). cbn [zv].
  pose proof (land_u16 (t + 1) mk ltac:(lia) ltac:(lia)).
  tsteps. access. intros (h & -> & Hh). tsteps. cbn [zv]. destruct (Z.land (t + 1) mk =? h) eqn:E; tsteps; [access|].
  access. intros <-. tsteps. access. intros (t2 & -> & Ht2 & Ht2'). tsteps. access. tsteps. access. tsteps. access.
Qed.
Lemma get_does d : does (tcall p spsc_prog shape fuel (S d) "mu_spsc_get" [VP qb 0; VP eb 0]) get_acts.
Proof.
  unfold get_acts, get1, get2, get3, get4, get5, get6, get7, get8, gete. tsteps. access. intros (h & -> & Hh). tsteps. access. intros (t & -> & Ht). tsteps. cbn [zv].
  destruct (h =? t) eqn:E; tsteps.
  - access. tsteps. access.
  - access. intros <-. tsteps. access. intros (h2 & -> & Hh2 & Hh2'). tsteps. access. intros (x & ->). tsteps. access. tsteps.
    access. intros (h3 & -> & Hh3). tsteps. access. intros (mk & -> & Hmk). cbn [zv].
    pose proof (land_u16 (h3 + 1) mk ltac:(lia) ltac:(lia)).
    tsteps. access. tsteps. access.
Qed.
End acts.

(** ** Two threads *)
(** [c_m]: the memory; the call each thread is in, if any (the producer's with its item) *)
Record threads := MkTh { th_m : mem; th_p : option (Z * tree (val * ty)); th_c : option (tree (val * ty)) }.
Section machine.
Context (p : plat) (fuel : nat) (shape : mem) (qb sb eb : nat).
Definition the_put (x : Z) := tcall p spsc_prog shape fuel 1 "mu_spsc_put" [VP qb 0; VI x].
Definition the_get := tcall p spsc_prog shape fuel 1 "mu_spsc_get" [VP qb 0; VP eb 0].
(** what the user sees of a call that has returned [v]; the item got is in the consumer's variable *)
Definition put_result (x : Z) (v : val) : res sev :=
  match v with VI 0 => Ok (RespPut x true) | VI 2 => Ok (RespPut x false) | _ => UB end.
Definition get_result (v : val) (m : mem) : res sev :=
  let* e := load_mem m eb 0 in let* x := num e in
  match v with VI 0 => Ok (RespGet true x) | VI 1 => Ok (RespGet false x) | _ => UB end.
Definition returned (t : tree (val * ty)) : option val := match t with Ret (v, _) => Some v | _ => None end.
(** [LPut x], [LGet]: a thread that is in no call starts one; [LP], [LC]: a thread makes its next
    memory access, and returns if that was the last *)
Definition thstep (s : threads) (l : label) : res (threads * list sev) :=
  match l with
  | LPut x => match th_p s with
              | None => Ok (MkTh (th_m s) (Some (x, the_put x)) (th_c s), [InvPut x])
              | Some _ => Ok (s, [])
              end
  | LGet => match th_c s with
            | None => Ok (MkTh (th_m s) (th_p s) (Some the_get), [InvGet])
            | Some _ => Ok (s, [])
            end
  | LP => match th_p s with
          | None => Ok (s, [])
          | Some (x, t) =>
            let* '(t, m) := tstep t (th_m s) in
            match returned t with
            | Some v => let* e := put_result x v in Ok (MkTh m None (th_c s), [e])
            | None => Ok (MkTh m (Some (x, t)) (th_c s), [])
            end
          end
  | LC => match th_c s with
          | None => Ok (s, [])
          | Some t =>
            let* '(t, m) := tstep t (th_m s) in
            match returned t with
            | Some v => let* e := get_result v m in Ok (MkTh m (th_p s) None, [e])
            | None => Ok (MkTh m (th_p s) (Some t), [])
            end
          end
  end.
Fixpoint thrun (s : threads) (ls : list label) : res (threads * list sev) :=
  match ls with
  | [] => Ok (s, [])
  | l :: ls => let* '(s, e1) := thstep s l in let* '(s, e2) := thrun s ls in Ok (s, e1 ++ e2)%list
  end.
End machine.

(** ** Specification: every call takes effect at one moment between its invocation and its
    response, and in the order of these moments the results are those of a FIFO. *)
Inductive moment := Ev (e : sev) | At (e : sev).
Definition events (l : list moment) : list sev := flat_map (fun x => match x with Ev e => [e] | At _ => [] end) l.
Definition effects (l : list moment) : list sev := flat_map (fun x => match x with At e => [e] | Ev _ => [] end) l.
(** what a thread is doing: nothing; in a call that has not taken effect; in one that has, with its result *)
Inductive phase := Out | Before (inv : sev) | After (resp : sev).
Definition sev_eqb (a b : sev) : bool :=
  match a, b with
  | InvPut x, InvPut y => x =? y
  | RespPut x b, RespPut y c => (x =? y) && Bool.eqb b c
  | InvGet, InvGet => true
  | RespGet b x, RespGet c y => (x =? y) && Bool.eqb b c
  | _, _ => false
  end.
Definition producers (e : sev) : bool := match e with InvPut _ | RespPut _ _ => true | _ => false end.
(** the thread's own moments, in order: invocation, effect, response with the same result, and again *)
Fixpoint alternates (f : phase) (l : list moment) : option phase :=
  match l with
  | [] => Some f
  | x :: l =>
    match f, x with
    | Out, Ev (InvPut x) => alternates (Before (InvPut x)) l
    | Out, Ev InvGet => alternates (Before InvGet) l
    | Before (InvPut x), At (RespPut y b) => if x =? y then alternates (After (RespPut y b)) l else None
    | Before InvGet, At (RespGet b v) => alternates (After (RespGet b v)) l
    | After e, Ev e' => if sev_eqb e e' then alternates Out l else None
    | _, _ => None
    end
  end.
Definition of_thread (prod : bool) (l : list moment) : list moment :=
  List.filter (fun x => match x with Ev e | At e => Bool.eqb (producers e) prod end) l.
Definition linearizable (cap : Z) (evs : list sev) : Prop :=
  exists l, events l = evs /\ (exists f, alternates Out (of_thread true l) = Some f) /\ (exists f, alternates Out (of_thread false l) = Some f) /\
    let h := concat (map ev_op (effects l)) in fst (fifo_run cap [] (map fst h)) = map snd h.

(** ** Proof: the run is one of the machine of SpscModel.v *)
Section simulation.
Context (p : plat) (fuel : nat) (shape : mem) (qb sb eb : nat) (size : Z).
Context (Hne1 : qb <> sb) (Hne2 : eb <> qb) (Hne3 : eb <> sb).
Notation put_acts := (put_acts qb sb size). Notation put1 := (put1 qb sb size). Notation put2 := (put2 qb sb size).
Notation put3 := (put3 qb sb size). Notation put4 := (put4 qb sb size). Notation put5 := (put5 qb sb). Notation put6 := (put6 qb).
Notation get_acts := (get_acts qb sb eb size). Notation get1 := (get1 qb sb eb size). Notation get2 := (get2 qb sb eb size).
Notation get3 := (get3 qb sb eb size). Notation get4 := (get4 qb sb eb). Notation get5 := (get5 qb eb). Notation get6 := (get6 qb).
Notation get7 := (get7 qb). Notation get8 := (get8 qb). Notation gete := (gete eb).
Notation thstep := (thstep p fuel shape qb eb).
Notation thrun := (thrun p fuel shape qb eb).

Inductive prel (mask x : Z) : ppc -> acts -> Prop :=
| pr0 : prel mask x (PLoadTail x) (put_acts x)
| pr1 t : 0 <= t < 65536 -> prel mask x (PLoadHead x (to_u16 (Z.land (t + 1) mask))) (put1 x t)
| pr2 nt : prel mask x (PLoadHead x nt) (put2 x nt)
| pr3 nt : prel mask x (PLoadTail2 x nt) (put3 x nt)
| pr4 nt : prel mask x (PLoadTail2 x nt) (put4 x nt)
| pr5 nt t : prel mask x (PWriteSlot x nt t) (put5 x nt t)
| pr6 nt : prel mask x (PStoreTail x nt) (put6 nt).
(** [e]: what the consumer's variable holds *)
Inductive crel (mask : Z) (e : val) : cpc -> phase -> acts -> Prop :=
| cr0 : crel mask e CLoadHead (Before InvGet) get_acts
| cr1 h : crel mask e (CLoadTail h) (Before InvGet) (get1 h)
| cre : crel mask e CIdle (After (RespGet false NULL)) gete
| cr2 : crel mask e CLoadHead2 (Before InvGet) get2
| cr3 : crel mask e CLoadHead2 (Before InvGet) get3
| cr4 h : crel mask e (CReadSlot h) (Before InvGet) (get4 h)
| cr5 v : crel mask e (CLoadHead3 v) (Before InvGet) (get5 v)
| cr6 v : e = VI v -> crel mask e (CLoadHead3 v) (Before InvGet) get6
| cr7 v h : e = VI v -> 0 <= h < 65536 -> crel mask e (CStoreHead v (to_u16 (Z.land (h + 1) mask))) (Before InvGet) (get7 h)
| cr8 v h : e = VI v -> crel mask e (CStoreHead v h) (Before InvGet) (get8 h).
Record sim (s : threads) (c : conc) (fp fc : phase) : Prop := {
  sim_obj : heap (th_m s) !! qb = Some [VI (s_mask (c_q c)); VI (s_head (c_q c)); VI (s_tail (c_q c)); VP sb 0];
  sim_store : heap (th_m s) !! sb = Some (VI <$> s_store (c_q c));
  sim_item : exists e, heap (th_m s) !! eb = Some [e] /\
    match th_c s with
    | None => c_c c = CIdle /\ fc = Out
    | Some t => exists a, does t a /\ crel (s_mask (c_q c)) e (c_c c) fc a
    end;
  sim_p : match th_p s with
    | None => c_p c = PIdle /\ fp = Out
    | Some (x, t) => fp = Before (InvPut x) /\ exists a, does t a /\ prel (s_mask (c_q c)) x (c_p c) a
    end }.
Lemma store4 m a b c d v : heap m !! qb = Some [a; b; c; d] ->
  store_mem m qb 1 v = Ok (MkMem (<[qb := [a; v; c; d]]> (heap m)) (next m)) /\
  store_mem m qb 2 v = Ok (MkMem (<[qb := [a; b; v; d]]> (heap m)) (next m)).
Proof. intros H. unfold store_mem. rewrite H. done. Qed.
Lemma load4 m a b c d : heap m !! qb = Some [a; b; c; d] ->
  load_mem m qb 0 = Ok a /\ load_mem m qb 1 = Ok b /\ load_mem m qb 2 = Ok c /\ load_mem m qb 3 = Ok d.
Proof. intros H. unfold load_mem. rewrite H. done. Qed.

(** the result of one step of each machine *)
Definition matched (s : threads) (c : conc) (fp fc : phase) (lab : label) : Prop :=
  exists s' evs l ls c' mevs fp' fc', thstep s lab = Ok (s', evs) /\ crun c ls = Ok (c', mevs) /\ sim s' c' fp' fc' /\
    events l = evs /\ concat (map ev_op (effects l)) = concat (map ev_op mevs) /\
    (forall r, alternates fp (of_thread true l ++ r) = alternates fp' r) /\
    (forall r, alternates fc (of_thread false l ++ r) = alternates fc' r).
Context (Hput : forall x, does (the_put p fuel shape qb x) (put_acts x)) (Hget : does (the_get p fuel shape qb eb) get_acts).
Lemma step_put s c fp fc x : sim s c fp fc -> matched s c fp fc (LPut x).
Proof.
  intros [H1 H2 H3 H4]. destruct s as [m [[y t]|] tc]; cbn [th_m th_p th_c] in *.
  - eexists _, _, [], [], c, [], fp, fc. split; [reflexivity|]. split; [reflexivity|]. split; [split; done|]. done.
  - destruct H4 as [H4 ->]. destruct c as [q pp cc]. cbn [c_p c_q c_c] in *. subst pp.
    eexists _, _, [Ev (InvPut x)], [LPut x], _, _, (Before (InvPut x)), fc.
    split; [reflexivity|]. split; [reflexivity|]. split; [|done]. split; cbn; try done. split; [done|]. eexists. split; [apply Hput|constructor].
Qed.
Lemma step_get s c fp fc : sim s c fp fc -> matched s c fp fc LGet.
Proof.
  intros [H1 H2 H3 H4]. destruct s as [m tp [t|]]; cbn [th_m th_p th_c] in *.
  - eexists _, _, [], [], c, [], fp, fc. split; [reflexivity|]. split; [reflexivity|]. split; [split; done|]. done.
  - destruct H3 as (e & He & Hc & ->). destruct c as [q pp cc]. cbn [c_p c_q c_c] in *. subst cc.
    eexists _, _, [Ev InvGet], [LGet], _, _, fp, (Before InvGet).
    split; [reflexivity|]. split; [reflexivity|]. split; [|done]. split; cbn; try done. exists e. split; [done|]. eexists. split; [apply Hget|constructor].
Qed.

Lemma busy_read t b o R k : does t (ARead b o R k) -> returned t = None.
Proof. intros (k' & -> & _). done. Qed.
Lemma busy_write t b o v k : does t (AWrite b o v k) -> returned t = None.
Proof. intros (k' & -> & _). done. Qed.
Lemma did t v : does t (ARet v) -> returned t = Some v.
Proof. intros (ty & ->). done. Qed.
Ltac busy H := rewrite ?(busy_read _ _ _ _ _ H), ?(busy_write _ _ _ _ _ H), ?(did _ _ H).
Context (Hsize : 2 <= size <= 32768).
Lemma u16_bounds c l : inv size c l -> srep size (c_q c) l /\ 0 <= s_mask (c_q c) < 65536 /\ 0 <= s_head (c_q c) < size /\ 0 <= s_tail (c_q c) < size.
Proof.
  intros (Hr & _). split; [done|]. pose proof (srep_bounds size _ _ Hr) as Hb. destruct Hr as (_ & Hm & _). lia.
Qed.
(** a step of the producer that the other machine does not make *)
Lemma p_silent s c fp fc x t t' : sim s c fp fc -> th_p s = Some (x, t) -> tstep t (th_m s) = Ok (t', th_m s) ->
  (exists a, does t' a /\ prel (s_mask (c_q c)) x (c_p c) a) -> returned t' = None -> matched s c fp fc LP.
Proof.
  intros [H1 H2 H3 H4] Hp Ht Ha Hr. rewrite Hp in H4. destruct H4 as [-> _].
  eexists _, _, [], [], c, [], _, fc. split; [unfold SpscThreads.thstep; rewrite Hp, Ht; cbn [bind]; rewrite Hr; reflexivity|].
  split; [reflexivity|]. split; [|done]. split; cbn; try done.
Qed.
(** ... and one that it makes *)
Lemma p_move s c fp fc x t t' m' q' pp : sim s c fp fc -> th_p s = Some (x, t) -> tstep t (th_m s) = Ok (t', m') -> returned t' = None ->
  cstep c LP = Ok (MkC q' pp (c_c c), []) -> s_mask q' = s_mask (c_q c) ->
  heap m' !! qb = Some [VI (s_mask q'); VI (s_head q'); VI (s_tail q'); VP sb 0] ->
  heap m' !! sb = Some (VI <$> s_store q') -> heap m' !! eb = heap (th_m s) !! eb ->
  (exists a, does t' a /\ prel (s_mask (c_q c)) x pp a) -> matched s c fp fc LP.
Proof.
  intros [H1 H2 H3 H4] Hp Ht Hr Hc Hm Hb1 Hb2 Hb3 Ha. rewrite Hp in H4. destruct H4 as [-> _].
  eexists _, _, [], [LP], _, [], _, fc. split; [unfold SpscThreads.thstep; rewrite Hp, Ht; cbn [bind]; rewrite Hr; reflexivity|].
  split; [cbn [crun]; rewrite Hc; reflexivity|]. split; [|done]. split; cbn; rewrite ?Hm; try done.
  - by rewrite Hm in Hb1.
  - destruct H3 as (e & He & H3). exists e. rewrite Hb3. done.
Qed.
(** ... and the last *)
Lemma p_end s c fp fc x t t' m' q' v ok : sim s c fp fc -> th_p s = Some (x, t) -> tstep t (th_m s) = Ok (t', m') -> returned t' = Some v ->
  put_result x v = Ok (RespPut x ok) ->
  cstep c LP = Ok (MkC q' PIdle (c_c c), [RespPut x ok]) -> s_mask q' = s_mask (c_q c) ->
  heap m' !! qb = Some [VI (s_mask q'); VI (s_head q'); VI (s_tail q'); VP sb 0] ->
  heap m' !! sb = Some (VI <$> s_store q') -> heap m' !! eb = heap (th_m s) !! eb -> matched s c fp fc LP.
Proof.
  intros [H1 H2 H3 H4] Hp Ht Hr Hv Hc Hm Hb1 Hb2 Hb3. rewrite Hp in H4. destruct H4 as [-> _].
  eexists _, _, [At (RespPut x ok); Ev (RespPut x ok)], [LP], _, [RespPut x ok], Out, fc.
  split; [unfold SpscThreads.thstep; rewrite Hp, Ht; cbn [bind]; rewrite Hr, Hv; reflexivity|].
  split; [cbn [crun]; rewrite Hc; reflexivity|]. split; [|split; [done|]; split; [done|]; split].
  - split; cbn; rewrite ?Hm; try done.
    + by rewrite Hm in Hb1.
    + destruct H3 as (e & He & H3). exists e. rewrite Hb3. done.
  - intros r. cbn. rewrite ?Z.eqb_refl. cbn. rewrite ?Z.eqb_refl, ?eqb_reflx. done.
  - intros r. reflexivity.
Qed.
Lemma step_p s c l fp fc : sim s c fp fc -> inv size c l -> matched s c fp fc LP.
Proof.
  intros Hs Hi. pose proof (u16_bounds c l Hi) as (Hr & Hm & Hh & Ht). pose proof Hi as (_ & Hpi & _).
  pose proof Hr as (_ & Hmask & Hlen & _). pose proof Hs as [H1 H2 H3 H4]. destruct (th_p s) as [[x t]|] eqn:Hp.
  2: { destruct H4 as [Hc ->]. eexists _, _, [], [], c, [], _, fc. split; [unfold SpscThreads.thstep; rewrite Hp; reflexivity|].
       split; [reflexivity|]. split; [split; cbn; try done; by rewrite Hp|done]. }
  destruct H4 as (-> & a & Ha & Hrel). destruct (load4 _ _ _ _ _ H1) as (L0 & L1 & L2 & L3).
  destruct c as [q pp cc]. cbn [c_q c_p c_c] in *. inversion Hrel; subst pp; subst a; cbn [pinv] in Hpi.
  - (* read tail *) destruct Ha as (k & -> & Hk). assert (Hd := Hk (VI (s_tail q)) ltac:(eexists; split; [done|lia])). cbn [zv] in Hd.
    eapply (p_move s (MkC q _ cc) _ fc x _ _ _ q); [done|exact Hp|cbn; rewrite L2; reflexivity|by busy Hd|reflexivity|done..|].
    eexists. split; [exact Hd|]. constructor. lia.
  - (* read mask *) destruct Ha as (k & -> & Hk). assert (Hd := Hk (VI (s_mask q)) ltac:(eexists; split; [done|lia])). cbn [zv] in Hd.
    eapply (p_silent s (MkC q _ cc) _ fc x); [done|exact Hp|cbn; rewrite L0; reflexivity| |by busy Hd].
    eexists. split; [exact Hd|]. cbn [c_q c_p]. assert (0 <= Z.land (t0 + 1) (s_mask q) < 65536) by (apply land_u16; lia).
    unfold to_u16. rewrite Z.mod_small by lia. constructor.
  - (* read head *) destruct Ha as (k & -> & Hk). assert (Hd := Hk (VI (s_head q)) ltac:(eexists; split; [done|lia])). cbn [zv] in Hd.
    destruct (nt =? s_head q) eqn:E.
    + eapply (p_end s (MkC q _ cc) _ fc x _ _ _ q (VI 2) false); [done|exact Hp|cbn; rewrite L1; reflexivity|by busy Hd|done|cbn; rewrite E; reflexivity|done..].
    + eapply (p_move s (MkC q _ cc) _ fc x _ _ _ q); [done|exact Hp|cbn; rewrite L1; reflexivity|by busy Hd|cbn; rewrite E; reflexivity|done..|].
      eexists. split; [exact Hd|]. constructor.
  - (* read the pointer to the slots *) destruct Ha as (k & -> & Hk). assert (Hd := Hk _ eq_refl).
    eapply (p_silent s (MkC q _ cc) _ fc x); [done|exact Hp|cbn; rewrite L3; reflexivity| |by busy Hd].
    eexists. split; [exact Hd|]. constructor.
  - (* read tail *) destruct Ha as (k & -> & Hk). assert (Hd := Hk (VI (s_tail q)) ltac:(eexists; split; [done|lia])). cbn [zv] in Hd.
    eapply (p_move s (MkC q _ cc) _ fc x _ _ _ q); [done|exact Hp|cbn; rewrite L2; reflexivity|by busy Hd|reflexivity|done..|].
    eexists. split; [exact Hd|]. constructor.
  - (* write the slot *) destruct Ha as (k & -> & Hd). destruct Hpi as (_ & _ & ->).
    assert (Hst : st (s_store q) (s_tail q) x = Ok (<[Z.to_nat (s_tail q) := x]> (s_store q))) by (apply st_ok; lia).
    eapply (p_move s (MkC q _ cc) _ fc x _ _ _ (MkS (<[Z.to_nat (s_tail q) := x]> (s_store q)) (s_mask q) (s_head q) (s_tail q)));
      [done|exact Hp| |by busy Hd|cbn; rewrite Hst; reflexivity|done| | | |].
    + cbn. unfold store_mem. rewrite H2. cbn [ofopt bind]. rewrite st_map, Hst. reflexivity.
    + cbn. rewrite lookup_insert_ne by done. exact H1.
    + cbn. rewrite lookup_insert. done.
    + cbn. rewrite lookup_insert_ne by done. done.
    + eexists. split; [exact Hd|]. constructor.
  - (* write tail *) destruct Ha as (k & -> & Hd). destruct (store4 _ _ _ _ _ (VI nt) H1) as [_ S2].
    eapply (p_end s (MkC q _ cc) _ fc x _ _ _ (MkS (s_store q) (s_mask q) (s_head q) nt) (VI 0) true);
      [done|exact Hp|cbn; rewrite S2; reflexivity|by busy Hd|done|reflexivity|done| | |].
    + cbn. rewrite lookup_insert. done.
    + cbn. rewrite lookup_insert_ne by done. done.
    + cbn. rewrite lookup_insert_ne by done. done.
Qed.

Lemma c_gen s c fp fc t t' m' ls q' cc' mevs l evs fc' th' : sim s c fp fc -> th_c s = Some t -> tstep t (th_m s) = Ok (t', m') ->
  match returned t' with
  | None => th' = Some t' /\ evs = []
  | Some v => th' = None /\ exists e, get_result eb v m' = Ok e /\ evs = [e]
  end ->
  crun c ls = Ok (MkC q' (c_p c) cc', mevs) -> s_mask q' = s_mask (c_q c) ->
  heap m' !! qb = Some [VI (s_mask q'); VI (s_head q'); VI (s_tail q'); VP sb 0] -> heap m' !! sb = Some (VI <$> s_store q') ->
  (exists e, heap m' !! eb = Some [e] /\ match th' with None => cc' = CIdle /\ fc' = Out | Some t => exists a, does t a /\ crel (s_mask q') e cc' fc' a end) ->
  events l = evs -> concat (map ev_op (effects l)) = concat (map ev_op mevs) -> of_thread true l = [] ->
  (forall r, alternates fc (of_thread false l ++ r) = alternates fc' r) -> matched s c fp fc LC.
Proof.
  intros [H1 H2 H3 H4] Hc Ht Hr Hls Hm Hb1 Hb2 Hb3 Hl1 Hl2 Hl3 Hl4.
  exists (MkTh m' (th_p s) th'), evs, l, ls, (MkC q' (c_p c) cc'), mevs, fp, fc'.
  split. { unfold SpscThreads.thstep. rewrite Hc, Ht. cbn [bind]. destruct (returned t') as [v|].
    - destruct Hr as (-> & e & -> & ->). reflexivity.
    - destruct Hr as (-> & ->). reflexivity. }
  split; [done|]. split; [|rewrite Hl3; done]. split; cbn; try done. destruct (th_p s) as [[x tp]|]; [|done].
  destruct H4 as (-> & a & Ha & Hrel). split; [done|]. exists a. rewrite Hm. done.
Qed.
Ltac app_c s q pp cc q' cc' ls l th' Hs Hc := eapply (c_gen s (MkC q pp cc) _ _ _ _ _ ls q' cc' _ l _ _ th'); [exact Hs|exact Hc|..].
Lemma step_c s c l fp fc : sim s c fp fc -> inv size c l -> matched s c fp fc LC.
Proof.
  intros Hs Hi. pose proof (u16_bounds c l Hi) as (Hr & Hm & Hh & Ht). pose proof Hi as (_ & _ & Hci).
  pose proof Hr as (_ & Hmask & Hlen & _). pose proof Hs as [H1 H2 (e & He & H3) H4]. destruct (th_c s) as [t|] eqn:Hc.
  2: { destruct H3 as [H3 ->]. eexists _, _, [], [], c, [], fp, _. split; [unfold SpscThreads.thstep; rewrite Hc; reflexivity|].
       split; [reflexivity|]. split; [split; cbn; try done; exists e; by rewrite Hc|done]. }
  destruct H3 as (a & Ha & Hrel). destruct (load4 _ _ _ _ _ H1) as (L0 & L1 & L2 & L3).
  destruct c as [q pp cc]. cbn [c_q c_p c_c] in *. inversion Hrel; subst cc fc a; cbn [cinv] in Hci.
  - (* read head *) destruct Ha as (k & -> & Hk). assert (Hd := Hk (VI (s_head q)) ltac:(eexists; split; [done|lia])). cbn [zv] in Hd.
    app_c s q pp CLoadHead q (CLoadTail (s_head q)) [LC] (@nil moment) (Some (k (VI (s_head q)))) Hs Hc;
      [cbn; rewrite L1; reflexivity|by busy Hd|reflexivity|done..| | | | |]; [|done..].
    exists e. split; [done|]. eexists. split; [exact Hd|constructor].
  - (* read tail *) destruct Ha as (k & -> & Hk). assert (Hd := Hk (VI (s_tail q)) ltac:(eexists; split; [done|lia])). cbn [zv] in Hd.
    destruct (h =? s_tail q) eqn:E.
    + app_c s q pp (CLoadTail h) q CIdle [LC] [At (RespGet false NULL)] (Some (k (VI (s_tail q)))) Hs Hc;
        [cbn; rewrite L2; reflexivity|by busy Hd|cbn; rewrite E; reflexivity|done..| | | | |]; [|done..].
      exists e. split; [done|]. eexists. split; [exact Hd|constructor].
    + app_c s q pp (CLoadTail h) q CLoadHead2 [LC] (@nil moment) (Some (k (VI (s_tail q)))) Hs Hc;
        [cbn; rewrite L2; reflexivity|by busy Hd|cbn; rewrite E; reflexivity|done..| | | | |]; [|done..].
      exists e. split; [done|]. eexists. split; [exact Hd|constructor].
  - (* nothing there: write the variable *) destruct Ha as (k & -> & Hd).
    app_c s q pp CIdle q CIdle (@nil label) [Ev (RespGet false NULL)] (@None (tree (val * ty))) Hs Hc.
    + cbn. unfold store_mem. rewrite He. reflexivity.
    + busy Hd. split; [done|]. eexists. split; [|reflexivity]. unfold get_result, load_mem. cbn. rewrite lookup_insert. reflexivity.
    + reflexivity.
    + done.
    + cbn. by rewrite lookup_insert_ne.
    + cbn. by rewrite lookup_insert_ne.
    + eexists. split; [cbn; apply lookup_insert|]. done.
    + done.
    + done.
    + done.
    + intros r. reflexivity.
  - (* read the pointer *) destruct Ha as (k & -> & Hk). assert (Hd := Hk _ eq_refl).
    app_c s q pp CLoadHead2 q CLoadHead2 (@nil label) (@nil moment) (Some (k (VP sb 0))) Hs Hc;
      [cbn; rewrite L3; reflexivity|by busy Hd|reflexivity|done..| | | | |]; [|done..].
    exists e. split; [done|]. eexists. split; [exact Hd|constructor].
  - (* read head *) destruct Ha as (k & -> & Hk). assert (Hd := Hk (VI (s_head q)) ltac:(eexists; split; [done|lia])). cbn [zv] in Hd.
    app_c s q pp CLoadHead2 q (CReadSlot (s_head q)) [LC] (@nil moment) (Some (k (VI (s_head q)))) Hs Hc;
      [cbn; rewrite L1; reflexivity|by busy Hd|reflexivity|done..| | | | |]; [|done..].
    exists e. split; [done|]. eexists. split; [exact Hd|constructor].
  - (* read the slot *) destruct Hci as (-> & Hl). destruct (ld_ex (s_store q) (s_head q)) as (x & Hx & Hld); [lia|].
    destruct Ha as (k & -> & Hk). assert (Hd := Hk (VI x) ltac:(by eexists)). cbn [zv] in Hd.
    app_c s q pp (CReadSlot (s_head q)) q (CLoadHead3 x) [LC] (@nil moment) (Some (k (VI x))) Hs Hc.
    + cbn. unfold load_mem. rewrite H2. cbn [ofopt bind]. rewrite ld_map, Hld. reflexivity.
    + by busy Hd.
    + cbn. rewrite Hld. reflexivity.
    + done.
    + done.
    + done.
    + exists e. split; [done|]. eexists. split; [exact Hd|constructor].
    + done.
    + done.
    + done.
    + done.
  - (* write the variable *) destruct Ha as (k & -> & Hd).
    app_c s q pp (CLoadHead3 v) q (CLoadHead3 v) (@nil label) (@nil moment) (Some k) Hs Hc.
    + cbn. unfold store_mem. rewrite He. reflexivity.
    + by busy Hd.
    + reflexivity.
    + done.
    + cbn. by rewrite lookup_insert_ne.
    + cbn. by rewrite lookup_insert_ne.
    + eexists. split; [cbn; apply lookup_insert|]. eexists. split; [exact Hd|by constructor].
    + done.
    + done.
    + done.
    + done.
  - (* read head *) destruct Ha as (k & -> & Hk). assert (Hd := Hk (VI (s_head q)) ltac:(eexists; split; [done|lia])). cbn [zv] in Hd.
    app_c s q pp (CLoadHead3 v) q (CStoreHead v (to_u16 (Z.land (s_head q + 1) (s_mask q)))) [LC] (@nil moment) (Some (k (VI (s_head q)))) Hs Hc;
      [cbn; rewrite L1; reflexivity|by busy Hd|reflexivity|done..| | | | |]; [|done..].
    exists e. split; [done|]. eexists. split; [exact Hd|]. constructor; [done|lia].
  - (* read mask *) destruct Ha as (k & -> & Hk). assert (Hd := Hk (VI (s_mask q)) ltac:(eexists; split; [done|lia])). cbn [zv] in Hd.
    assert (0 <= Z.land (h + 1) (s_mask q) < 65536) by (apply land_u16; lia).
    app_c s q pp (CStoreHead v (to_u16 (Z.land (h + 1) (s_mask q)))) q (CStoreHead v (to_u16 (Z.land (h + 1) (s_mask q)))) (@nil label) (@nil moment) (Some (k (VI (s_mask q)))) Hs Hc;
      [cbn; rewrite L0; reflexivity|by busy Hd|reflexivity|done..| | | | |]; [|done..].
    exists e. split; [done|]. eexists. split; [exact Hd|]. unfold to_u16. rewrite Z.mod_small by lia. by constructor.
  - (* write head *) destruct Ha as (k & -> & Hd). destruct (store4 _ _ _ _ _ (VI h) H1) as [S1 _].
    app_c s q pp (CStoreHead v h) (MkS (s_store q) (s_mask q) h (s_tail q)) CIdle [LC] [At (RespGet true v); Ev (RespGet true v)] (@None (tree (val * ty))) Hs Hc.
    + cbn. rewrite S1. reflexivity.
    + busy Hd. split; [done|]. eexists. split; [|reflexivity]. unfold get_result, load_mem. cbn. rewrite lookup_insert_ne, He by done. subst e. reflexivity.
    + reflexivity.
    + done.
    + cbn. rewrite lookup_insert. done.
    + cbn. rewrite lookup_insert_ne by done. done.
    + eexists. split; [cbn; rewrite lookup_insert_ne by done; exact He|]. done.
    + done.
    + done.
    + done.
    + intros r. cbn. rewrite ?Z.eqb_refl. done.
Qed.
Lemma crun_app c ls1 ls2 : crun c (ls1 ++ ls2) = let* '(c, e1) := crun c ls1 in let* '(c, e2) := crun c ls2 in Ok (c, e1 ++ e2)%list.
Proof.
  revert c. induction ls1 as [|x ls1 IH]; intros c; cbn [crun app bind].
  - destruct (crun c ls2) as [[]| |]; done.
  - destruct (cstep c x) as [[c1 e1]| |]; cbn [bind]; [|done..]. rewrite IH. destruct (crun c1 ls1) as [[c2 e2]| |]; cbn [bind]; [|done..].
    destruct (crun c2 ls2) as [[c3 e3]| |]; cbn [bind]; [|done..]. by rewrite app_assoc.
Qed.
Lemma run_sim ls : forall s c l fp fc, sim s c fp fc -> inv size c l ->
  exists s' evs h ls' c' mevs l' fp' fc', thrun s ls = Ok (s', evs) /\ crun c ls' = Ok (c', mevs) /\ sim s' c' fp' fc' /\ inv size c' l' /\
    events h = evs /\ concat (map ev_op (effects h)) = concat (map ev_op mevs) /\
    alternates fp (of_thread true h) = Some fp' /\ alternates fc (of_thread false h) = Some fc'.
Proof.
  induction ls as [|lab ls IH]; intros s c l fp fc Hs Hi.
  - exists s, [], [], [], c, [], l, fp, fc. done.
  - assert (Hm : matched s c fp fc lab).
    { destruct lab; [by apply step_put|by apply step_get|by eapply step_p|by eapply step_c]. }
    destruct Hm as (s1 & e1 & h1 & ls1 & c1 & m1 & fp1 & fc1 & Hs1 & Hc1 & Hsim1 & Hev1 & Hef1 & Hp1 & Hg1).
    destruct (crun_ok size ls1 c l Hi) as (c1' & m1' & l1 & Hc1' & Hi1 & _). rewrite Hc1 in Hc1'. injection Hc1' as <- <-.
    destruct (IH s1 c1 l1 fp1 fc1 Hsim1 Hi1) as (s2 & e2 & h2 & ls2 & c2 & m2 & l2 & fp2 & fc2 & Hs2 & Hc2 & Hsim2 & Hi2 & Hev2 & Hef2 & Hp2 & Hg2).
    exists s2, (e1 ++ e2)%list, (h1 ++ h2)%list, (ls1 ++ ls2)%list, c2, (m1 ++ m2)%list, l2, fp2, fc2.
    cbn [SpscThreads.thrun]. rewrite Hs1. cbn [bind]. rewrite Hs2. split; [done|]. rewrite crun_app, Hc1. cbn [bind]. rewrite Hc2. split; [done|].
    split; [done|]. split; [done|]. unfold events, effects, of_thread in *. rewrite !flat_map_app, Hev1, Hev2. split; [done|].
    rewrite !map_app, !concat_app, Hef1, Hef2. split; [done|]. rewrite !List.filter_app, Hp1, Hg1. done.
Qed.
End simulation.
