(** * mu_sched: the translated source: functions that call the user, and initialisation *)
From Verif Require Import CSym SrcSched FifoSpec QueueModel SpscModel TaskModel SchedModel SchedSrc SchedSrc2 SchedSrc3.
Open Scope string_scope. Open Scope Z_scope.
Notation length := List.length.
Lemma tv_pos t : 0 < t -> tv t = VP (Z.to_nat t) 0.
Proof. intros H. unfold tv. destruct (Z.eqb_spec t 0); [lia|done]. Qed.

Section sched.
Context (cf : config) (fuel : nat) (ext : string -> list val -> mem -> res (val * ty * mem))
  (ext_ptr : val -> list val -> mem -> res (val * ty * mem)).
Notation p := (plat_ cf).
Notation P := (sched_prog (MAX_DEFERRED cf) (MAX_IRQ cf) (MAX_IMMED cf)).
Notation call d := (call p P fuel ext ext_ptr d).
Notation enum := (Tint false W32).
Notation u64 := (Tint false W64).
Notation taskp := (Tptr (Tstruct "mu_task_t")).
Notation dtask := (Tstruct "deferred_task_t").
(** the platform functions: [cb] is the clock *)
Context (cb : nat).
Context (Hnow : forall m now, heap m !! cb = Some [VI now] -> ext "mu_time_now" [] m = Ok (VI now, u64, m))
  (Hprec : forall m a b, ext "mu_time_precedes" [VI a; VI b] m = Ok (truth (precedes cf a b), Tbool, m))
  (Hoff : forall m a b, ext "mu_time_offset" [VI a; VI b] m = Ok (VI (offset cf a b), u64, m)).
Context (Hint : MAX_DEFERRED cf <= int_max) (Hsize : MAX_DEFERRED cf * (8 + ptr_bytes p) < size_mod p).

Ltac lk := cbn [heap next]; first [ reflexivity | assumption | rewrite lookup_insert; reflexivity
  | rewrite lookup_insert_ne by first [done | lia]; lk ].
Ltac mk := apply set_make; [done|lk|lk|lk|lk|intros b Hb; cbn [heap next]; rewrite ?lookup_insert_ne by lia; reflexivity].
Ltac start H := pose proof H as H'; destruct H as [H0 H1 H2 H3 Hm Hh Ht Hc Hn Hi Hd Hdl Hdm]; unfold scells in *; erewrite call_S by reflexivity.
Ltac fold_max := progress change (match cf with MkConfig _ x _ _ _ _ => x end) with (MAX_DEFERRED cf).
Ltac cs := repeat first [fold_max | rewrite tv_defined | rewrite tv_null | rewrite tv_eqb by assumption | cstep | hstep].
Ltac done_ := first [reflexivity | do 2 f_equal; mk].



Definition set_cell_at (m : mem) (b : nat) (c : list val) : mem := MkMem (<[b := c]> (heap m)) (next m).
Lemma src_install_state d m h f : heap m !! 4%nat = Some [h] ->
  call (S d) "mu_task_install_set_state_hook" [tv f] m = Ok (VI 0, Tvoid, set_cell_at m 4 [tv f]).
Proof. intros H. erewrite call_S by reflexivity. cs. done. Qed.
Lemma src_install_call d m h f : heap m !! 5%nat = Some [h] ->
  call (S d) "mu_task_install_call_hook" [tv f] m = Ok (VI 0, Tvoid, set_cell_at m 5 [tv f]).
Proof. intros H. erewrite call_S by reflexivity. cs. done. Qed.
Lemma src_install_transfer d m h f : heap m !! 6%nat = Some [h] ->
  call (S d) "mu_task_install_transfer_hook" [tv f] m = Ok (VI 0, Tvoid, set_cell_at m 6 [tv f]).
Proof. intros H. erewrite call_S by reflexivity. cs. done. Qed.
(** calling a task that is NULL *)
Lemma src_call_null d m : call (S d) "mu_task_call" [tv 0] m = Ok (VI 0, Tvoid, m).
Proof. erewrite call_S by reflexivity. change (tv 0) with (VI 0). cs. done. Qed.
(** ... with no hook installed *)
Lemma src_call_nohook d m t fn s info : 0 < t -> heap m !! 5%nat = Some [tv 0] -> heap m !! Z.to_nat t = Some [fn; s; info] -> defined fn = Ok fn ->
  call (S d) "mu_task_call" [tv t] m = let* '(_, _, m) := ext_ptr fn [tv t] m in Ok (VI 0, Tvoid, m).
Proof.
  intros Hpt H1 H2 Hf. rewrite tv_pos by done. change (tv 0) with (VI 0) in H1. erewrite call_S by reflexivity. cs.
  destruct (ext_ptr fn [VP (Z.to_nat t) 0] m) as [[[v ty] m']| |]; cs; done.
Qed.
(** ... with a hook: the hook runs first; the function called is the one the task has afterwards *)
Lemma src_call_hook d m t h : 0 < t -> 0 < h -> heap m !! 5%nat = Some [tv h] ->
  (forall v ty m', ext_ptr (tv h) [tv t] m = Ok (v, ty, m') -> exists fn s info, heap m' !! Z.to_nat t = Some [fn; s; info] /\ defined fn = Ok fn) ->
  call (S d) "mu_task_call" [tv t] m =
    let* '(_, _, m) := ext_ptr (tv h) [tv t] m in
    let* fn := load_mem m (Z.to_nat t) 0 in
    let* '(_, _, m) := ext_ptr fn [tv t] m in Ok (VI 0, Tvoid, m).
Proof.
  intros Hpt Hph H1 Hk. rewrite (tv_pos t) in * by done. assert (Eh : negb (h =? 0) = true) by (destruct (Z.eqb_spec h 0); [lia|done]).
  erewrite call_S by reflexivity. cs.
  destruct (ext_ptr (tv h) [VP (Z.to_nat t) 0] m) as [[[v ty] m']| |] eqn:E; cs; [|done|done].
  destruct (Hk _ _ _ eq_refl) as (fn & s & info & H2 & Hf). unfold load_mem. rewrite H2. cbn [ofopt bind].
  change (ld [fn; s; info] 0) with (Ok fn). cs. destruct (ext_ptr fn [VP (Z.to_nat t) 0] m') as [[[v' t'] m2]| |]; cs; done.
Qed.
Lemma src_set_state_null d m s : 0 <= s < 4294967296 -> call (S d) "mu_task_set_state" [tv 0; VI s] m = Ok (tv 0, taskp, m).
Proof. intros Hs. erewrite call_S by reflexivity. change (tv 0) with (VI 0). cs. done. Qed.
Lemma src_set_state_nohook d m t fn s0 info s : 0 < t -> heap m !! 4%nat = Some [tv 0] -> heap m !! Z.to_nat t = Some [fn; s0; info] -> 0 <= s < 4294967296 ->
  call (S d) "mu_task_set_state" [tv t; VI s] m = Ok (tv t, taskp, set_cell_at m (Z.to_nat t) [fn; VI s; info]).
Proof. intros Hpt H1 H2 Hs. rewrite (tv_pos t) by done. change (tv 0) with (VI 0) in H1. erewrite call_S by reflexivity. cs. done. Qed.
Lemma src_set_state_hook d m t h s : 0 < t -> 0 < h -> heap m !! 4%nat = Some [tv h] -> 0 <= s < 4294967296 ->
  (forall v ty m', ext_ptr (tv h) [tv t; VI s] m = Ok (v, ty, m') -> exists fn s0 info, heap m' !! Z.to_nat t = Some [fn; s0; info]) ->
  call (S d) "mu_task_set_state" [tv t; VI s] m =
    let* '(_, _, m) := ext_ptr (tv h) [tv t; VI s] m in
    let* m := store_mem m (Z.to_nat t) 1 (VI s) in Ok (tv t, taskp, m).
Proof.
  intros Hpt Hph H1 Hs Hk. rewrite (tv_pos t) in * by done. assert (Eh : negb (h =? 0) = true) by (destruct (Z.eqb_spec h 0); [lia|done]).
  erewrite call_S by reflexivity. cs.
  destruct (ext_ptr (tv h) [VP (Z.to_nat t) 0; VI s] m) as [[[v ty] m']| |] eqn:E; cs; [|done|done].
  destruct (Hk _ _ _ eq_refl) as (fn & s0 & info & H2). unfold store_mem. rewrite H2. cs. done.
Qed.
Lemma src_transfer_hook d m h t : heap m !! 6%nat = Some [tv h] ->
  call (S d) "mu_task_call_transfer_hook" [tv t] m =
    if h =? 0 then Ok (VI 0, Tvoid, m) else let* '(_, _, m) := ext_ptr (tv h) [tv t] m in Ok (VI 0, Tvoid, m).
Proof.
  intros H1. erewrite call_S by reflexivity. cs. destruct (h =? 0) eqn:Hn; cbn [negb]; cs; [done|].
  destruct (ext_ptr (tv h) [tv t] m) as [[[v ty] m']| |] eqn:E; cs; done.
Qed.
(** mu_sched.c:150-153 *)
Lemma src_transfer d m t :
  call (S (S d)) "mu_sched_transfer" [tv t] m =
    let* '(_, _, m) := call (S d) "mu_task_call_transfer_hook" [tv t] m in
    let* '(v, _, m) := call (S d) "mu_sched_immed" [tv t] m in let* v := conv p enum v in Ok (v, enum, m).
Proof.
  erewrite call_S by reflexivity. cs. destruct (call (S d) "mu_task_call_transfer_hook" [tv t] m) as [[[v ty] m']| |]; cs; [|done|done].
  destruct (call (S d) "mu_sched_immed" [tv t] m') as [[[v' ty'] m2]| |]; cs; done.
Qed.
(** mu_sched.c:105-129 *)
Lemma spsc_get_ok s e x q : sched_ok cf s -> mu_spsc_get (sc_irq s) = Ok (e, x, q) -> sched_ok cf (with_curr (with_irq s q) x).
Proof.
  intros [] H. unfold mu_spsc_get in H. destruct (_ =? _).
  - injection H as <- <- <-. split; done.
  - destruct (ld _ _); cbn [bind] in H; try done. injection H as <- <- <-. split; cbn; try done.
    apply Z.mod_pos_bound. lia.
Qed.
Lemma fetch_ok s now t s' : sched_ok cf s -> fetch_runnable_deferred_task cf now s = Ok (t, s') -> sched_ok cf (with_curr s' t).
Proof.
  intros [] H. unfold fetch_runnable_deferred_task, next_deferred_task in H. destruct (Z.ltb_spec 0 (sc_dcount s)).
  - destruct (ld (sc_deferred s) _) as [e0| |] eqn:El; cbn [bind] in H; try done. destruct (negb _).
    + cbn [sc_deferred with_deferred] in H. rewrite ?El in H. cbn [bind] in H. injection H as <- <-.
      rewrite to_size_id by lia. split; cbn; try done; lia.
    + injection H as <- <-. split; done.
  - injection H as <- <-. split; done.
Qed.
Lemma queue_get_ok s b x q : sched_ok cf s -> mu_queue_get p (sc_immed s) = Ok (b, x, q) -> sched_ok cf (with_curr (with_immed s q) x).
Proof.
  intros [] H. unfold mu_queue_get, access_queue in H. destruct (negb _).
  - destruct (ld _ _); cbn [bind] in H; try done. injection H as <- <- <-. split; cbn; try done. apply to_size_range.
  - injection H as <- <- <-. split; done.
Qed.
Definition tail_step : stmt :=
  SSeq (SExpr (CLang.ECall "mu_task_call" [EField (EVar "s_sched") "curr_task"])) (SExpr (EAssign (EField (EVar "s_sched") "curr_task") (EInt 0))).
Notation exec d := (exec p P (call d) ext_ptr fuel).
Definition step_tail (d : nat) (m : mem) (t : Z) : res (val * ty * mem) :=
  let* '(_, _, m) := call d "mu_task_call" [tv t] m in
  let* m := store_mem m 3 9 (VI 0) in Ok (VI 0, Tvoid, m).
Lemma step_tail_ok d m s v : sched_at cf m s ->
  finish p Tvoid [] (exec d tail_step ([("item", BReg (Tptr Tvoid) v)], m)) = step_tail d m (sc_curr s).
Proof.
  intros [H0 H1 H2 H3 _ _ _ _ _ _ Hd _ _]. unfold scells, tail_step, step_tail in *. cs.
  destruct (call d "mu_task_call" [tv (sc_curr s)] m) as [[[v' ty'] m2]| |]; cs; [|done|done].
  unfold store_mem. destruct (heap m2 !! 3%nat) as [c|]; cs; [|done]. destruct (st c 9 (VI 0)); cs; done.
Qed.
Lemma src_step d m s now : sched_at cf m s -> heap m !! cb = Some [VI now] -> (3 < cb)%nat -> 0 <= now < 18446744073709551616 ->
  call (S (S (S (S d)))) "mu_sched_step" [] m =
    let* s1 := step_choose cf now s in step_tail (S (S (S d))) (set_sched m s1) (sc_curr s1).
Proof.
  intros H Hcb Hc3 Hr. pose proof (at_ok cf m s H) as Hok. start H. cstep.
  match goal with |- context [SSeq (SExpr (CLang.ECall "mu_task_call" ?a)) ?R] => set (T := SSeq (SExpr (CLang.ECall "mu_task_call" a)) R) end.
  assert (HT : T = tail_step) by done. clearbody T.
  assert (Hnx : forall m1 s1 v, sched_ok cf s1 -> m1 = set_sched m s1 -> finish p Tvoid [] (exec (S (S (S d))) T ([("item", BReg (Tptr Tvoid) v)], m1)) = step_tail (S (S (S d))) (set_sched m s1) (sc_curr s1)).
  { intros m1 s1 v Ho ->. rewrite HT. apply step_tail_ok. by apply set_at. }
  cs. rewrite src_spsc_get with (s := s) by done. unfold step_choose.
  destruct (mu_spsc_get (sc_irq s)) as [[[e x] q]| |] eqn:Eg; cbn [bind]; [|cs; done|cs; done].
  pose proof (spsc_get_ok _ _ _ _ Hok Eg) as Hok1. set (s1 := with_curr (with_irq s q) x) in *.
  assert (Hx : (e = SPSC_NONE \/ e <> SPSC_NONE)) by (destruct e; [by left|by right..]).
  destruct Hx as [->|Hne].
  { cbn [spsc_code step_rest bind]. cs. apply Hnx; done. }
  assert (Ese : (spsc_code e =? 0) = false) by (by destruct e).
  assert (0 <= spsc_code e < 4294967296) by (destruct e; cbn; lia).
  cs. replace (step_rest cf now e s1) with (step_rest cf now SPSC_EMPTY s1) by (by destruct e). cbn [step_rest].
  assert (Hs1 : sched_at cf (set_sched m s1) s1) by (by apply set_at).
  rewrite (src_fetch cf fuel ext ext_ptr cb Hnow Hprec (S d) (set_sched m s1) s1 now) by (done || (rewrite set_other by lia; done)).
  destruct (fetch_runnable_deferred_task cf now s1) as [[t s2]| |] eqn:Ef; cbn [bind]; [|cs; done|cs; done].
  pose proof (fetch_ok _ _ _ _ Hok1 Ef) as Hok2. rewrite set_set.
  assert (Hh3 : heap (set_sched m s2) !! 3%nat = Some (scells s2)) by (cbn; apply lookup_insert). unfold scells in Hh3.
  cs.
  match goal with |- context [MkMem (<[3%nat := ?c]> (heap (set_sched m s2))) ?n] => replace (MkMem (<[3%nat := c]> (heap (set_sched m s2))) n) with (set_sched m (with_curr s2 t)) end.
  2: { symmetry. apply set_make; [done|..|intros b Hb; cbn [heap next]; rewrite lookup_insert_ne by lia; by apply set_other];
       cbn [heap set_sched]; rewrite ?lookup_insert_ne by done; rewrite ?lookup_insert; reflexivity. }
  destruct (negb (t =? 0)) eqn:Et; change (negb (t =? NULL)) with (negb (t =? 0)); rewrite ?Et; cbn [bind]; cs.
  { apply Hnx; done. }
  set (s3 := with_curr s2 t) in *. assert (Hs3 : sched_at cf (set_sched m s3) s3) by (by apply set_at).
  rewrite src_queue_get with (s := s3) by done.
  destruct (mu_queue_get p (sc_immed s3)) as [[[b y] q']| |] eqn:Eq; cbn [bind]; [|cs; done|cs; done].
  pose proof (queue_get_ok _ _ _ _ Hok2 Eq) as Hok3. rewrite set_set. set (s4 := with_curr (with_immed s3 q') y) in *.
  destruct b; [change (truth true) with (VI 1)|change (truth false) with (VI 0)]; cs.
  { cbn [bind]. apply Hnx; done. }
  cbn [bind].
  assert (Hh4 : heap (set_sched m s4) !! 3%nat = Some (scells s4)) by (cbn; apply lookup_insert). unfold scells in Hh4.
  cs. apply Hnx; [destruct Hok3; split; done|].
  apply set_make; [done|..|intros b Hb; cbn [heap next]; rewrite lookup_insert_ne by lia; by apply set_other];
       cbn [heap set_sched]; rewrite ?lookup_insert_ne by done; rewrite ?lookup_insert; reflexivity.
Qed.
End sched.
