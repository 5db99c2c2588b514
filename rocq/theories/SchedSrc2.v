(** * mu_sched: the translated source of the scheduler's own functions *)
From Verif Require Import CSym SrcSched FifoSpec QueueModel SpscModel TaskModel SchedModel SchedSrc.
Open Scope string_scope. Open Scope Z_scope.
Notation length := List.length.

Lemma call_ext p P fuel ext ep d x vs m : find_fun x (funs P) = None -> CLang.call p P fuel ext ep d x vs m = ext x vs m.
Proof. intros H. destruct d; unfold CLang.call; rewrite H; done. Qed.
Lemma tv_eqb a b : 0 <= a -> 0 <= b -> ptr_cmp Eq (tv a) (tv b) = Ok (a =? b).
Proof.
  intros Ha Hb. unfold tv. destruct (Z.eqb_spec a 0) as [->|Hx], (Z.eqb_spec b 0) as [->|Hy]; cbn [ptr_cmp].
  - done. - destruct (Z.eqb_spec 0 b); [lia|done]. - destruct (Z.eqb_spec a 0); [lia|done].
  - rewrite Z.eqb_refl, andb_true_r. f_equal. destruct (Z.eqb_spec a b) as [->|]; [apply Nat.eqb_refl|]. apply Nat.eqb_neq. lia.
Qed.
Lemma tv_null t : ptr_cmp Ne (tv t) (VI 0) = Ok (negb (t =? 0)).
Proof. unfold tv. destruct (Z.eqb_spec t 0) as [->|Hx]; reflexivity. Qed.

Section sched.
Context (cf : config) (fuel : nat) (ext : string -> list val -> mem -> res (val * ty * mem))
  (ext_ptr : val -> list val -> mem -> res (val * ty * mem)).
Notation p := (plat_ cf).
Notation P := (sched_prog (MAX_DEFERRED cf) (MAX_IRQ cf) (MAX_IMMED cf)).
Notation call d := (call p P fuel ext ext_ptr d).
Notation enum := (Tint false W32).
Notation u64 := (Tint false W64).
Notation taskp := (Tptr (Tstruct "mu_task_t")).
Notation dtask := (Tstruct "deferred_task_t").
(** the platform functions: [cb] is the clock *)
Context (cb : nat).
Context (Hnow : forall m now, heap m !! cb = Some [VI now] -> ext "mu_time_now" [] m = Ok (VI now, u64, m))
  (Hprec : forall m a b, ext "mu_time_precedes" [VI a; VI b] m = Ok (truth (precedes cf a b), Tbool, m))
  (Hoff : forall m a b, ext "mu_time_offset" [VI a; VI b] m = Ok (VI (offset cf a b), u64, m)).
Context (Hint : MAX_DEFERRED cf <= int_max) (Hsize : MAX_DEFERRED cf * (8 + ptr_bytes p) < size_mod p).

Lemma bytes : byte_size p P dtask = 8 + ptr_bytes p.
Proof. destruct p; reflexivity. Qed.
Lemma bytes_pos : 0 < 8 + ptr_bytes p. Proof. unfold ptr_bytes. destruct p; lia. Qed.
Lemma move_flat m d a b k : heap m !! 2%nat = Some (flat d) ->
  move_mem p P m dtask (VP 2 (2 * a)) (VP 2 (2 * b)) (k * (8 + ptr_bytes p)) =
    let* d := memmove d a b k in Ok (MkMem (<[2%nat := flat d]> (heap m)) (next m)).
Proof.
  intros H. pose proof bytes_pos. unfold move_mem. rewrite bytes, H. rewrite Z.mod_mul, Z.div_mul by lia. cbn [negb Z.eqb ofopt bind].
  change (cells P dtask) with 2. unfold memmove. rewrite !flat_length.
  match goal with |- (if ?x then _ else _) = let* d := (if ?y then _ else _) in _ => replace x with y by
    (apply eq_true_iff_eq; rewrite !andb_true_iff, !Z.leb_le; lia); destruct y eqn:E end; [|done].
  rewrite !andb_true_iff, !Z.leb_le in E. cbn [bind]. do 3 f_equal. rewrite !flat_app, <- !flat_take, <- !flat_drop.
  replace (Z.to_nat (2 * a)) with (2 * Z.to_nat a)%nat by lia. replace (Z.to_nat (k * 2)) with (2 * Z.to_nat k)%nat by lia.
  replace (Z.to_nat (2 * b)) with (2 * Z.to_nat b)%nat by lia. replace (Z.to_nat (2 * a + k * 2)) with (2 * Z.to_nat (a + k))%nat by lia. done.
Qed.
Lemma memmove_length {A} (l l' : list A) a b k : memmove l a b k = Ok l' -> length l' = length l.
Proof.
  unfold memmove. destruct (_ && _) eqn:E; [|done]. rewrite !andb_true_iff, !Z.leb_le in E. intros [= <-].
  rewrite !app_length, !take_length, !drop_length. lia.
Qed.
Lemma flat_insert d i a t : (i < length d)%nat -> flat (<[i := (a, t)]> d) = <[S (2 * i) := tv t]> (<[(2 * i)%nat := VI a]> (flat d)).
Proof.
  revert d. induction i as [|i IH]; intros [|e d] Hi; cbn [length] in Hi; try lia; [done|].
  replace (2 * S i)%nat with (S (S (2 * i))) by lia. cbn. rewrite IH by lia. done.
Qed.
Lemma src_now d m now : heap m !! cb = Some [VI now] -> call d "mu_time_now" [] m = Ok (VI now, u64, m).
Proof. intros H. rewrite call_ext by reflexivity. by apply Hnow. Qed.
Lemma src_prec d m a b : call d "mu_time_precedes" [VI a; VI b] m = Ok (truth (precedes cf a b), Tbool, m).
Proof. rewrite call_ext by reflexivity. apply Hprec. Qed.
Lemma src_off d m a b : call d "mu_time_offset" [VI a; VI b] m = Ok (VI (offset cf a b), u64, m).
Proof. rewrite call_ext by reflexivity. apply Hoff. Qed.

Ltac lk := cbn [heap next]; first [ reflexivity | assumption | rewrite lookup_insert; reflexivity
  | rewrite lookup_insert_ne by first [done | lia]; lk ].
Ltac mk := apply set_make; [done|lk|lk|lk|lk|intros b Hb; cbn [heap next]; rewrite ?lookup_insert_ne by lia; reflexivity].
Ltac start H := pose proof H as H'; destruct H as [H0 H1 H2 H3 Hm Hh Ht Hc Hn Hi Hd Hdl Hdm]; unfold scells in *; erewrite call_S by reflexivity.
Ltac fold_max := progress change (match cf with MkConfig _ x _ _ _ _ => x end) with (MAX_DEFERRED cf).
Ltac cs := repeat first [fold_max | rewrite tv_defined | rewrite tv_null | cstep | hstep].
Ltac done_ := first [reflexivity | do 2 f_equal; mk].

Ltac call_hook ::= first [erewrite src_next_deferred by eassumption | erewrite src_now by eassumption | rewrite src_prec | rewrite src_off].
Lemma src_fetch d m s now : sched_at cf m s -> heap m !! cb = Some [VI now] -> 0 <= now < 18446744073709551616 ->
  call (S (S d)) "fetch_runnable_deferred_task" [] m =
    let* '(t, s) := fetch_runnable_deferred_task cf now s in Ok (tv t, taskp, set_sched m s).
Proof.
  intros H Hcb Hr. start H. cs. unfold fetch_runnable_deferred_task, next_deferred_task.
  destruct (Z.ltb_spec 0 (sc_dcount s)); cs.
  - rewrite to_size_id by lia. destruct (ld_ex (sc_deferred s) (sc_dcount s - 1)) as ([ea et] & _ & E); [lia|]. rewrite !E. cbn [bind fst snd].
    rewrite (ld_flat0 (sc_deferred s) (sc_dcount s - 1)) by lia. rewrite E. cbn [bind fst snd]. cs.
    destruct (precedes cf now ea); cbn [negb]; cs.
    + cbn [bind]. rewrite (set_same cf) by done. done.
    + rewrite (ld_flat1 (sc_deferred s) (sc_dcount s - 1)) by lia. rewrite E. cbn [bind fst snd]. cs. cbn [sc_deferred with_deferred]. rewrite E. cbn [bind fst snd]. rewrite ?to_size_id by lia. done_.
  - cbn [bind]. rewrite (set_same cf) by done. done.
Qed.

(** ** mu_sched.c:230-265 *)
Notation exec d := (exec p P (call d) ext_ptr fuel).
Notation test d := (test p P (call d) ext_ptr).
Definition env_defer (t at_ : Z) (dt : val) (i : Z) : env :=
  [("task", BReg taskp (tv t)); ("at", BReg u64 (VI at_)); ("deferred_task", BReg (Tptr dtask) dt); ("i", BReg Tsize (VI i));
   ("to_move", BReg int VU); ("src", BReg (Tptr dtask) VU); ("dst", BReg (Tptr dtask) VU)].
Definition test_i : expr := EBin Gt (EVar "i") (EInt 0).
Definition body_defer : stmt :=
  (SSeq (SExpr (EAssign (EVar "deferred_task") (EAddr (EIndex (EVar "s_deferred_tasks") (EBin Sub (EVar "i") (EInt 1))))))
              (SSeq (SIf (CLang.ECall "mu_time_precedes" [EVar "at"; EArrow (EVar "deferred_task") "at"])
                  SBreak
                  SSkip)
                (SExpr (EAssignOp Sub (EVar "i") (EInt 1))))).
Lemma defer_loop d m s t at_ : sched_at cf m s -> forall k n dt, (k < n)%nat -> Z.of_nat k <= sc_dcount s ->
  exists dt', loop n (test d test_i) (exec d body_defer) (exec d SSkip) (env_defer t at_ dt (Z.of_nat k), m) =
    let* i := defer_search cf k (sc_deferred s) at_ in Ok (Next, (env_defer t at_ dt' i, m)).
Proof.
  intros [H0 H1 H2 H3 Hm Hh Ht Hc Hn Hi Hd Hdl Hdm]. pose proof (size_mod_big p).
  induction k as [|k IH]; intros [|n] dt Hk Hle; try lia; rewrite loop_S; unfold test_i, body_defer, env_defer at 1; cbn [defer_search].
  - exists dt. cs. done.
  - destruct (ld_ex (sc_deferred s) (Z.of_nat k)) as ([ea et] & _ & E); [lia|]. rewrite E. cbn [bind fst snd].
    assert (E0 : (0 <? Z.of_nat (S k)) = true) by (apply Z.ltb_lt; lia).
    assert (E1 : to_size p (Z.of_nat (S k) - 1) = Z.of_nat k) by (rewrite to_size_id by lia; lia).
    destruct (precedes cf at_ ea) eqn:Ep.
    + exists (VP 2 (2 * Z.of_nat k)). cs. rewrite E1. rewrite ptr_in_ok by (rewrite flat_length; lia). cs.
      rewrite (ld_flat0 (sc_deferred s) (Z.of_nat k)) by lia. rewrite E. cbn [bind fst snd]. cs. rewrite Z.mul_comm. done.
    + destruct (IH n (VP 2 (Z.of_nat k * 2)) ltac:(lia) ltac:(lia)) as (dt' & Hr). exists dt'. rewrite <- Hr.
      cs. rewrite E1. rewrite ptr_in_ok by (rewrite flat_length; lia). cs.
      rewrite (ld_flat0 (sc_deferred s) (Z.of_nat k)) by lia. rewrite E. cbn [bind fst snd]. cs. rewrite E1. done.
Qed.
Lemma defer_search_ok d at_ : forall k, (k <= length d)%nat -> exists i, defer_search cf k d at_ = Ok i /\ 0 <= i <= Z.of_nat k.
Proof.
  induction k as [|k IH]; intros Hk; cbn [defer_search]; [exists 0; split; [done|lia]|].
  destruct (ld_ex d (Z.of_nat k)) as ([ea et] & _ & E); [lia|]. rewrite E. cbn [bind fst snd]. destruct (precedes _ _ _).
  - exists (Z.of_nat (S k)). split; [done|lia].
  - destruct IH as (i & Ei & Hi); [lia|]. exists i. split; [done|lia].
Qed.
(** behind the opened slot *)
Definition tail_defer : stmt :=
  (SSeq (SExpr (EAssign (EVar "deferred_task") (EAddr (EIndex (EVar "s_deferred_tasks") (EVar "i")))))
                (SSeq (SExpr (EAssign (EArrow (EVar "deferred_task") "at") (EVar "at")))
                  (SSeq (SExpr (EAssign (EArrow (EVar "deferred_task") "task") (EVar "task")))
                    (SSeq (SExpr (EAssignOp Add (EField (EVar "s_sched") "deferred_task_count") (EInt 1)))
                      (SReturn (Some (EVar "MU_SCHED_ERR_NONE"))))))).
Lemma defer_tail d m s t at_ i d0 v1 v2 v3 v4 : sched_at cf m s -> 0 <= at_ < 18446744073709551616 -> 0 <= i < Z.of_nat (length d0) ->
  0 <= sc_dcount s + 1 < size_mod p ->
  finish p enum [] (exec d tail_defer ([("task", BReg taskp (tv t)); ("at", BReg u64 (VI at_)); ("deferred_task", BReg (Tptr dtask) v1); ("i", BReg Tsize (VI i));
   ("to_move", BReg int v2); ("src", BReg (Tptr dtask) v3); ("dst", BReg (Tptr dtask) v4)], MkMem (<[2%nat := flat d0]> (heap m)) (next m))) =
  let* d1 := st d0 i (at_, t) in Ok (VI 0, enum, set_sched m (with_deferred s d1 (sc_dcount s + 1))).
Proof.
  intros [H0 H1 H2 H3 _ _ _ _ _ _ Hd _ _] Hat Hi Hn. unfold scells, tail_defer in *.
  assert (HS2 : to_size p (sc_dcount s + 1) = sc_dcount s + 1) by (apply to_size_id; lia).
  cs. rewrite ptr_in_ok by (rewrite flat_length; lia). cs.
  rewrite st_ok by (rewrite flat_length; lia). cs. rewrite st_ok by (rewrite insert_length, flat_length; lia). cs.
  rewrite HS2. cs. rewrite (st_ok d0) by lia. cbn [bind]. do 2 f_equal. apply set_make; [done|lk|lk| |lk|intros b Hb; cbn [heap next]; rewrite ?lookup_insert_ne by lia; reflexivity].
  cbn [heap next]. rewrite lookup_insert_ne by done. rewrite lookup_insert. cbn [sc_deferred with_deferred]. rewrite flat_insert by lia.
  do 2 f_equal; [lia|]. f_equal. lia.
Qed.
Lemma src_defer_aux d m s t at_ : sched_at cf m s -> 0 <= at_ < 18446744073709551616 -> (Z.to_nat (MAX_DEFERRED cf) < fuel)%nat ->
  call (S (S d)) "defer_aux" [tv t; VI at_] m =
    let* '(e, s) := defer_aux cf t at_ s in Ok (VI (sched_code e), enum, set_sched m s).
Proof.
  intros H Hat Hf. start H. pose proof (size_mod_big p). pose proof bytes_pos.
  assert (HM : 0 <= MAX_DEFERRED cf < size_mod p) by nia.
  cs. unfold defer_aux. destruct (sc_dcount s =? MAX_DEFERRED cf) eqn:Efull; cs.
  { cbn [bind]. rewrite (set_same cf) by done. done. }
  apply Z.eqb_neq in Efull. rewrite exec_SLoop.
  destruct (defer_loop (S d) m s t at_ H' (Z.to_nat (sc_dcount s)) fuel VU ltac:(lia) ltac:(lia)) as (dt & Hr).
  rewrite Z2Nat.id in Hr by lia. unfold test_i, body_defer, env_defer in Hr. rewrite Hr. clear Hr.
  destruct (defer_search_ok (sc_deferred s) at_ (Z.to_nat (sc_dcount s)) ltac:(lia)) as (i & Ei & Hi'). rewrite Ei. rewrite Z2Nat.id in Hi' by lia.
  assert (int_min <= sc_dcount s - i <= int_max) by (unfold int_min; lia).
  assert (0 <= sc_dcount s - i < size_mod p) by lia.
  assert (HW : wrap_signed 4294967296 (sc_dcount s - i) = sc_dcount s - i) by (apply to_int_id; lia).
  assert (HS : to_size p (sc_dcount s - i) = sc_dcount s - i) by (apply to_size_id; lia).
  cbn [bind]. rewrite HS. change (to_int (sc_dcount s - i)) with (wrap_signed 4294967296 (sc_dcount s - i)). rewrite HW.
  assert (HS1 : to_size p (i + 1) = i + 1) by (apply to_size_id; lia).
  assert (HS2 : to_size p (sc_dcount s + 1) = sc_dcount s + 1) by (apply to_size_id; lia). rewrite HS2.
  assert (HS3 : forall k, 0 <= k <= MAX_DEFERRED cf -> to_size p (k * (8 + ptr_bytes p)) = k * (8 + ptr_bytes p)) by (intros k Hk; apply to_size_id; nia).
  match goal with |- context [SSeq (SExpr (EAssign (EVar "deferred_task") (EAddr (EIndex (EVar "s_deferred_tasks") (EVar "i"))))) ?R] =>
    set (T := SSeq (SExpr (EAssign (EVar "deferred_task") (EAddr (EIndex (EVar "s_deferred_tasks") (EVar "i"))))) R) end.
  assert (HT : T = tail_defer) by done. clearbody T.
  Ltac cs2 HW HS := repeat first [rewrite HW | rewrite HS | progress cs].
  cs2 HW HS.
  destruct (0 <? sc_dcount s - i) eqn:Em; cs.
  - apply Z.ltb_lt in Em as Em'. rewrite ptr_in_ok by (rewrite flat_length; lia). cs2 HW HS1.
    rewrite ptr_in_ok by (rewrite flat_length; lia). cs2 HW HS.
    rewrite bytes. rewrite (to_size_id p (8 + ptr_bytes p)) by nia. rewrite HS3 by lia. rewrite !Z.add_0_l, !(Z.mul_comm _ 2).
    rewrite (move_flat _ (sc_deferred s)) by done.
    destruct (memmove _ _ _ _) as [d0| |] eqn:Ed0; cs; [|done|done].
    apply memmove_length in Ed0. subst T. rewrite (defer_tail (S d) m s t at_ i d0) by (done || lia).
    cbn [bind]. destruct (st d0 i (at_, t)); done.
  - subst T. replace m with (MkMem (<[2%nat := flat (sc_deferred s)]> (heap m)) (next m)) at 1
      by (rewrite insert_id by done; by destruct m).
    rewrite (defer_tail (S d) m s t at_ i (sc_deferred s)) by (done || lia).
    cbn [bind]. destruct (st _ i (at_, t)); done.
Qed.
End sched.
