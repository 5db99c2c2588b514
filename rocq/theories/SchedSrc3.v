(** * mu_sched: the translated source of the rest *)
From Verif Require Import CSym SrcSched FifoSpec QueueModel SpscModel TaskModel SchedModel SchedSrc SchedSrc2.
Open Scope string_scope. Open Scope Z_scope.
Notation length := List.length.

Section sched.
Context (cf : config) (fuel : nat) (ext : string -> list val -> mem -> res (val * ty * mem))
  (ext_ptr : val -> list val -> mem -> res (val * ty * mem)).
Notation p := (plat_ cf).
Notation P := (sched_prog (MAX_DEFERRED cf) (MAX_IRQ cf) (MAX_IMMED cf)).
Notation call d := (call p P fuel ext ext_ptr d).
Notation enum := (Tint false W32).
Notation u64 := (Tint false W64).
Notation taskp := (Tptr (Tstruct "mu_task_t")).
Notation dtask := (Tstruct "deferred_task_t").
(** the platform functions: [cb] is the clock *)
Context (cb : nat).
Context (Hnow : forall m now, heap m !! cb = Some [VI now] -> ext "mu_time_now" [] m = Ok (VI now, u64, m))
  (Hprec : forall m a b, ext "mu_time_precedes" [VI a; VI b] m = Ok (truth (precedes cf a b), Tbool, m))
  (Hoff : forall m a b, ext "mu_time_offset" [VI a; VI b] m = Ok (VI (offset cf a b), u64, m)).
Context (Hint : MAX_DEFERRED cf <= int_max) (Hsize : MAX_DEFERRED cf * (8 + ptr_bytes p) < size_mod p).

Ltac lk := cbn [heap next]; first [ reflexivity | assumption | rewrite lookup_insert; reflexivity
  | rewrite lookup_insert_ne by first [done | lia]; lk ].
Ltac mk := apply set_make; [done|lk|lk|lk|lk|intros b Hb; cbn [heap next]; rewrite ?lookup_insert_ne by lia; reflexivity].
Ltac start H := pose proof H as H'; destruct H as [H0 H1 H2 H3 Hm Hh Ht Hc Hn Hi Hd Hdl Hdm]; unfold scells in *; erewrite call_S by reflexivity.
Ltac fold_max := progress change (match cf with MkConfig _ x _ _ _ _ => x end) with (MAX_DEFERRED cf).
Ltac cs := repeat first [fold_max | rewrite tv_defined | rewrite tv_null | rewrite tv_eqb by assumption | cstep | hstep].
Ltac done_ := first [reflexivity | do 2 f_equal; mk].


Record sched_ok (s : sched) : Prop := {
  so_mask : 0 <= s_mask (sc_irq s) < 65536; so_head : 0 <= s_head (sc_irq s) < 65536; so_tail : 0 <= s_tail (sc_irq s) < 65536;
  so_cap : 0 <= q_cap (sc_immed s) < size_mod p; so_cnt : 0 <= q_cnt (sc_immed s) < size_mod p; so_idx : 0 <= q_index (sc_immed s) < size_mod p;
  so_dcnt : 0 <= sc_dcount s < size_mod p;
  so_dlen : Z.of_nat (length (sc_deferred s)) = MAX_DEFERRED cf; so_dmax : sc_dcount s <= MAX_DEFERRED cf }.
Lemma at_ok m s : sched_at cf m s -> sched_ok s.
Proof. intros []. split; done. Qed.
Lemma set_at m s : sched_ok s -> sched_at cf (set_sched m s) s.
Proof.
  intros []. split; try done; unfold set_sched; cbn [heap].
  - rewrite !lookup_insert_ne by done. apply lookup_insert.
  - rewrite !lookup_insert_ne by done. apply lookup_insert.
  - rewrite !lookup_insert_ne by done. apply lookup_insert.
  - apply lookup_insert.
Qed.
Lemma set_set m s s' : set_sched (set_sched m s) s' = set_sched m s'.
Proof.
  apply set_make.
  - done.
  - cbn [set_sched heap]. rewrite !lookup_insert_ne by done. apply lookup_insert.
  - cbn [set_sched heap]. rewrite !lookup_insert_ne by done. apply lookup_insert.
  - cbn [set_sched heap]. rewrite !lookup_insert_ne by done. apply lookup_insert.
  - cbn [set_sched heap]. apply lookup_insert.
  - intros b Hb. cbn [set_sched heap]. rewrite !lookup_insert_ne by lia. done.
Qed.
Lemma set_other m s b : (3 < b)%nat -> heap (set_sched m s) !! b = heap m !! b.
Proof. intros Hb. cbn [set_sched heap]. rewrite !lookup_insert_ne by lia. done. Qed.
(** ** mu_sched.c:181-200 *)
Notation exec d := (exec p P (call d) ext_ptr fuel).
Notation test d := (test p P (call d) ext_ptr).
Definition env_remove (t : Z) (e : sched_err) (i : Z) (v1 v2 v3 : val) : env :=
  [("task", BReg taskp (tv t)); ("err", BReg enum (VI (sched_code e))); ("i", BReg Tsize (VI i)); ("deferred_task", BReg (Tptr dtask) v1);
   ("to_move", BReg Tsize v2); ("src", BReg (Tptr dtask) v3)].
Definition body_remove : stmt :=
  (SSeq (SDecl "deferred_task" (Some (EAddr (EIndex (EVar "s_deferred_tasks") (EBin Sub (EVar "i") (EInt 1))))))
            (SSeq (SIf (EBin Eq (EArrow (EVar "deferred_task") "task") (EVar "task"))
                (SSeq (SDecl "to_move" (Some (EBin Sub (EField (EVar "s_sched") "deferred_task_count") (EVar "i"))))
                  (SSeq (SIf (EBin Gt (EVar "to_move") (EInt 0))
                      (SSeq (SDecl "src" (Some (EAddr (EIndex (EVar "s_deferred_tasks") (EVar "i")))))
                        (SExpr (EMemmove (Tstruct "deferred_task_t") (EVar "deferred_task") (EVar "src") (EBin Mul (EVar "to_move") (ESizeof (Tstruct "deferred_task_t"))))))
                      SSkip)
                    (SSeq (SExpr (EAssignOp Sub (EField (EVar "s_sched") "deferred_task_count") (EInt 1)))
                      (SExpr (EAssign (EVar "err") (EVar "MU_SCHED_ERR_NONE"))))))
                SSkip)
              (SExpr (EAssignOp Sub (EVar "i") (EInt 1))))).
Definition pos_tasks (d : list (Z * Z)) : Prop := Forall (fun e => 0 <= snd e) d.
Lemma pos_ld d i e : pos_tasks d -> ld d i = Ok e -> 0 <= snd e.
Proof.
  intros H. unfold ld. destruct (i <? 0); [done|]. destruct (d !! Z.to_nat i) eqn:E; [|done]. intros [= <-].
  eapply Forall_lookup_1 in H; [|done]. done.
Qed.
Lemma pos_memmove d d' a b k : pos_tasks d -> memmove d a b k = Ok d' -> pos_tasks d'.
Proof.
  intros H. unfold memmove. destruct (_ && _); [|done]. intros [= <-]. unfold pos_tasks in *.
  rewrite !Forall_app. split; [by apply Forall_take|]. split; [by apply Forall_take, Forall_drop|]. by apply Forall_drop.
Qed.
Lemma remove_iter d m s t e k v1 v2 v3 : sched_at cf m s -> 0 <= t -> pos_tasks (sc_deferred s) -> Z.of_nat (S k) <= sc_dcount s ->
  exists d' e' n' v1' v2' v3', exec d body_remove (env_remove t e (Z.of_nat (S k)) v1 v2 v3, m) =
    Ok (Next, (env_remove t e' (Z.of_nat k) v1' v2' v3', set_sched m (with_deferred s d' n'))) /\
    length d' = length (sc_deferred s) /\ pos_tasks d' /\ Z.of_nat k <= n' <= sc_dcount s /\
    remove_loop cf (S k) t (sc_deferred s) (sc_dcount s) e = remove_loop cf k t d' n' e'.
Proof.
  intros H Hpt Hpos Hk. pose proof H as H'. destruct H as [H0 H1 H2 H3 Hm Hh Ht Hc Hn Hi Hd Hdl Hdm]. unfold scells in *. pose proof (size_mod_big p).
  pose proof (bytes_pos cf).
  destruct (ld_ex (sc_deferred s) (Z.of_nat k)) as ([ea et] & _ & E); [lia|]. pose proof (pos_ld _ _ _ Hpos E) as Het. cbn [snd] in Het.
  assert (E1 : to_size p (Z.of_nat (S k) - 1) = Z.of_nat k) by (rewrite to_size_id by lia; lia).
  cbn [remove_loop]. rewrite E. cbn [bind snd].
  assert (HS : to_size p (sc_dcount s - Z.of_nat (S k)) = sc_dcount s - Z.of_nat (S k)) by (apply to_size_id; lia). rewrite HS.
  assert (HS2 : to_size p (sc_dcount s - 1) = sc_dcount s - 1) by (apply to_size_id; lia). rewrite HS2.
  destruct (et =? t) eqn:Et.
  - destruct (0 <? sc_dcount s - Z.of_nat (S k)) eqn:Em.
    + apply Z.ltb_lt in Em as Em'.
      destruct (memmove (sc_deferred s) (Z.of_nat k) (Z.of_nat (S k)) (sc_dcount s - Z.of_nat (S k))) as [d'| |] eqn:Ed.
      2,3: exfalso; rewrite memmove_ok in Ed by lia; done.
      exists d', SCHED_NONE, (sc_dcount s - 1). do 3 eexists. split_and!.
      * unfold env_remove, body_remove. cs. rewrite E1. rewrite ptr_in_ok by (rewrite flat_length; lia). cs.
        rewrite (ld_flat1 (sc_deferred s) (Z.of_nat k)) by lia. rewrite E. cbn [bind snd]. cs.
        rewrite HS. cs. rewrite ptr_in_ok by (rewrite flat_length; lia). cs.
        rewrite (bytes cf Hsize). rewrite (to_size_id p (8 + ptr_bytes p)) by nia. rewrite (to_size_id p (_ * (8 + ptr_bytes p))) by nia.
        cs. rewrite ?Z.add_0_l, !(Z.mul_comm (Z.of_nat _) 2).
        rewrite (move_flat cf Hsize _ (sc_deferred s)) by done. rewrite Ed. cs. rewrite HS2. cs. rewrite ?E1. cs.
        match goal with |- Ok (_, (_, ?m1)) = Ok (_, (_, ?m2)) => enough (Hmm : m1 = m2) by (rewrite Hmm; reflexivity) end. apply set_make; [done|lk|lk|lk|lk|intros b Hb; cbn [heap next]; rewrite ?lookup_insert_ne by lia; reflexivity].
      * by apply memmove_length in Ed.
      * by eapply pos_memmove.
      * lia. * lia.
      * done.
    + exists (sc_deferred s), SCHED_NONE, (sc_dcount s - 1). do 3 eexists. split_and!.
      * unfold env_remove, body_remove. cs. rewrite E1. rewrite ptr_in_ok by (rewrite flat_length; lia). cs.
        rewrite (ld_flat1 (sc_deferred s) (Z.of_nat k)) by lia. rewrite E. cbn [bind snd]. cs.
        rewrite HS. cs. rewrite HS2. cs. rewrite ?E1. cs.
        match goal with |- Ok (_, (_, ?m1)) = Ok (_, (_, ?m2)) => enough (Hmm : m1 = m2) by (rewrite Hmm; reflexivity) end. apply set_make; [done|lk|lk|lk|lk|intros b Hb; cbn [heap next]; rewrite ?lookup_insert_ne by lia; reflexivity].
      * done. * done. * lia. * lia. * done.
  - exists (sc_deferred s), e, (sc_dcount s). do 3 eexists. split_and!.
    + unfold env_remove, body_remove. cs. rewrite E1. rewrite ptr_in_ok by (rewrite flat_length; lia). cs.
      rewrite (ld_flat1 (sc_deferred s) (Z.of_nat k)) by lia. rewrite E. cbn [bind snd]. cs.
      rewrite ?E1. cs.
      replace (with_deferred s (sc_deferred s) (sc_dcount s)) with s by (by destruct s). rewrite (set_same cf) by done. done.
    + done. + done. + lia. + lia. + done.
Qed.
Lemma remove_loop_src d m t : 0 <= t -> forall k n m' s e v1 v2 v3, sched_at cf m' s -> m' = set_sched m s -> (k < n)%nat -> pos_tasks (sc_deferred s) -> Z.of_nat k <= sc_dcount s ->
  exists d' n' e' v1' v2' v3', remove_loop cf k t (sc_deferred s) (sc_dcount s) e = Ok (d', n', e') /\
    loop n (test d test_i) (exec d body_remove) (exec d SSkip) (env_remove t e (Z.of_nat k) v1 v2 v3, m') =
      Ok (Next, (env_remove t e' 0 v1' v2' v3', set_sched m (with_deferred s d' n'))) /\
    length d' = length (sc_deferred s) /\ pos_tasks d' /\ 0 <= n' <= sc_dcount s.
Proof.
  intros Hpt. induction k as [|k IH]; intros [|n] m' s e v1 v2 v3 H Em Hk Hpos Hle; try lia; rewrite loop_S.
  - exists (sc_deferred s), (sc_dcount s), e, v1, v2, v3. split; [done|]. split.
    + unfold test_i, env_remove. pose proof (size_mod_big p). cs.
      replace (with_deferred s (sc_deferred s) (sc_dcount s)) with s by (by destruct s). rewrite Em. done.
    + split; [done|]. split; [done|]. destruct H. lia.
  - destruct (remove_iter d m' s t e k v1 v2 v3 H Hpt Hpos Hle) as (d1 & e1 & n1 & w1 & w2 & w3 & Hx & Hl1 & Hp1 & Hn1 & Hr).
    rewrite Hr. clear Hr. set (s1 := with_deferred s d1 n1) in *.
    assert (Hok : sched_ok s1). { destruct H. split; cbn; try done; try lia. }
    destruct (IH n (set_sched m s1) s1 e1 w1 w2 w3) as (d' & n' & e' & u1 & u2 & u3 & Hr & Hlp & Hl' & Hp' & Hn').
    { by apply set_at. } { done. } { lia. } { done. } { cbn. lia. }
    exists d', n', e', u1, u2, u3. split; [exact Hr|]. split.
    + change (with_deferred s1 d' n') with (with_deferred s d' n') in Hlp. rewrite <- Hlp.
      assert (Ht1 : test d test_i (env_remove t e (Z.of_nat (S k)) v1 v2 v3, m') = Ok (true, (env_remove t e (Z.of_nat (S k)) v1 v2 v3, m'))).
      { unfold test_i, env_remove. pose proof (size_mod_big p). assert (0 <= Z.of_nat (S k) < size_mod p) by (destruct H; lia).
        assert (E0 : (0 <? Z.of_nat (S k)) = true) by (apply Z.ltb_lt; lia). cs. rewrite ?E0. reflexivity. }
      rewrite Ht1. cbn [bind]. rewrite Hx. cbn [bind]. rewrite exec_SSkip. cbn [bind]. rewrite Em, set_set. done.
    + cbn [sc_deferred sc_dcount s1 with_deferred] in *. split; [congruence|]. split; [done|lia].
Qed.
Lemma src_remove d m s t : sched_at cf m s -> 0 <= t -> pos_tasks (sc_deferred s) -> (Z.to_nat (MAX_DEFERRED cf) < fuel)%nat ->
  call (S d) "mu_sched_remove_deferred_task" [tv t] m =
    let* '(e, s) := mu_sched_remove_deferred_task cf t s in Ok (VI (sched_code e), enum, set_sched m s).
Proof.
  intros H Hpt Hpos Hf. start H. cs. rewrite exec_SLoop.
  destruct (remove_loop_src d m t Hpt (Z.to_nat (sc_dcount s)) fuel m s SCHED_NOT_FOUND VU VU VU) as (d' & n' & e' & v1 & v2 & v3 & Hr & Hl & _).
  { done. } { by rewrite (set_same cf). } { lia. } { done. } { lia. }
  unfold mu_sched_remove_deferred_task. rewrite Hr. cbn [bind].
  rewrite Z2Nat.id in Hl by lia. unfold test_i, body_remove, env_remove in Hl. cbn [sched_code] in Hl. rewrite Hl. destruct e'; cbn [sched_code]; cs; done.
Qed.
(** ** the others *)
Ltac call_hook ::= first [erewrite src_next_deferred by eassumption].
Lemma src_next_task d m s : sched_at cf m s ->
  call (S (S d)) "mu_sched_next_task" [] m = let* t := mu_sched_next_task cf s in Ok (tv t, taskp, m).
Proof.
  intros H. start H. cs. unfold mu_sched_next_task, next_deferred_task. destruct (Z.ltb_spec 0 (sc_dcount s)); cs; [|done].
  rewrite to_size_id by lia. destruct (ld_ex (sc_deferred s) (sc_dcount s - 1)) as ([ea et] & _ & E); [lia|]. rewrite !E. cbn [bind fst snd].
  rewrite (ld_flat1 (sc_deferred s) (sc_dcount s - 1)) by lia. rewrite E. cbn [bind fst snd]. cs. done.
Qed.
Ltac call_hook ::= fail.
Lemma src_get_idle d m s : sched_at cf m s -> call (S d) "mu_sched_get_idle_task" [] m = Ok (tv (sc_idle s), taskp, m).
Proof. intros H. start H. cs. done. Qed.
Lemma src_current d m s : sched_at cf m s -> call (S d) "mu_sched_current_task" [] m = Ok (tv (sc_curr s), taskp, m).
Proof. intros H. start H. cs. done. Qed.
Lemma src_set_idle d m s t : sched_at cf m s -> call (S d) "mu_sched_set_idle_task" [tv t] m = Ok (VI 0, Tvoid, set_sched m (with_idle s t)).
Proof. intros H. start H. cs. done_. Qed.
Lemma src_wait d m t : call (S d) "mu_sched_wait" [tv t] m = Ok (VI 0, enum, m).
Proof. erewrite call_S by reflexivity. cs. done. Qed.
Lemma src_immed d m s t : sched_at cf m s ->
  call (S (S (S d))) "mu_sched_immed" [tv t] m = let* '(e, s) := mu_sched_immed cf t s in Ok (VI (sched_code e), enum, set_sched m s).
Proof.
  intros H. start H. cs. rewrite src_queue_put with (s := s) by done. unfold mu_sched_immed.
  destruct (mu_queue_put p (sc_immed s) t) as [[b q]| |]; cbn [bind]; cs; [|done|done]. destruct b; cs; done.
Qed.
Lemma src_from_isr d m s t : sched_at cf m s ->
  call (S (S d)) "mu_sched_from_isr" [tv t] m = let* '(e, s) := mu_sched_from_isr t s in Ok (VI (sched_code e), enum, set_sched m s).
Proof.
  intros H. start H. cs. rewrite src_spsc_put with (s := s) by done. unfold mu_sched_from_isr.
  destruct (mu_spsc_put (sc_irq s) t) as [[b q]| |]; cbn [bind]; cs; [|done|done]. destruct b; cbn [spsc_code]; cs; done.
Qed.
Lemma src_defer_until d m s t at_ : sched_at cf m s -> 0 <= at_ < 18446744073709551616 -> (Z.to_nat (MAX_DEFERRED cf) < fuel)%nat ->
  call (S (S (S d))) "mu_sched_defer_until" [tv t; VI at_] m =
    let* '(e, s) := mu_sched_defer_until cf t at_ s in Ok (VI (sched_code e), enum, set_sched m s).
Proof.
  intros H Ha Hf. start H. cs. rewrite (src_defer_aux cf fuel ext ext_ptr Hprec Hint Hsize) with (s := s) by done. unfold mu_sched_defer_until.
  destruct (defer_aux cf t at_ s) as [[e s']| |]; cbn [bind]; [|cs; done|cs; done].
  destruct e; cbn [sched_code]; cs; done.
Qed.
Ltac call_hook ::= first [erewrite (src_now cf fuel ext ext_ptr cb Hnow) by eassumption | rewrite (src_off cf fuel ext ext_ptr Hoff)].
Lemma src_defer_for d m s t now dt : sched_at cf m s -> heap m !! cb = Some [VI now] -> -9223372036854775808 <= dt <= 9223372036854775807 ->
  0 <= offset cf now dt < 18446744073709551616 -> (Z.to_nat (MAX_DEFERRED cf) < fuel)%nat ->
  call (S (S (S d))) "mu_sched_defer_for" [tv t; VI dt] m =
    let* '(e, s) := mu_sched_defer_for cf t now dt s in Ok (VI (sched_code e), enum, set_sched m s).
Proof.
  intros H Hcb Hdt Ha Hf. start H.
  assert (Hw : wrap_signed 18446744073709551616 dt = dt) by (apply wrap_signed_id; [reflexivity|reflexivity|change (18446744073709551616 / 2) with 9223372036854775808; lia]).
  cs. rewrite Hw. cs. rewrite !(Z.mod_small (offset cf now dt)) by lia. rewrite (src_defer_aux cf fuel ext ext_ptr Hprec Hint Hsize) with (s := s) by done. unfold mu_sched_defer_for.
  destruct (defer_aux cf t _ s) as [[e s']| |]; cbn [bind]; [|cs; done|cs; done].
  destruct e; cbn [sched_code]; cs; done.
Qed.
Ltac call_hook ::= fail.
Lemma src_reset d m s : sched_at cf m s ->
  call (S (S d)) "mu_sched_reset" [] m = Ok (VI 0, Tvoid, set_sched m (mu_sched_reset s)).
Proof.
  intros H. start H. cs. rewrite src_spsc_reset with (s := s) by done. unfold mu_sched_reset, mu_spsc_reset. cs.
  pose proof (size_mod_big p).
  set (s1 := with_irq s _). assert (Hok1 : sched_ok s1). { destruct H'. split; cbn; try done; lia. }
  rewrite src_queue_reset with (s := s1) by (by apply set_at). rewrite set_set. cs.
  set (s2 := with_immed s1 _). assert (Hok2 : sched_ok s2). { destruct Hok1. split; cbn; try done; lia. }
  pose proof (set_at m s2 Hok2) as [_ _ _ Hx _ _ _ _ _ _ _ _ _]. unfold scells in Hx. cs.
  do 2 f_equal. apply set_make; [done|..|intros b Hb; cbn [heap next]; rewrite lookup_insert_ne by lia; by apply set_other];
    cbn [heap set_sched]; rewrite ?lookup_insert_ne by done; rewrite ?lookup_insert; reflexivity.
Qed.
End sched.
