(** * mu_sched: the translated source: initialisation *)
From Verif Require Import CSym SrcSched FifoSpec QueueModel SpscModel SpscProofs TaskModel SchedModel SchedSrc SchedSrc2 SchedSrc3 SchedSrc4.
Open Scope string_scope. Open Scope Z_scope.
Notation length := List.length.

Section sched.
Context (cf : config) (fuel : nat) (ext : string -> list val -> mem -> res (val * ty * mem))
  (ext_ptr : val -> list val -> mem -> res (val * ty * mem)).
Notation p := (plat_ cf).
Notation P := (sched_prog (MAX_DEFERRED cf) (MAX_IRQ cf) (MAX_IMMED cf)).
Notation call d := (call p P fuel ext ext_ptr d).
Ltac fold_max := first [progress change (match cf with MkConfig _ x _ _ _ _ => x end) with (MAX_DEFERRED cf)
 | progress change (match cf with MkConfig _ _ x _ _ _ => x end) with (MAX_IRQ cf)
 | progress change (match cf with MkConfig _ _ _ x _ _ => x end) with (MAX_IMMED cf)].
Ltac st_closed := match goal with |- context [st (?x :: ?l) ?i ?v] =>
  let n := eval cbv in (Z.to_nat i) in
  let l' := eval cbn in (<[n := v]> (x :: l)) in
  replace (st (x :: l) i v) with (Ok l') by (rewrite st_ok by (cbn [List.length]; lia); reflexivity) end.
Ltac cs := repeat first [fold_max | st_closed | rewrite tv_defined | rewrite tv_null | cstep | hstep].

(** the static objects of mu_sched.c:81-84 at power-up *)
Record power_up (m : mem) : Prop := {
  pu_irq : heap m !! 0%nat = Some (replicate (Z.to_nat (MAX_IRQ cf)) (VI 0));
  pu_immed : heap m !! 1%nat = Some (replicate (Z.to_nat (MAX_IMMED cf)) (VI 0));
  pu_def : heap m !! 2%nat = Some (replicate (2 * Z.to_nat (MAX_DEFERRED cf)) (VI 0));
  pu_obj : exists c, heap m !! 3%nat = Some c /\ length c = 11%nat }.
Lemma flat_zero n : flat (replicate n (0, 0)) = replicate (2 * n) (VI 0).
Proof. induction n as [|n IH]; [done|]. replace (2 * S n)%nat with (S (S (2 * n))) by lia. cbn. rewrite IH. done. Qed.
Lemma tv_zero n : tv <$> replicate n 0 = replicate n (VI 0).
Proof. rewrite fmap_replicate. done. Qed.
(** mu_sched.c:89-96 *)
Lemma src_init d m k : power_up m -> 1 <= k -> MAX_IRQ cf = 2 ^ k -> MAX_IRQ cf <= 65535 ->
  0 <= MAX_IMMED cf < size_mod p -> 0 <= MAX_DEFERRED cf < size_mod p ->
  call (S (S (S d))) "mu_sched_init" [] m = Ok (VI 0, Tvoid, set_sched m (mu_sched_init cf (sched_static cf))) /\
  sched_ok cf (mu_sched_init cf (sched_static cf)).
Proof.
  intros [H0 H1 H2 (c & H3 & Hl)] Hk Ek Hmax Him Hde. pose proof (size_mod_big p).
  destruct c as [|c0 [|c1 [|c2 [|c3 [|c4 [|c5 [|c6 [|c7 [|c8 [|c9 [|c10 [|]]]]]]]]]]]]; try discriminate Hl.
  assert (Hp : Z.land (MAX_IRQ cf) (MAX_IRQ cf - 1) = 0) by (rewrite Ek; apply pow2_land; lia).
  assert (H2M : 2 <= MAX_IRQ cf). { rewrite Ek. change 2 with (2 ^ 1) at 1. apply Z.pow_le_mono_r; lia. }
  assert (Hu : to_u16 (MAX_IRQ cf) = MAX_IRQ cf) by (apply Z.mod_small; lia).
  assert (Hu1 : to_u16 (MAX_IRQ cf - 1) = MAX_IRQ cf - 1) by (apply Z.mod_small; lia).
  assert (Em : mu_sched_init cf (sched_static cf) = MkSched (MkS (replicate (Z.to_nat (MAX_IRQ cf)) 0) (MAX_IRQ cf - 1) 0 0)
    (MkQ (replicate (Z.to_nat (MAX_IMMED cf)) 0) (MAX_IMMED cf) 0 0) (replicate (Z.to_nat (MAX_DEFERRED cf)) (0, 0)) 0 0 0).
  { unfold mu_sched_init. rewrite Hu. unfold mu_spsc_init, IS_POWER_OF_TWO. rewrite Hp, Hu1.
    destruct (Z.ltb_spec (MAX_IRQ cf) 2); [lia|]. done. }
  split.
  2: { rewrite Em. split; cbn; try lia. rewrite replicate_length. lia. }
  rewrite Em.
  assert (Ei : (MAX_IRQ cf <? 2) = false) by (apply Z.ltb_ge; lia).
  assert (E0 : (Z.land (MAX_IRQ cf) (MAX_IRQ cf - 1) =? 0) = true) by (by rewrite Hp).
  assert (int_min <= MAX_IRQ cf - 1 <= int_max) by (unfold int_min, int_max; lia).
  assert (int_min <= MAX_IRQ cf <= int_max) by (unfold int_min, int_max; lia).
  assert (0 <= MAX_IRQ cf < 65536) by lia. assert (0 <= MAX_IRQ cf - 1 < 65536) by lia.
  erewrite call_S by reflexivity. cs.
  erewrite call_S by reflexivity. cs.
erewrite call_S by reflexivity. cs.
  erewrite call_S by reflexivity. cs.
  erewrite call_S by reflexivity. cs.
  do 2 f_equal. apply set_make; cbn [heap next s_store q_store sc_irq sc_immed sc_deferred]; [done|..|intros b Hb; rewrite ?lookup_insert_ne by lia; done];
    rewrite ?lookup_insert_ne by done; rewrite ?lookup_insert; rewrite ?tv_zero, ?flat_zero; done.
Qed.
End sched.
