(** * mu_sched: the translated source does what the model says, function by function *)
From Verif Require Import CSym SrcSched FifoSpec QueueModel SpscModel TaskModel SchedModel.
Open Scope string_scope. Open Scope Z_scope.
Notation length := List.length.

Lemma loop_S n c b st s : loop (S n) c b st s =
  let* '(t, s) := c s in
  if t then let* '(o, s) := b s in
    match o with
    | Next | Continued => let* '(_, s) := st s in loop n c b st s
    | Broke => Ok (Next, s)
    | Returned v t => Ok (Returned v t, s)
    end
  else Ok (Next, s).
Proof. done. Qed.

(** mu_spsc.h, mu_sched.h: the numbers of the enumerators *)
Definition spsc_code (e : spsc_err) : Z := match e with SPSC_NONE => 0 | SPSC_EMPTY => 1 | SPSC_FULL => 2 | SPSC_SIZE => 3 end.
Definition sched_code (e : sched_err) : Z := match e with SCHED_NONE => 0 | SCHED_FULL => 1 | SCHED_NOT_FOUND => 2 end.
(** a task pointer: [0] is NULL, [t] otherwise the object of that number *)
Definition tv (t : Z) : val := if t =? 0 then VI 0 else VP (Z.to_nat t) 0.
Lemma tv_defined t : defined (tv t) = Ok (tv t).
Proof. unfold tv. destruct (t =? 0); done. Qed.
(** the table of deferred tasks, cell by cell *)
Fixpoint flat (d : list (Z * Z)) : list val := match d with [] => [] | e :: d => VI (fst e) :: tv (snd e) :: flat d end.
Lemma flat_length d : length (flat d) = (2 * length d)%nat.
Proof. induction d as [|e d IH]; [done|]. cbn [flat length]. rewrite IH. lia. Qed.
Lemma flat_app a b : flat (a ++ b) = (flat a ++ flat b)%list.
Proof. induction a as [|e a IH]; [done|]. cbn. by rewrite IH. Qed.
Lemma flat_take n d : take (2 * n) (flat d) = flat (take n d).
Proof. revert d. induction n as [|n IH]; intros [|e d]; try done. replace (2 * S n)%nat with (S (S (2 * n))) by lia. cbn [flat take firstn]. by rewrite IH. Qed.
Lemma flat_drop n d : drop (2 * n) (flat d) = flat (drop n d).
Proof. revert d. induction n as [|n IH]; intros [|e d]; try done. replace (2 * S n)%nat with (S (S (2 * n))) by lia. cbn [flat drop skipn]. by rewrite IH. Qed.
Lemma flat_lookup0 d i : flat d !! (2 * i)%nat = (fun e => VI (fst e)) <$> d !! i.
Proof. revert d. induction i as [|i IH]; intros [|e d]; try done. replace (2 * S i)%nat with (S (S (2 * i))) by lia. cbn. apply IH. Qed.
Lemma flat_lookup1 d i : flat d !! S (2 * i) = (fun e => tv (snd e)) <$> d !! i.
Proof. revert d. induction i as [|i IH]; intros [|e d]; try done. replace (2 * S i)%nat with (S (S (2 * i))) by lia. cbn. apply IH. Qed.
Lemma ld_flat0 d i o : o = 2 * i -> ld (flat d) o = let* e := ld d i in Ok (VI (fst e)).
Proof.
  intros ->. unfold ld. destruct (Z.ltb_spec i 0), (Z.ltb_spec (2 * i) 0); try lia; [done|].
  replace (Z.to_nat (2 * i)) with (2 * Z.to_nat i)%nat by lia. rewrite flat_lookup0. destruct (d !! Z.to_nat i); done.
Qed.
Lemma ld_flat1 d i o : 0 <= i -> o = 2 * i + 1 -> ld (flat d) o = let* e := ld d i in Ok (tv (snd e)).
Proof.
  intros Hi ->. unfold ld. destruct (Z.ltb_spec i 0), (Z.ltb_spec (2 * i + 1) 0); try lia.
  replace (Z.to_nat (2 * i + 1)) with (S (2 * Z.to_nat i))%nat by lia. rewrite flat_lookup1. destruct (d !! Z.to_nat i); done.
Qed.

Section sched.
Context (cf : config) (fuel : nat) (ext : string -> list val -> mem -> res (val * ty * mem))
  (ext_ptr : val -> list val -> mem -> res (val * ty * mem)).
Notation p := (plat_ cf).
Notation P := (sched_prog (MAX_DEFERRED cf) (MAX_IRQ cf) (MAX_IMMED cf)).
Notation call d := (call p P fuel ext ext_ptr d).
Notation enum := (Tint false W32).
Notation taskp := (Tptr (Tstruct "mu_task_t")).

(** the objects of mu_sched.c:81-84 *)
Definition scells (s : sched) : list val :=
  [VI (s_mask (sc_irq s)); VI (s_head (sc_irq s)); VI (s_tail (sc_irq s)); VP 0 0;
   VP 1 0; VI (q_cap (sc_immed s)); VI (q_cnt (sc_immed s)); VI (q_index (sc_immed s));
   VI (sc_dcount s); tv (sc_curr s); tv (sc_idle s)].
Record sched_at (m : mem) (s : sched) : Prop := {
  sa_irq : heap m !! 0%nat = Some (tv <$> s_store (sc_irq s));
  sa_immed : heap m !! 1%nat = Some (tv <$> q_store (sc_immed s));
  sa_def : heap m !! 2%nat = Some (flat (sc_deferred s));
  sa_obj : heap m !! 3%nat = Some (scells s);
  sa_mask : 0 <= s_mask (sc_irq s) < 65536; sa_head : 0 <= s_head (sc_irq s) < 65536; sa_tail : 0 <= s_tail (sc_irq s) < 65536;
  sa_cap : 0 <= q_cap (sc_immed s) < size_mod p; sa_cnt : 0 <= q_cnt (sc_immed s) < size_mod p; sa_idx : 0 <= q_index (sc_immed s) < size_mod p;
  sa_dcnt : 0 <= sc_dcount s < size_mod p;
  sa_dlen : Z.of_nat (length (sc_deferred s)) = MAX_DEFERRED cf; sa_dmax : sc_dcount s <= MAX_DEFERRED cf }.
Definition set_sched (m : mem) (s : sched) : mem :=
  MkMem (<[3%nat := scells s]> (<[2%nat := flat (sc_deferred s)]> (<[1%nat := tv <$> q_store (sc_immed s)]> (<[0%nat := tv <$> s_store (sc_irq s)]> (heap m))))) (next m).
Lemma set_same m s : sched_at m s -> set_sched m s = m.
Proof.
  intros []. unfold set_sched. destruct m as [h n]. cbn in *.
  rewrite (insert_id h 0%nat), (insert_id h 1%nat), (insert_id h 2%nat), (insert_id h 3%nat) by done. done.
Qed.
(** a memory that differs from [m] in the four objects only *)
Lemma set_make m s h n : n = next m -> h !! 0%nat = Some (tv <$> s_store (sc_irq s)) -> h !! 1%nat = Some (tv <$> q_store (sc_immed s)) ->
  h !! 2%nat = Some (flat (sc_deferred s)) -> h !! 3%nat = Some (scells s) ->
  (forall b, (3 < b)%nat -> h !! b = heap m !! b) -> MkMem h n = set_sched m s.
Proof.
  intros -> H0 H1 H2 H3 H. unfold set_sched. f_equal. apply map_eq. intros b.
  destruct b as [|[|[|[|b]]]].
  - rewrite !lookup_insert_ne by done. by rewrite lookup_insert.
  - rewrite !lookup_insert_ne by done. by rewrite lookup_insert.
  - rewrite !lookup_insert_ne by done. by rewrite lookup_insert.
  - by rewrite lookup_insert.
  - rewrite !lookup_insert_ne by done. apply H. lia.
Qed.
Ltac lk := cbn [heap next]; first [ reflexivity | assumption | rewrite lookup_insert; reflexivity
  | rewrite lookup_insert_ne by first [done | lia]; lk ].
Ltac mk := apply set_make; [done|lk|lk|lk|lk|intros b Hb; cbn [heap next]; rewrite ?lookup_insert_ne by lia; reflexivity].
Lemma land_small a b : 0 <= a -> 0 <= b < 65536 -> 0 <= Z.land a b < 65536.
Proof.
  intros Ha Hb. replace (Z.land a b) with (Z.land a b mod 65536); [apply Z.mod_pos_bound; lia|].
  change 65536 with (2 ^ 16). rewrite <- Z.land_ones, <- Z.land_assoc, Z.land_ones by lia.
  rewrite (Z.mod_small b) by lia. done.
Qed.
Ltac start H := pose proof H as H'; destruct H as [H0 H1 H2 H3 Hm Hh Ht Hc Hn Hi Hd Hdl Hdm]; unfold scells in *; erewrite call_S by reflexivity.
Ltac cs := repeat first [rewrite tv_defined | cstep | hstep].
Ltac done_ := first [reflexivity | do 2 f_equal; mk].

Lemma src_spsc_put d m s t : sched_at m s ->
  call (S d) "mu_spsc_put" [VP 3 0; tv t] m =
    let* '(e, q) := mu_spsc_put (sc_irq s) t in Ok (VI (spsc_code e), enum, set_sched m (with_irq s q)).
Proof.
  intros H. start H. destruct (sc_irq s) as [store mask head tail] eqn:Eq. cbn [s_store s_mask s_head s_tail] in *.
  pose proof (land_small (tail + 1) mask ltac:(lia) ltac:(lia)).
  assert (Hu : to_u16 (Z.land (tail + 1) mask) = Z.land (tail + 1) mask) by (apply Z.mod_small; lia).
  cs. unfold mu_spsc_put. cbn [s_store s_mask s_head s_tail]. rewrite Hu. destruct (_ =? head) eqn:E; cs.
  - cbn [bind]. replace (with_irq s (MkS store mask head tail)) with s by (rewrite <- Eq; by destruct s). rewrite set_same by done. done.
  - destruct (st store tail t) as [s'| |] eqn:E1; [| |by apply st_noNF in E1].
    + pose proof (st_bounds _ _ _ _ E1). cs. done_.
    + pose proof (st_UB _ _ _ E1). destruct (decide (tail = Z.of_nat (length store))).
      * cs. done.
      * rewrite ptr_in_ub by (rewrite fmap_length in *; lia). cs. done.
Qed.
Lemma src_spsc_get d m s : sched_at m s ->
  call (S d) "mu_spsc_get" [VP 3 0; VP 3 9] m =
    let* '(e, x, q) := mu_spsc_get (sc_irq s) in Ok (VI (spsc_code e), enum, set_sched m (with_curr (with_irq s q) x)).
Proof.
  intros H. start H. destruct (sc_irq s) as [store mask head tail] eqn:Eq. cbn [s_store s_mask s_head s_tail] in *.
  pose proof (land_small (head + 1) mask ltac:(lia) ltac:(lia)).
  assert (Hu : to_u16 (Z.land (head + 1) mask) = Z.land (head + 1) mask) by (apply Z.mod_small; lia).
  cs. unfold mu_spsc_get. cbn [s_store s_mask s_head s_tail]. rewrite Hu. destruct (head =? tail) eqn:E; cs.
  - cbn [bind]. done_.
  - destruct (ld store head) as [x| |] eqn:E1; [| |by apply ld_noNF in E1].
    + pose proof (ld_bounds _ _ _ E1). cs. cbn [bind]. done_.
    + pose proof (ld_UB _ _ E1). destruct (decide (head = Z.of_nat (length store))).
      * cs. done.
      * rewrite ptr_in_ub by (rewrite fmap_length in *; lia). cs. done.
Qed.
Lemma src_spsc_reset d m s : sched_at m s ->
  call (S d) "mu_spsc_reset" [VP 3 0] m = let '(e, q) := mu_spsc_reset (sc_irq s) in Ok (VI (spsc_code e), enum, set_sched m (with_irq s q)).
Proof. intros H. start H. cs. cbn [mu_spsc_reset]. done_. Qed.
Lemma src_queue_reset d m s : sched_at m s ->
  call (S d) "mu_queue_reset" [VP 3 4] m = Ok (VP 3 4, Tptr (Tstruct "mu_queue_t"), set_sched m (with_immed s (mu_queue_reset (sc_immed s)))).
Proof. intros H. start H. cs. done_. Qed.
Lemma src_queue_full d m s : sched_at m s ->
  call (S d) "mu_queue_is_full" [VP 3 4] m = Ok (truth (mu_queue_is_full (sc_immed s)), Tbool, m).
Proof. intros H. start H. cs. done. Qed.
Lemma src_queue_empty d m s : sched_at m s ->
  call (S d) "mu_queue_is_empty" [VP 3 4] m = Ok (truth (mu_queue_is_empty (sc_immed s)), Tbool, m).
Proof. intros H. start H. cs. done. Qed.
Ltac call_hook ::= first [erewrite src_queue_full by eassumption | erewrite src_queue_empty by eassumption].
Lemma src_queue_put d m s t : sched_at m s ->
  call (S (S d)) "mu_queue_put" [VP 3 4; tv t] m =
    let* '(b, q) := mu_queue_put p (sc_immed s) t in Ok (truth b, Tbool, set_sched m (with_immed s q)).
Proof.
  intros H. start H. cs. destruct (sc_immed s) as [store cap cnt idx] eqn:Eq. cbn [q_store q_cap q_cnt q_index] in *.
  unfold mu_queue_put. cbn [q_store q_cap q_cnt q_index]. destruct (negb _) eqn:Hf; cs.
  - destruct (st store idx t) as [s'| |] eqn:E; [| |by apply st_noNF in E].
    + pose proof (st_bounds _ _ _ _ E). cs. unfold umod. destruct (cap =? 0) eqn:E0; cs; [done|].
      apply Z.eqb_neq in E0. pose proof (Z.mod_pos_bound (to_size p (idx + 1)) cap ltac:(lia)).
      rewrite ?(to_size_id p (_ mod _)) by lia. cs. cbn [bind]. done_.
    + pose proof (st_UB _ _ _ E). destruct (decide (idx = Z.of_nat (length store))).
      * cs. done.
      * rewrite ptr_in_ub by (rewrite fmap_length in *; lia). cs. done.
  - cbn [bind]. replace (with_immed s (MkQ store cap cnt idx)) with s by (rewrite <- Eq; by destruct s). rewrite set_same by done. done.
Qed.
Lemma src_access d m s : sched_at m s ->
  call (S (S d)) "access_queue" [VP 3 4; VP 3 9; truth true] m =
    let* '(b, e, q) := access_queue p (sc_immed s) true in Ok (truth b, Tbool, set_sched m (with_curr (with_immed s q) e)).
Proof.
  intros H. start H. cs. destruct (sc_immed s) as [store cap cnt idx] eqn:Eq. cbn [q_store q_cap q_cnt q_index] in *.
  unfold access_queue. cbn [q_store q_cap q_cnt q_index]. destruct (negb _) eqn:Hf; cs.
  - destruct (cap <=? _) eqn:E; cs;
    lazymatch goal with |- context [ptr_in _ _ ?i] =>
      destruct (ld store i) as [e| |] eqn:E1;
      [ pose proof (ld_bounds _ _ _ E1); cs; cbn [bind]; done_
      | pose proof (ld_UB _ _ E1); destruct (decide (i = Z.of_nat (length store)));
        [ cs; reflexivity | rewrite ptr_in_ub by (rewrite fmap_length in *; lia); cs; reflexivity ]
      | exfalso; eapply ld_noNF; eassumption ]
    end.
  - cbn [bind]. done_.
Qed.
Lemma src_queue_get d m s : sched_at m s ->
  call (S (S (S d))) "mu_queue_get" [VP 3 4; VP 3 9] m =
    let* '(b, e, q) := mu_queue_get p (sc_immed s) in Ok (truth b, Tbool, set_sched m (with_curr (with_immed s q) e)).
Proof.
  intros H. pose proof (src_access d m s H). erewrite call_S by reflexivity. cs. change (VI 1) with (truth true). rewrite src_access with (s := s) by done.
  unfold mu_queue_get. destruct (access_queue p _ true) as [[[b e] q']| |]; cs; done.
Qed.
Ltac call_hook ::= fail.
Lemma src_next_deferred d m s : sched_at m s ->
  call (S d) "next_deferred_task" [] m =
    Ok (match next_deferred_task cf s with Some i => VP 2 (2 * i) | None => VI 0 end, Tptr (Tstruct "deferred_task_t"), m).
Proof.
  intros H. start H. cs. unfold next_deferred_task. destruct (Z.ltb_spec 0 (sc_dcount s)); cs; [|done].
  rewrite to_size_id by lia. rewrite ptr_in_ok by (rewrite flat_length; lia). cs. rewrite Z.mul_comm. done.
Qed.

End sched.
