(** * mu_queue.c: the text of mu_queue_put, interrupted between any two of its accesses to memory *)
From Verif Require Import CTreeSym SrcQueue.
From Verif Require Import FifoSpec Ring QueueModel QueueProofs QueueIsr QueueSrc QueueSrcProps.
Open Scope string_scope. Open Scope Z_scope.

Section acts.
Context (p : plat) (fuel : nat) (shape : mem) (qb sb : nat) (cap n : Z) (cells : list val).
Context (Hsb : heap shape !! sb = Some cells) (Hlen : Z.of_nat (length cells) = cap) (Hcap : 0 < cap) (Hmod : 4 * cap < size_mod p)
  (Hn : 0 <= n < cap).
Definition zv (v : val) : Z := match v with VI z => z | _ => 0 end.
Definition idxv (v : val) : Prop := exists z, v = VI z /\ 0 <= z < cap.
Definition cntv (v : val) : Prop := exists z, v = VI z /\ 0 <= z <= cap.
(** mu_queue.c:80-84, from the last access to the first *)
Definition p9 (c : Z) : acts := AWrite qb 2 (VI (c + 1)) (ARet (VI 1)).
Definition p8 : acts := ARead qb 2 cntv (fun c => p9 (zv c)).
Definition p7 (i : Z) : acts := AWrite qb 3 (VI (nx cap i)) p8.
Definition p6 (i : Z) : acts := ARead qb 1 (eq (VI cap)) (fun _ => p7 i).
Definition p5 : acts := ARead qb 3 idxv (fun i => p6 (zv i)).
Definition p4 (x i : Z) : acts := AWrite sb i (VI x) p5.
Definition p3 (x : Z) : acts := ARead qb 3 idxv (fun i => p4 x (zv i)).
Definition p2 (x : Z) : acts := ARead qb 0 (eq (VP sb 0)) (fun _ => p3 x).
Definition p1 (x : Z) : acts := ARead qb 1 (eq (VI cap)) (fun _ => p2 x).
Definition p0 (x : Z) : acts := ARead qb 2 (eq (VI n)) (fun _ => p1 x).
Lemma put_does d x : does (tcall p queue_prog shape fuel (S (S d)) "mu_queue_put" [VP qb 0; VI x]) (p0 x).
Proof.
  unfold p0, p1, p2, p3, p4, p5, p6, p7, p8, p9, nx. tsteps. access. intros <-. tsteps. access. intros <-. tsteps.
  replace (n =? cap) with false by lia. cbn [negb]. tsteps.
  access. intros <-. tsteps. access. intros (i & -> & Hi). tsteps. cbn [zv]. access. tsteps. access. intros (i2 & -> & Hi2). tsteps. cbn [zv].
  access. intros <-. tsteps. replace (cap =? 0) with false by lia. tsteps.
  rewrite !(to_size_id p (i2 + 1)) by lia. pose proof (nx_range cap i2 Hi2) as Hx. unfold nx in Hx. rewrite !(to_size_id p (_ mod _)) by lia. tsteps.
  access. tsteps. access. intros (c & -> & Hcc). tsteps. cbn [zv]. rewrite !(to_size_id p (c + 1)) by lia. tsteps. access. tsteps. access.
Qed.
End acts.

(** ** Running a call access by access *)
Fixpoint accesses {A} (j : nat) (t : tree A) (m : mem) : res (tree A * mem) :=
  match j with O => Ok (t, m) | S j => let* '(t, m) := tstep t m in accesses j t m end.
(** mu_queue_put(queue, a) makes [j] accesses; an interrupt handler calls mu_queue_put(queue, b)
    and returns; then the first call goes on.  Results of both calls, and the memory. *)
Definition text_put_in_put (p : plat) (fuel : nat) ext ext_ptr (qb : nat) (a b : Z) (j : nat) (m : mem) : res (val * val * mem) :=
  let* '(t, m) := accesses j (tcall p queue_prog m fuel 3 "mu_queue_put" [VP qb 0; VI a]) m in
  let* '(vi, m) := qcall p fuel ext ext_ptr "mu_queue_put" [VP qb 0; VI b] m in
  let* '(vo, _, m) := run_alone t m in Ok (vo, vi, m).

Inductive goes : nat -> acts -> mem -> acts -> mem -> Prop :=
| g_stop a m : goes 0 a m a m
| g_read j b o (R : val -> Prop) k m v a' m' : load_mem m b o = Ok v -> R v -> goes j (k v) m a' m' -> goes (S j) (ARead b o R k) m a' m'
| g_write j b o v k m m1 a' m' : store_mem m b o v = Ok m1 -> goes j k m1 a' m' -> goes (S j) (AWrite b o v k) m a' m'.
Lemma goes_sound j a m a' m' : goes j a m a' m' -> forall t, does t a -> exists t', accesses j t m = Ok (t', m') /\ does t' a'.
Proof.
  induction 1 as [a m|j b o R k m v a' m' Hl HR _ IH|j b o v k m m1 a' m' Hs _ IH]; intros t Ht.
  - by exists t.
  - destruct Ht as (k' & -> & Hk). cbn [accesses tstep]. rewrite Hl. cbn [bind]. apply IH. by apply Hk.
  - destruct Ht as (k' & -> & Hk). cbn [accesses tstep]. rewrite Hs. cbn [bind]. by apply IH.
Qed.
Lemma goes_end j a m v m' : goes j a m (ARet v) m' -> forall t, does t a -> exists ty, run_alone t m = Ok (v, ty, m').
Proof.
  intros H. remember (ARet v) as e eqn:He. revert He.
  induction H as [a m|j b o R k m v1 a' m' Hl HR _ IH|j b o v1 k m m1 a' m' Hs _ IH]; intros -> t Ht.
  - destruct Ht as (ty & ->). by exists ty.
  - destruct Ht as (k' & -> & Hk). cbn [run_alone]. rewrite Hl. cbn [bind]. apply IH; [done|]. by apply Hk.
  - destruct Ht as (k' & -> & Hk). cbn [run_alone]. rewrite Hs. cbn [bind]. by apply IH.
Qed.

Section run.
Context (p : plat) (fuel : nat) (ext : string -> list val -> mem -> res (val * ty * mem))
  (ext_ptr : val -> list val -> mem -> res (val * ty * mem)) (m : mem) (qb sb : nat) (cap : Z).
Context (Hne : qb <> sb) (Hcap : 0 < cap) (Hmod : 4 * cap < size_mod p).
Definition M (s : list Z) (n i : Z) : mem := set_queue VI m qb sb (MkQ s cap n i).
Lemma M_load s n i : load_mem (M s n i) qb 0 = Ok (VP sb 0) /\ load_mem (M s n i) qb 1 = Ok (VI cap) /\
  load_mem (M s n i) qb 2 = Ok (VI n) /\ load_mem (M s n i) qb 3 = Ok (VI i).
Proof. unfold load_mem, M, set_queue. cbn [heap]. rewrite lookup_insert. done. Qed.
Lemma M_count s n i n' : store_mem (M s n i) qb 2 (VI n') = Ok (M s n' i).
Proof. unfold store_mem, M, set_queue. cbn [heap next]. rewrite lookup_insert. cbn [ofopt bind].
  change (st _ _ _) with (Ok (qcells sb (MkQ s cap n' i))). cbn [bind]. rewrite insert_insert. reflexivity. Qed.
Lemma M_index s n i i' : store_mem (M s n i) qb 3 (VI i') = Ok (M s n i').
Proof. unfold store_mem, M, set_queue. cbn [heap next]. rewrite lookup_insert. cbn [ofopt bind].
  change (st _ _ _) with (Ok (qcells sb (MkQ s cap n i'))). cbn [bind]. rewrite insert_insert. reflexivity. Qed.
Lemma M_slot s n i k x : 0 <= k < Z.of_nat (length s) -> store_mem (M s n i) sb k (VI x) = Ok (M (<[Z.to_nat k := x]> s) n i).
Proof.
  intros Hk. unfold store_mem, M, set_queue. cbn [heap next q_store]. rewrite lookup_insert_ne by done. rewrite lookup_insert.
  cbn [ofopt bind]. rewrite st_ok by (rewrite fmap_length; lia). cbn [bind]. rewrite <- list_fmap_insert. rewrite (insert_commute _ sb qb) by done. rewrite insert_insert. reflexivity.
Qed.
Lemma M_put s n i x : Z.of_nat (length s) = cap -> 0 <= n < cap -> 0 <= i < cap ->
  qcall p fuel ext ext_ptr "mu_queue_put" [VP qb 0; VI x] (M s n i) = Ok (VI 1, M (<[Z.to_nat i := x]> s) (n + 1) (nx cap i)).
Proof.
  intros Hs Hn Hi. unfold qcall. erewrite (src_put p fuel ext ext_ptr VI VI_def 1 _ qb sb (MkQ s cap n i)).
  2:{ split; cbn; try lia; [apply lookup_insert|]. rewrite lookup_insert_ne by done. apply lookup_insert. }
  pose proof (put_room p s cap n i x Hs Hmod Hn Hi) as E. cbn [qrun1] in E.
  destruct (mu_queue_put p _ x) as [[r q]| |]; cbn [bind] in *; try discriminate E. injection E as -> ->. cbn [truth].
  unfold M, set_queue. cbn [heap next q_store]. rewrite (insert_commute _ sb qb), !insert_insert by done. reflexivity.
Qed.
End run.

(** *** where the call stands after [j] accesses *)
Section cut.
Context (p : plat) (fuel : nat) (ext : string -> list val -> mem -> res (val * ty * mem))
  (ext_ptr : val -> list val -> mem -> res (val * ty * mem)) (m : mem) (qb sb : nat) (cap : Z).
Context (Hne : qb <> sb) (Hcap : 0 < cap) (Hmod : 4 * cap < size_mod p).
Notation M := (M m qb sb cap).
(** how many accesses of the model of C97 these are *)
Definition model_accesses (j : nat) : nat :=
  match j with 0 => 0 | 1 | 2 | 3 => 1 | 4 => 2 | 5 => 3 | 6 | 7 => 4 | 8 => 5 | 9 => 6 | _ => 7 end%nat.
Ltac one := lazymatch goal with
  | |- goes (S _) (ARead _ 0 _ _) _ _ _ => eapply g_read; [apply M_load|reflexivity|]
  | |- goes (S _) (ARead _ 1 _ _) _ _ _ => eapply g_read; [apply M_load|reflexivity|]
  | |- goes (S _) (ARead _ 2 _ _) _ _ _ => eapply g_read; [apply M_load|first [reflexivity|eexists; split; [reflexivity|lia]]|]
  | |- goes (S _) (ARead _ 3 _ _) _ _ _ => eapply g_read; [apply M_load|eexists; split; [reflexivity|done]|]
  | |- goes (S _) (AWrite _ 2 _ _) _ _ _ => eapply g_write; [apply M_count|]
  | |- goes (S _) (AWrite _ 3 _ _) _ _ _ => eapply g_write; [apply M_index|]
  | |- goes (S _) (AWrite _ _ _ _) _ _ _ => eapply g_write; [apply M_slot; [done|rewrite ?insert_length; lia]|]
  | |- goes O _ _ _ _ => apply g_stop
  end; cbn [zv].
Ltac many := unfold p0, p1, p2, p3, p4, p5, p6, p7, p8, p9; repeat one.
Lemma text_is_model s n i a b j : Z.of_nat (length s) = cap -> 0 <= n -> n + 2 <= cap -> 0 <= i < cap -> (j <= 10)%nat ->
  exists s' n' i', text_put_in_put p fuel ext ext_ptr qb a b j (M s n i) = Ok (VI 1, VI 1, M s' n' i') /\
    interrupted p (CPut a) (CPut b) (model_accesses j) (MkQ s cap n i) = Ok (QBool true, QBool true, MkQ s' cap n' i').
Proof.
  intros Hs Hn Hroom Hi Hj. pose proof (nx_range cap i Hi) as Hi1. pose proof (nx_range cap _ Hi1) as Hi2.
  assert (Hsh : heap (M s n i) !! sb = Some (VI <$> s)).
  { unfold QueueIsrSrc.M, set_queue. cbn [heap q_store]. rewrite lookup_insert_ne by done. apply lookup_insert. }
  assert (Hd : forall n0, 0 <= n0 < cap -> does (tcall p queue_prog (M s n i) fuel 3 "mu_queue_put" [VP qb 0; VI a]) (p0 qb sb cap n0 a)).
  { intros n0 Hn0. eapply (put_does p fuel (M s n i) qb sb cap n0 (VI <$> s)); try done. by rewrite fmap_length. }
  pose proof (Hd n ltac:(lia)) as Hd0. pose proof (Hd (n + 1) ltac:(lia)) as Hd1. clear Hd.
  assert (Hins : forall k x, Z.of_nat (length (<[k := x]> s)) = cap) by (intros; rewrite insert_length; done).
  unfold text_put_in_put. set (t := tcall _ _ _ _ _ _ _) in *. clearbody t.
  unfold interrupted. cbn [enter as_op].
  rewrite put_at_ok by (lia || (destruct j as [|[|[|[|[|[|[|[|[|[|j] ] ] ] ] ] ] ] ] ]; cbn; lia)). cbn [bind].
  destruct (decide (j = 0%nat)) as [->|Hj0].
  { cbn [accesses bind model_accesses put_at]. erewrite M_put by (done || lia). cbn [bind].
    eassert (G : goes 10 (p0 qb sb cap (n + 1) a) (M (<[Z.to_nat i := b]> s) (n + 1) (nx cap i)) (ARet ?[v]) ?[mm]) by many.
    destruct (goes_end _ _ _ _ _ G t Hd1) as (ty & E). rewrite E. cbn [bind].
    rewrite put_room by (rewrite ?insert_length; lia). cbn [bind]. rewrite fin_put by (rewrite ?insert_length; lia). cbn [bind].
    do 3 eexists. split; reflexivity. }
  destruct j as [|[|[|[|[|[|[|[|[|[|[|j] ] ] ] ] ] ] ] ] ] ]; try lia; cbn [model_accesses put_at];
  (match goal with
   | |- context [accesses ?j t _] => eassert (G : goes j (p0 qb sb cap n a) (M s n i) _ _) by many;
       destruct (goes_sound _ _ _ _ _ G t Hd0) as (t' & E & Hd'); rewrite E; cbn [bind]; clear G E
   end);
  rewrite M_put by (done || lia); cbn [bind]; rewrite put_room by (rewrite ?insert_length; lia || done); cbn [bind];
  (match type of Hd' with
   | does _ ?a => match goal with |- context [run_alone _ ?mm] =>
       let G := fresh "G" in
       first [ eassert (G : goes 0 a mm (ARet _) _) by many | eassert (G : goes 1 a mm (ARet _) _) by many | eassert (G : goes 2 a mm (ARet _) _) by many
             | eassert (G : goes 3 a mm (ARet _) _) by many | eassert (G : goes 4 a mm (ARet _) _) by many | eassert (G : goes 5 a mm (ARet _) _) by many
             | eassert (G : goes 6 a mm (ARet _) _) by many | eassert (G : goes 7 a mm (ARet _) _) by many | eassert (G : goes 8 a mm (ARet _) _) by many
             | eassert (G : goes 9 a mm (ARet _) _) by many ];
       let ty := fresh in let E := fresh "E" in destruct (goes_end _ _ _ _ _ G _ Hd') as (ty & E); rewrite E; cbn [bind]; clear G E
       end end);
  (match goal with
   | |- context [qi_finish _ (MkQ ?s ?c ?n ?i) ?pc] =>
       pose proof (fin_put_from p s c n i pc ltac:(rewrite ?insert_length; lia || done) Hmod ltac:(lia) ltac:(lia)) as Hf; cbn beta iota in Hf;
       first [rewrite Hf by lia; cbn [bind] | cbn [bind]]
   end); try (do 3 eexists; split; reflexivity).
Qed.
End cut.

Lemma ops_item p fuel ext ext_ptr ops : forall m qb sb eb q v0 os q', queue_at p VI m qb sb q -> eb <> qb -> eb <> sb -> heap m !! eb = Some [v0] ->
  qrun p q ops = Ok (os, q') ->
  exists m' v1, src_ops p fuel ext ext_ptr qb eb ops m = Ok (os, m') /\ queue_at p VI m' qb sb q' /\ heap m' !! eb = Some [v1].
Proof.
  induction ops as [|op ops IH]; intros m qb sb eb q v0 os q' Hq He1 He2 Hv E; cbn in E.
  - injection E as <- <-. by exists m, v0.
  - destruct (qrun1 p q op) as [[o q1]| |] eqn:E1; cbn in E; try discriminate E.
    destruct (qrun p q1 ops) as [[os1 q2]| |] eqn:E2; cbn in E; try discriminate E. injection E as <- <-.
    destruct (op_ok p fuel ext ext_ptr _ _ _ _ _ _ _ _ _ Hq He1 He2 Hv E1) as (m1 & v1 & Hs & Hq1 & Hv1 & Hu1).
    destruct (IH _ _ _ _ _ _ _ _ Hq1 He1 He2 Hv1 E2) as (m2 & v2 & Hs2 & Hq2 & Hv2).
    exists m2, v2. cbn. rewrite Hs. cbn. rewrite Hs2. done.
Qed.

(** ** C119: a user's program sets up a queue on an array of any size and makes any calls; the
    queue then holds [l], with room for two more.  It calls mu_queue_put(a), and after [j] of the
    ten accesses of this call to memory an interrupt handler calls mu_queue_put(b).  Both calls
    return true.  What the queue holds then, as seen by any later calls, is [l] and the two
    items only for some [j]: otherwise one of them, or the oldest item in the queue, is lost, and
    a value nobody put ([g]) may be there instead. *)
Theorem C119_source_put_in_put : forall p fuel ext ext_ptr m qb sb eb c items v0 ops a b j,
  heap m !! qb = Some c -> length c = 4%nat -> heap m !! sb = Some (VI <$> items) -> heap m !! eb = Some [v0] ->
  qb <> sb -> eb <> qb -> eb <> sb ->
  let cap := Z.of_nat (length items) in valid_cap p cap ->
  let l := snd (fifo_run cap [] ops) in Z.of_nat (length l) + 2 <= cap -> (j <= 10)%nat ->
  exists m1 m2 m3 g,
    qcall p fuel ext ext_ptr "mu_queue_init" [VP qb 0; VP sb 0; VI cap] m = Ok (VP qb 0, m1) /\
    src_ops p fuel ext ext_ptr qb eb ops m1 = Ok (fst (fifo_run cap [] ops), m2) /\
    text_put_in_put p fuel ext ext_ptr qb a b j m2 = Ok (VI 1, VI 1, m3) /\
    forall later, exists m4, src_ops p fuel ext ext_ptr qb eb later m3 = Ok (fst (fifo_run cap
      (match j with
       | 0%nat | 1%nat | 2%nat | 3%nat => l ++ [b; a]
       | 4%nat => l ++ [a; g]
       | 5%nat => l ++ [b; g]
       | 6%nat | 7%nat => g :: l ++ [b]
       | 9%nat => tail (l ++ [a; b])
       | _ => l ++ [a; b]
       end)%list later), m4).
Proof.
  intros p fuel ext ext_ptr m qb sb eb c items v0 ops a b j H1 Hl H2 H3 Hne He1 He2 cap Hv l Hroom Hj.
  assert (Hcap : 0 <= cap < size_mod p) by (destruct Hv; unfold size_max in *; destruct p; cbn in *; lia).
  pose proof (size_mod_pos p).
  set (q0 := mu_queue_init items cap). set (m1 := set_queue VI m qb sb q0).
  assert (E : qcall p fuel ext ext_ptr "mu_queue_init" [VP qb 0; VP sb 0; VI cap] m = Ok (VP qb 0, m1)).
  { unfold qcall. erewrite src_init by (done || exact VI_def). done. }
  assert (Hr0 : qrep p q0 []) by (by apply ring_init).
  destruct (qrun_ok p ops _ _ Hr0) as (q & Eq & Hqc & Hr). change (q_cap q0) with cap in *.
  assert (Hq1 : queue_at p VI m1 qb sb q0).
  { split; cbn; try done; try lia; [apply lookup_insert|]. rewrite lookup_insert_ne by done. apply lookup_insert. }
  assert (Hv1 : heap m1 !! eb = Some [v0]) by (cbn; rewrite !lookup_insert_ne by done; exact H3).
  destruct (ops_item p fuel ext ext_ptr _ _ _ _ _ _ _ _ _ Hq1 He1 He2 Hv1 Eq) as (m2 & v2 & Es & Hq2 & Hv2).
  fold l in Hr. pose proof (set_same _ _ _ _ _ _ Hq2) as Hm2.
  destruct q as [s cap' n i]. cbn [q_cap] in Hqc. subst cap'.
  pose proof Hr as Hrb. unfold qrep in Hrb. cbn [q_store q_cap q_cnt q_index] in Hrb. pose proof (ring_bounds _ _ _ _ _ _ Hrb) as (Hb1 & Hb2 & Hb3 & Hb4 & Hb5 & Hb6).
  assert (Hn : n = Z.of_nat (length l)) by (destruct Hrb as (_ & _ & Hc & _); lia).
  destruct (text_is_model p fuel ext ext_ptr m2 qb sb cap Hne ltac:(lia) ltac:(lia) s n i a b j ltac:(lia) ltac:(lia) ltac:(lia) ltac:(lia) Hj) as (s' & n' & i' & Et & Ei).
  destruct (put_in_put p (MkQ s cap n i) l a b (model_accesses j) Hr) as (g & q' & Ei' & Hc' & Hr').
  { cbn [q_cap]. lia. }
  { destruct j as [|[|[|[|[|[|[|[|[|[|j] ] ] ] ] ] ] ] ] ]; cbn; lia. }
  rewrite Ei in Ei'. injection Ei' as <-.
  unfold M in Et. rewrite Hm2 in Et.
  exists m1, m2, (set_queue VI m2 qb sb (MkQ s' cap n' i')), g. split; [exact E|]. split; [exact Es|]. split; [exact Et|].
  intros later. destruct (qrun_ok p later _ _ Hr') as (q2 & Eq2 & _). cbn [q_cap] in Eq2.
  assert (Hq3 : queue_at p VI (set_queue VI m2 qb sb (MkQ s' cap n' i')) qb sb (MkQ s' cap n' i')).
  { unfold qrep in Hr'. cbn [q_store q_cap q_cnt q_index] in Hr'. pose proof (ring_bounds _ _ _ _ _ _ Hr') as (Hb1' & Hb2' & Hb3' & Hb4' & Hb5' & Hb6').
    split; cbn; try done; try lia; [apply lookup_insert|]. rewrite lookup_insert_ne by done. apply lookup_insert. }
  assert (Hv3 : heap (set_queue VI m2 qb sb (MkQ s' cap n' i')) !! eb = Some [v2]) by (cbn; rewrite !lookup_insert_ne by done; exact Hv2).
  destruct (ops_item p fuel ext ext_ptr _ _ _ _ _ _ _ _ _ Hq3 He1 He2 Hv3 Eq2) as (m4 & v4 & Es4 & _). exists m4. rewrite Es4. do 4 f_equal.
  destruct j as [|[|[|[|[|[|[|[|[|[|[|j] ] ] ] ] ] ] ] ] ] ]; try lia; reflexivity.
Qed.
Print Assumptions C119_source_put_in_put.
(** the hypotheses are met, and the interrupted call can be run: with 7 in the queue, 1 put and
    interrupted by a put of 2 between the read and the write of the count: 7 is lost *)
Theorem C119_example :
  let m := MkMem (<[10%nat := [VU; VU; VU; VU]]> (<[11%nat := [VI 0; VI 0; VI 0]]> (<[12%nat := [VU]]> ∅))) 20 in
  let none1 := fun _ _ _ => UB in let none2 := fun _ _ _ => UB in
  (let* '(_, m) := qcall P32 0 none1 none2 "mu_queue_init" [VP 10 0; VP 11 0; VI 3] m in
   let* '(_, m) := src_ops P32 0 none1 none2 10 12 [QPut 7] m in
   let* '(vo, vi, m) := text_put_in_put P32 0 none1 none2 10 1 2 9 m in
   let* '(os, _) := src_ops P32 0 none1 none2 10 12 [QCount; QGet; QGet; QGet] m in Ok (vo, vi, os)) =
    Ok (VI 1, VI 1, [QNum 2; QItem true 1; QItem true 2; QItem false 0]).
Proof. vm_compute. reflexivity. Qed.
