(** * mu_queue.c: the text of mu_queue_get, interrupted by a put between any two of its accesses *)
From Verif Require Import CTreeSym SrcQueue.
From Verif Require Import FifoSpec Ring QueueModel QueueProofs QueueIsr QueueSrc QueueSrcProps QueueIsrSrc.
Open Scope string_scope. Open Scope Z_scope.

Section gacts.
Context (p : plat) (fuel : nat) (shape : mem) (qb sb eb : nat) (cap n : Z) (cells : list val).
Context (Hsb : heap shape !! sb = Some cells) (Hlen : Z.of_nat (length cells) = cap) (Hcap : 0 < cap) (Hmod : 4 * cap < size_mod p)
  (Hn : 0 < n <= cap).
Definition cntp (v : val) : Prop := exists z, v = VI z /\ 0 < z <= cap.
Definition itemv (v : val) : Prop := exists z, v = VI z.
(** mu_queue.c:101-117, from the last access to the first *)
Definition g10 (c : Z) : acts := AWrite qb 2 (VI (c - 1)) (ARet (VI 1)).
Definition g9 : acts := ARead qb 2 cntp (fun c => g10 (zv c)).
Definition g8 (v : Z) : acts := AWrite eb 0 (VI v) g9.
Definition g7 (k : Z) : acts := ARead sb k itemv (fun v => g8 (zv v)).
Definition g6 (k : Z) : acts := ARead qb 0 (eq (VP sb 0)) (fun _ => g7 k).
Definition g5 (k : Z) : acts := ARead qb 1 (eq (VI cap)) (fun _ => g6 (k - cap)).
Definition g4 (k : Z) : acts := ARead qb 1 (eq (VI cap)) (fun _ => if cap <=? k then g5 k else g6 k).
Definition g3 (i : Z) : acts := ARead qb 2 cntp (fun c => g4 (cap + i - zv c)).
Definition g2 : acts := ARead qb 3 (idxv cap) (fun i => g3 (zv i)).
Definition g1 : acts := ARead qb 1 (eq (VI cap)) (fun _ => g2).
Definition g0 : acts := ARead qb 2 (eq (VI n)) (fun _ => g1).
Lemma get_does d : does (tcall p queue_prog shape fuel (S (S (S d))) "mu_queue_get" [VP qb 0; VP eb 0]) g0.
Proof.
  unfold g0, g1, g2, g3, g4, g5, g6, g7, g8, g9, g10. tsteps. access. intros <-. tsteps. replace (n =? 0) with false by lia. cbn [negb]. tsteps.
  access. intros <-. tsteps. access. intros (i & -> & Hi). tsteps. access. intros (c & -> & Hc). tsteps. cbn [zv].
  rewrite !(to_size_id p (cap + i)) by lia. rewrite !(to_size_id p (cap + i - c)) by lia. tsteps.
  access. intros <-. tsteps. destruct (cap <=? cap + i - c) eqn:E; tsteps.
  - access. intros <-. tsteps. rewrite !(to_size_id p (cap + i - c - cap)) by lia. tsteps.
    access. intros <-. tsteps. access. intros (v1 & ->). tsteps. cbn [zv]. access. tsteps. access. intros (c2 & -> & Hc2). tsteps. cbn [zv].
    rewrite !(to_size_id p (c2 - 1)) by lia. tsteps. access. tsteps. access.
  - access. intros <-. tsteps. access. intros (v1 & ->). tsteps. cbn [zv]. access. tsteps. access. intros (c2 & -> & Hc2). tsteps. cbn [zv].
    rewrite !(to_size_id p (c2 - 1)) by lia. tsteps. access. tsteps. access.
Qed.
End gacts.

(** mu_queue_get(queue, &item) makes [j] accesses; an interrupt handler calls mu_queue_put(queue, b)
    and returns; then the first call goes on. *)
Definition text_put_in_get (p : plat) (fuel : nat) ext ext_ptr (qb eb : nat) (b : Z) (j : nat) (m : mem) : res (val * val * mem) :=
  let* '(t, m) := accesses j (tcall p queue_prog m fuel 3 "mu_queue_get" [VP qb 0; VP eb 0]) m in
  let* '(vi, m) := qcall p fuel ext ext_ptr "mu_queue_put" [VP qb 0; VI b] m in
  let* '(vo, _, m) := run_alone t m in Ok (vo, vi, m).

Section gcut.
Context (p : plat) (fuel : nat) (ext : string -> list val -> mem -> res (val * ty * mem))
  (ext_ptr : val -> list val -> mem -> res (val * ty * mem)) (m : mem) (qb sb eb : nat) (cap : Z).
Context (Hne : qb <> sb) (He1 : eb <> qb) (He2 : eb <> sb) (Hcap : 0 < cap) (Hmod : 4 * cap < size_mod p).
Notation M m := (M m qb sb cap).
Lemma M_item m0 s n i v0 v : heap m0 !! eb = Some [v0] -> store_mem (M m0 s n i) eb 0 (VI v) = Ok (M (set_cell_ m0 eb (VI v)) s n i).
Proof.
  intros He. unfold store_mem, QueueIsrSrc.M, set_queue. cbn [heap next]. rewrite !lookup_insert_ne by done. rewrite He. cbn [ofopt bind].
  change (st [v0] 0 (VI v)) with (Ok [VI v]). cbn [bind]. unfold set_cell_. cbn [heap next].
  rewrite (insert_commute _ eb qb) by done. rewrite (insert_commute _ eb sb) by done. reflexivity.
Qed.
Lemma M_read m0 s n i k v : ld s k = Ok v -> load_mem (M m0 s n i) sb k = Ok (VI v).
Proof.
  intros H. unfold load_mem, QueueIsrSrc.M, set_queue. cbn [heap q_store]. rewrite lookup_insert_ne by done. rewrite lookup_insert. cbn [ofopt bind].
  unfold ld in *. destruct (k <? 0); [discriminate H|]. rewrite list_lookup_fmap. destruct (s !! Z.to_nat k); [|discriminate H]. injection H as ->. done.
Qed.
Lemma ridx n i : 0 < n <= cap -> 0 <= i < cap -> ring_idx p cap n i = if cap <=? cap + i - n then cap + i - n - cap else cap + i - n.
Proof.
  intros Hn Hi. unfold ring_idx. rewrite (to_size_id p (cap + i)) by lia. rewrite (to_size_id p (cap + i - n)) by lia.
  destruct (cap <=? cap + i - n) eqn:E; [|done]. by rewrite to_size_id by lia.
Qed.
Ltac gone := lazymatch goal with
  | |- goes (S _) (if ?c then _ else _) _ _ _ => match goal with E : c = _ |- _ => rewrite E end
  | |- goes (S _) (ARead _ 0 _ _) _ _ _ => eapply g_read; [apply M_load|reflexivity|]
  | |- goes (S _) (ARead _ 1 _ _) _ _ _ => eapply g_read; [apply M_load|reflexivity|]
  | |- goes (S _) (ARead _ 2 _ _) _ _ _ => eapply g_read; [apply M_load|first [reflexivity|eexists; split; [reflexivity|lia]]|]
  | |- goes (S _) (ARead _ 3 _ _) _ _ _ => eapply g_read; [apply M_load|eexists; split; [reflexivity|done]|]
  | |- goes (S _) (ARead _ _ _ _) _ _ _ => eapply g_read; [apply M_read; eassumption|eexists; reflexivity|]
  | |- goes (S _) (AWrite _ 2 _ _) _ _ _ => eapply g_write; [apply M_count|]
  | |- goes (S _) (AWrite _ 0 _ _) _ _ _ => eapply g_write; [eapply M_item; eassumption|]
  | |- goes O (if ?c then _ else _) _ _ _ => match goal with E : c = _ |- _ => rewrite E end
  | |- goes O _ _ _ _ => apply g_stop
  end; cbn [zv].
Ltac gmany := unfold g0, g1, g2, g3, g4, g5, g6, g7, g8, g9, g10; repeat gone.
Lemma text_get s n i x r b v0 : ringrep p s cap n i (x :: r) -> n < cap -> heap m !! eb = Some [v0] ->
  exists last g, (last = 9 \/ last = 10)%nat /\ forall j, (j <= S last)%nat -> exists e s' n' i',
    text_put_in_get p fuel ext ext_ptr qb eb b j (M m s n i) = Ok (VI 1, VI 1, M (set_cell_ m eb (VI e)) s' n' i') /\
    e = (if decide (j = 3%nat) then g else x) /\
    ringrep p s' cap n' i' (if decide (j = last) then tail (r ++ [b]) else r ++ [b]).
Proof.
  intros Hr Hroom Hv. pose proof (ring_bounds _ _ _ _ _ _ Hr) as (Hb1 & Hb2 & Hb3 & Hb4 & Hb5 & Hb6). pose proof (ring_oldest p _ _ _ _ _ _ Hr) as Ho.
  assert (Hi : 0 <= i < cap) by lia. pose proof (nx_range cap i Hi) as Hi1.
  assert (Hn : 0 < n) by (simpl length in *; lia).
  pose proof (ring_put' p _ _ _ _ _ b Hr ltac:(lia)) as Hb. pose proof (ring_oldest p _ _ _ _ _ _ Hb) as Hob.
  pose proof (ring_free p _ _ _ _ _ b Hr ltac:(lia)) as Hf. pose proof (ring_oldest p _ _ _ _ _ _ Hf) as Hof.
  cbn [app] in Hb, Hob. pose proof (ring_get p _ _ _ _ _ _ Hb) as Hg.
  assert (Hlast : ringrep p (<[Z.to_nat i := b]> s) cap (n - 1) (nx cap i) (tail (r ++ [b]))).
  { replace (n + 1 - 1) with n in Hg by lia. destruct (r ++ [b])%list as [|y r'] eqn:E; [by destruct r|]. eapply (ring_get p); exact Hg. }
  assert (Hend := ring_put' p _ _ _ _ _ b (ring_get p _ _ _ _ _ _ Hr) ltac:(lia)).
  destruct (ring_any p (<[Z.to_nat i:=b]> s) cap (Z.to_nat (n + 1)) i) as (l' & Hl' & Hr'); [by destruct Hr|by rewrite insert_length|lia|done|].
  rewrite Z2Nat.id in Hr' by lia. destruct l' as [|g l']; [simpl in Hl'; lia|]. pose proof (ring_oldest p _ _ _ _ _ _ Hr') as Hg'.
  assert (Hsh : heap (M m s n i) !! sb = Some (VI <$> s)).
  { unfold QueueIsrSrc.M, set_queue. cbn [heap q_store]. rewrite lookup_insert_ne by done. apply lookup_insert. }
  assert (Hd : forall n0, 0 < n0 <= cap -> does (tcall p queue_prog (M m s n i) fuel 3 "mu_queue_get" [VP qb 0; VP eb 0]) (g0 qb sb eb cap n0)).
  { intros n0 Hn0. eapply (get_does p fuel (M m s n i) qb sb eb cap n0 (VI <$> s)); try done. by rewrite fmap_length. }
  pose proof (Hd n ltac:(lia)) as Hd0. pose proof (Hd (n + 1) ltac:(lia)) as Hd1. clear Hd.
  rewrite ridx in Ho, Hob, Hof, Hg' by lia.
  exists (if cap <=? cap + i - n then 10%nat else 9%nat), g. split; [destruct (_ <=? _); auto|].
  intros j Hj. unfold text_put_in_get. set (t := tcall _ _ _ _ _ _ _) in *. clearbody t. cbn [app] in *.
  destruct (decide (j = 0%nat)) as [->|Hj0].
  { cbn [accesses bind]. erewrite M_put by (done || lia). cbn [bind].
    destruct (cap <=? cap + nx cap i - (n + 1)) eqn:E1; rewrite ?E1 in Hob.
    - eassert (G : goes 11 (g0 qb sb eb cap (n + 1)) (M m (<[Z.to_nat i := b]> s) (n + 1) (nx cap i)) (ARet ?[v]) ?[mm]) by gmany.
      destruct (goes_end _ _ _ _ _ G t Hd1) as (ty & E). rewrite E. cbn [bind]. exists x. do 3 eexists. split; [reflexivity|]. split; [reflexivity|].
      destruct (cap <=? cap + i - n); exact Hg.
    - eassert (G : goes 10 (g0 qb sb eb cap (n + 1)) (M m (<[Z.to_nat i := b]> s) (n + 1) (nx cap i)) (ARet ?[v]) ?[mm]) by gmany.
      destruct (goes_end _ _ _ _ _ G t Hd1) as (ty & E). rewrite E. cbn [bind]. exists x. do 3 eexists. split; [reflexivity|]. split; [reflexivity|].
      destruct (cap <=? cap + i - n); exact Hg. }
  destruct (cap <=? cap + nx cap i - (n + 1)) eqn:E1; destruct (cap <=? cap + i - (n + 1)) eqn:E2; destruct (cap <=? cap + i - n) eqn:EW; try (exfalso; lia);
    (rewrite ?E1 in Hob); (rewrite ?E2 in Hg'); (rewrite ?EW in Ho, Hof);
  destruct j as [|[|[|[|[|[|[|[|[|[|[|[|j] ] ] ] ] ] ] ] ] ] ] ]; try lia;
  (match goal with
   | |- context [accesses ?j t _] => eassert (G : goes j (g0 qb sb eb cap n) (M m s n i) _ _) by gmany;
       destruct (goes_sound _ _ _ _ _ G t Hd0) as (t' & E & Hd'); rewrite E; cbn [bind]; clear G E
   end);
  rewrite M_put by (done || lia); cbn [bind];
  (match type of Hd' with
   | does _ ?a => match goal with |- context [run_alone _ ?mm] =>
       let G := fresh "G" in
       first [ eassert (G : goes 0 a mm (ARet _) _) by gmany | eassert (G : goes 1 a mm (ARet _) _) by gmany | eassert (G : goes 2 a mm (ARet _) _) by gmany
             | eassert (G : goes 3 a mm (ARet _) _) by gmany | eassert (G : goes 4 a mm (ARet _) _) by gmany | eassert (G : goes 5 a mm (ARet _) _) by gmany
             | eassert (G : goes 6 a mm (ARet _) _) by gmany | eassert (G : goes 7 a mm (ARet _) _) by gmany | eassert (G : goes 8 a mm (ARet _) _) by gmany
             | eassert (G : goes 9 a mm (ARet _) _) by gmany | eassert (G : goes 10 a mm (ARet _) _) by gmany ];
       let ty := fresh in let E := fresh "E" in destruct (goes_end _ _ _ _ _ G _ Hd') as (ty & E); rewrite E; cbn [bind]; clear G E
       end end);
  do 4 eexists; (split; [reflexivity|]); (split; [reflexivity|]); first [exact Hg | exact Hlast | exact Hend].
Qed.
End gcut.

(** ** C119: the queue holds [x], the oldest item, and then [r]; there is room for one more.  The
    program calls mu_queue_get(&item), and after [j] of its accesses to memory (10 or 11, by the
    place of [x] in the array) an interrupt handler calls mu_queue_put(b).  Both calls return
    true.  If the interrupt comes between the reads of index and count ([j = 3]) the item got is
    [g], whatever an old slot holds; if it comes between the last read and the write of the
    count ([last]), the item after [x] is lost. *)
Theorem C119_source_put_in_get : forall p fuel ext ext_ptr m qb sb eb c items v0 ops b x r,
  heap m !! qb = Some c -> length c = 4%nat -> heap m !! sb = Some (VI <$> items) -> heap m !! eb = Some [v0] ->
  qb <> sb -> eb <> qb -> eb <> sb ->
  let cap := Z.of_nat (length items) in valid_cap p cap ->
  snd (fifo_run cap [] ops) = x :: r -> Z.of_nat (length (x :: r)) + 1 <= cap ->
  exists m1 m2 last g,
    qcall p fuel ext ext_ptr "mu_queue_init" [VP qb 0; VP sb 0; VI cap] m = Ok (VP qb 0, m1) /\
    src_ops p fuel ext ext_ptr qb eb ops m1 = Ok (fst (fifo_run cap [] ops), m2) /\
    (last = 9 \/ last = 10)%nat /\
    forall j, (j <= S last)%nat -> exists m3,
      text_put_in_get p fuel ext ext_ptr qb eb b j m2 = Ok (VI 1, VI 1, m3) /\
      heap m3 !! eb = Some [VI (if decide (j = 3%nat) then g else x)] /\
      forall later, exists m4, src_ops p fuel ext ext_ptr qb eb later m3 =
        Ok (fst (fifo_run cap (if decide (j = last) then tail (r ++ [b]) else r ++ [b])%list later), m4).
Proof.
  intros p fuel ext ext_ptr m qb sb eb c items v0 ops b x r H1 Hl H2 H3 Hne He1 He2 cap Hv Hx Hroom.
  assert (Hcap : 0 <= cap < size_mod p) by (destruct Hv; unfold size_max in *; destruct p; cbn in *; lia).
  pose proof (size_mod_pos p).
  set (q0 := mu_queue_init items cap). set (m1 := set_queue VI m qb sb q0).
  assert (E : qcall p fuel ext ext_ptr "mu_queue_init" [VP qb 0; VP sb 0; VI cap] m = Ok (VP qb 0, m1)).
  { unfold qcall. erewrite src_init by (done || exact VI_def). done. }
  assert (Hr0 : qrep p q0 []) by (by apply ring_init).
  destruct (qrun_ok p ops _ _ Hr0) as (q & Eq & Hqc & Hr). change (q_cap q0) with cap in *.
  assert (Hq1 : queue_at p VI m1 qb sb q0).
  { split; cbn; try done; try lia; [apply lookup_insert|]. rewrite lookup_insert_ne by done. apply lookup_insert. }
  assert (Hv1 : heap m1 !! eb = Some [v0]) by (cbn; rewrite !lookup_insert_ne by done; exact H3).
  destruct (ops_item p fuel ext ext_ptr _ _ _ _ _ _ _ _ _ Hq1 He1 He2 Hv1 Eq) as (m2 & v2 & Es & Hq2 & Hv2).
  rewrite Hx in Hr. pose proof (set_same _ _ _ _ _ _ Hq2) as Hm2.
  destruct q as [s cap' n i]. cbn [q_cap] in Hqc. subst cap'.
  pose proof Hr as Hrb. unfold qrep in Hrb. cbn [q_store q_cap q_cnt q_index] in Hrb. pose proof (ring_bounds _ _ _ _ _ _ Hrb) as (Hb1 & Hb2 & Hb3 & Hb4 & Hb5 & Hb6).
  destruct (text_get p fuel ext ext_ptr m2 qb sb eb cap Hne He1 He2 ltac:(lia) ltac:(lia) s n i x r b v2 Hrb ltac:(lia) Hv2) as (last & g & Hlast & Hall).
  exists m1, m2, last, g. split; [exact E|]. split; [exact Es|]. split; [exact Hlast|].
  intros j Hj. destruct (Hall j Hj) as (e & s' & n' & i' & Et & He & Hr').
  unfold M in Et. rewrite Hm2 in Et. set (m3 := set_queue _ _ _ _ _) in Et.
  assert (Hv3 : heap m3 !! eb = Some [VI e]) by (cbn; rewrite !lookup_insert_ne by done; apply lookup_insert).
  exists m3. split; [exact Et|]. split; [by rewrite <- He|].
  set (l' := if decide (j = last) then tail (r ++ [b])%list else (r ++ [b])%list) in *.
  intros later. destruct (qrun_ok p later (MkQ s' cap n' i') l' Hr') as (q2 & Eq2 & _). cbn [q_cap] in Eq2.
  assert (Hq3 : queue_at p VI m3 qb sb (MkQ s' cap n' i')).
  { pose proof (ring_bounds _ _ _ _ _ _ Hr') as (Hb1' & Hb2' & Hb3' & Hb4' & Hb5' & Hb6').
    split; cbn; try done; try lia; [apply lookup_insert|]. rewrite lookup_insert_ne by done. apply lookup_insert. }
  destruct (ops_item p fuel ext ext_ptr _ _ _ _ _ _ _ _ _ Hq3 He1 He2 Hv3 Eq2) as (m4 & v4 & Es4 & _). exists m4. exact Es4.
Qed.
Print Assumptions C119_source_put_in_get.
(** the hypotheses are met, and the interrupted call can be run: 7 and 8 are in the queue; a get
    is interrupted by a put of 2 between the last read and the write of the count: 8 is lost *)
Theorem C119_example_get :
  let m := MkMem (<[10%nat := [VU; VU; VU; VU]]> (<[11%nat := [VI 0; VI 0; VI 0]]> (<[12%nat := [VU]]> ∅))) 20 in
  let none1 := fun _ _ _ => UB in let none2 := fun _ _ _ => UB in
  (let* '(_, m) := qcall P32 0 none1 none2 "mu_queue_init" [VP 10 0; VP 11 0; VI 3] m in
   let* '(_, m) := src_ops P32 0 none1 none2 10 12 [QPut 7; QPut 8] m in
   let* '(vo, vi, m) := text_put_in_get P32 0 none1 none2 10 12 2 10 m in
   let* e := load_mem m 12 0 in
   let* '(os, _) := src_ops P32 0 none1 none2 10 12 [QCount; QGet; QGet] m in Ok (vo, vi, e, os)) =
    Ok (VI 1, VI 1, VI 7, [QNum 1; QItem true 2; QItem false 0]).
Proof. vm_compute. reflexivity. Qed.
