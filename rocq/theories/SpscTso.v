(** * mu_spsc on a machine with store buffers (properties C61, C62)

    The accesses are those of [cstep] in SpscModel.v (mu_spsc.c:67-96), in the same
    order.  A write now enters the writing thread's buffer and reaches memory later; a
    thread reads its own latest buffered write to an address, else memory.

    - Draining each buffer strictly from its oldest entry is x86-TSO without fences (the
      code has none; [volatile] in mu_spsc.h gives none).
    - Draining an entry ahead of older ones to other addresses is PSO, and also what a
      compiler may do here, since [head] and [tail] are volatile but the slots of
      [q->store] are not. *)
From Verif Require Import CSem FifoSpec SpscModel SpscProofs SpscProps.

(** shared addresses: q->head, q->tail, q->store[i] *)
Inductive addr := AHead | ATail | ASlot (i : Z).
Global Instance addr_eq_dec : EqDecision addr.
Proof. solve_decision. Defined.

Definition sbuf := list (addr * Z).     (* oldest entry first *)
Record tconc := MkT { t_q : spsc; t_pb : sbuf; t_cb : sbuf; t_p : ppc; t_c : cpc }.

Definition mem_rd (q : spsc) (a : addr) : res Z :=
  match a with AHead => Ok (s_head q) | ATail => Ok (s_tail q) | ASlot i => ld (s_store q) i end.
Definition mem_wr (q : spsc) (a : addr) (v : Z) : res spsc :=
  match a with
  | AHead => Ok (MkS (s_store q) (s_mask q) v (s_tail q))
  | ATail => Ok (MkS (s_store q) (s_mask q) (s_head q) v)
  | ASlot i => let* s := st (s_store q) i v in Ok (MkS s (s_mask q) (s_head q) (s_tail q))
  end.

(** latest entry for [a] in a buffer *)
Fixpoint buf_find (b : sbuf) (a : addr) : option Z :=
  match b with
  | [] => None
  | (a', v) :: b => match buf_find b a with
                    | Some w => Some w
                    | None => if decide (a' = a) then Some v else None
                    end
  end.
Definition rd (q : spsc) (b : sbuf) (a : addr) : res Z :=
  match buf_find b a with Some v => Ok v | None => mem_rd q a end.

(** remove entry [n], provided no older entry is for the same address *)
Definition buf_take (b : sbuf) (n : nat) : option ((addr * Z) * sbuf) :=
  match b !! n with
  | Some (a, v) => if forallb (fun e => negb (bool_decide (fst e = a))) (take n b)
                   then Some ((a, v), take n b ++ drop (S n) b) else None
  | None => None
  end.

(** choices: start a call, one access of the producer or consumer, or write entry [n] of
    the producer's or consumer's buffer to memory *)
Inductive tlabel := TPut (item : Z) | TGet | TP | TC | FlushP (n : nat) | FlushC (n : nat).

(** mu_spsc.c:67-96 *)
Definition tstep (s : tconc) (l : tlabel) : res (tconc * list sev) :=
  let '(MkT q pb cb p c) := s in
  match l with
  | TPut item => match p with
                 | PIdle => Ok (MkT q pb cb (PLoadTail item) c, [InvPut item])
                 | _ => Ok (s, []) end
  | TGet => match c with
            | CIdle => Ok (MkT q pb cb p CLoadHead, [InvGet])
            | _ => Ok (s, []) end
  | TP =>
    match p with
    | PIdle => Ok (s, [])
    | PLoadTail item =>
        let* t := rd q pb ATail in
        Ok (MkT q pb cb (PLoadHead item (to_u16 (Z.land (t + 1) (s_mask q)))) c, [])
    | PLoadHead item nt =>
        let* h := rd q pb AHead in
        if nt =? h then Ok (MkT q pb cb PIdle c, [RespPut item false])
        else Ok (MkT q pb cb (PLoadTail2 item nt) c, [])
    | PLoadTail2 item nt =>
        let* t := rd q pb ATail in Ok (MkT q pb cb (PWriteSlot item nt t) c, [])
    | PWriteSlot item nt t => Ok (MkT q (pb ++ [(ASlot t, item)]) cb (PStoreTail item nt) c, [])
    | PStoreTail item nt => Ok (MkT q (pb ++ [(ATail, nt)]) cb PIdle c, [RespPut item true])
    end
  | TC =>
    match c with
    | CIdle => Ok (s, [])
    | CLoadHead => let* h := rd q cb AHead in Ok (MkT q pb cb p (CLoadTail h), [])
    | CLoadTail h =>
        let* t := rd q cb ATail in
        if h =? t then Ok (MkT q pb cb p CIdle, [RespGet false NULL])
        else Ok (MkT q pb cb p CLoadHead2, [])
    | CLoadHead2 => let* h := rd q cb AHead in Ok (MkT q pb cb p (CReadSlot h), [])
    | CReadSlot h => let* v := rd q cb (ASlot h) in Ok (MkT q pb cb p (CLoadHead3 v), [])
    | CLoadHead3 v => let* h := rd q cb AHead in
                      Ok (MkT q pb cb p (CStoreHead v (to_u16 (Z.land (h + 1) (s_mask q)))), [])
    | CStoreHead v h => Ok (MkT q pb (cb ++ [(AHead, h)]) p CIdle, [RespGet true v])
    end
  | FlushP n => match buf_take pb n with
                | Some ((a, v), pb') => let* q' := mem_wr q a v in Ok (MkT q' pb' cb p c, [])
                | None => Ok (s, []) end
  | FlushC n => match buf_take cb n with
                | Some ((a, v), cb') => let* q' := mem_wr q a v in Ok (MkT q' pb cb' p c, [])
                | None => Ok (s, []) end
  end.

Fixpoint trun (s : tconc) (ls : list tlabel) : res (tconc * list sev) :=
  match ls with
  | [] => Ok (s, [])
  | l :: ls => let* '(s, e1) := tstep s l in
               let* '(s, e2) := trun s ls in Ok (s, e1 ++ e2)
  end.

(** a TSO schedule drains every buffer in order *)
Definition tso (l : tlabel) : Prop := match l with FlushP n | FlushC n => n = 0%nat | _ => True end.

(** with every write drained at once, this is the sequentially consistent machine *)
Definition now (l : label) : list tlabel :=
  match l with LPut x => [TPut x] | LGet => [TGet] | LP => [TP; FlushP 0] | LC => [TC; FlushC 0] end.

(** ** The invariant *)
Section tso.
Context (N : Z).
Definition ix (i : nat) : Z := Z.of_nat i mod N.

(** from memory position [(i, half)] the producer's buffer leads to its own position
    [(j, half')]: [i] whole puts are in memory, and with [half] also the slot of the next *)
Inductive pbuf (P : list Z) : nat -> bool -> sbuf -> nat -> bool -> Prop :=
| pb_nil i h : pbuf P i h [] i h
| pb_slot i x pb j h : P !! i = Some x -> pbuf P i true pb j h ->
    pbuf P i false ((ASlot (ix i), x) :: pb) j h
| pb_tail i pb j h : pbuf P (S i) false pb j h -> pbuf P i true ((ATail, ix (S i)) :: pb) j h.
Inductive cbuf : nat -> sbuf -> nat -> Prop :=
| cb_nil i : cbuf i [] i
| cb_head i cb j : cbuf (S i) cb j -> cbuf i ((AHead, ix (S i)) :: cb) j.

Definition b2n (b : bool) : nat := if b then 1 else 0.

Lemma pbuf_le P i h pb j h' : pbuf P i h pb j h' -> (i + b2n h <= j + b2n h' /\ i <= j)%nat.
Proof. induction 1; simpl in *; lia. Qed.
Lemma cbuf_le i cb j : cbuf i cb j -> (i <= j)%nat.
Proof. induction 1; lia. Qed.
Lemma pbuf_mono P P' i h pb j h' : pbuf P i h pb j h' -> pbuf (P ++ P') i h pb j h'.
Proof. induction 1; constructor; try done. by apply lookup_app_l_Some. Qed.
Lemma pbuf_slot P x i h pb j : pbuf P i h pb j false -> P !! j = Some x ->
  pbuf P i h (pb ++ [(ASlot (ix j), x)]) j true.
Proof.
  intros H Hx. remember false as h' eqn:E. induction H; subst; simpl; constructor; eauto. constructor.
Qed.
Lemma pbuf_tail P i h pb j : pbuf P i h pb j true -> pbuf P i h (pb ++ [(ATail, ix (S j))]) (S j) false.
Proof.
  intros H. remember true as h' eqn:E. induction H; subst; simpl; constructor; eauto. constructor.
Qed.
Lemma cbuf_app i cb j : cbuf i cb j -> cbuf i (cb ++ [(AHead, ix (S j))]) (S j).
Proof. induction 1; simpl; repeat constructor; done. Qed.

Lemma pbuf_find_tail P i h pb j h' : pbuf P i h pb j h' ->
  (buf_find pb ATail = None /\ i = j) \/ buf_find pb ATail = Some (ix j).
Proof.
  induction 1 as [|? ? ? ? ? ? ? IH|? ? ? ? ? IH]; simpl; [by left| |].
  - destruct IH as [[-> ->]| ->]; [by left|by right].
  - right. destruct IH as [[-> <-]| ->]; done.
Qed.
Lemma pbuf_find_head P i h pb j h' : pbuf P i h pb j h' -> buf_find pb AHead = None.
Proof. induction 1 as [|? ? ? ? ? ? ? IH|? ? ? ? ? IH]; simpl; rewrite ?IH; done. Qed.
Lemma cbuf_find_head i cb j : cbuf i cb j ->
  (buf_find cb AHead = None /\ i = j) \/ buf_find cb AHead = Some (ix j).
Proof.
  induction 1 as [|? ? ? ? IH]; simpl; [by left|]. right. destruct IH as [[-> <-]| ->]; simpl; done.
Qed.
Lemma cbuf_find_other i cb j a : cbuf i cb j -> a <> AHead -> buf_find cb a = None.
Proof. intros H Ha. induction H as [|? ? ? ? IH]; simpl; [done|]. rewrite IH. by rewrite decide_False. Qed.

Definition halfp (p : ppc) : bool := match p with PStoreTail _ _ => true | _ => false end.
Definition inflight (p : ppc) : list Z := match p with PStoreTail x _ => [x] | _ => [] end.

Definition tpinv (np ngm : nat) (p : ppc) : Prop :=
  match p with
  | PIdle | PLoadTail _ => True
  | PLoadHead _ nt => nt = ix (S np)
  | PLoadTail2 _ nt => nt = ix (S np) /\ Z.of_nat np - Z.of_nat ngm < N - 1
  | PWriteSlot _ nt t => nt = ix (S np) /\ Z.of_nat np - Z.of_nat ngm < N - 1 /\ t = ix np
  | PStoreTail x nt => nt = ix (S np) /\ Z.of_nat np - Z.of_nat ngm < N - 1
  end.
Definition tcinv (P : list Z) (ng npm : nat) (c : cpc) : Prop :=
  match c with
  | CIdle | CLoadHead => True
  | CLoadTail h => h = ix ng
  | CLoadHead2 => (ng < npm)%nat
  | CReadSlot h => h = ix ng /\ (ng < npm)%nat
  | CLoadHead3 v => P !! ng = Some v /\ (ng < npm)%nat
  | CStoreHead v h => P !! ng = Some v /\ h = ix (S ng) /\ (ng < npm)%nat
  end.

(** [P]: items put so far; [ng] gets so far; [npm], [ngm] puts and gets that memory knows of *)
Record tinv (s : tconc) (P : list Z) (ng npm ngm : nat) (hm : bool) : Prop := {
  ti_pow : exists k, 1 <= k <= 16 /\ N = 2 ^ k /\ N <= 32768;
  ti_mask : s_mask (t_q s) = N - 1;
  ti_len : Z.of_nat (length (s_store (t_q s))) = N;
  ti_head : s_head (t_q s) = ix ngm;
  ti_tail : s_tail (t_q s) = ix npm;
  ti_pb : pbuf (P ++ inflight (t_p s)) npm hm (t_pb s) (length P) (halfp (t_p s));
  ti_cb : cbuf ngm (t_cb s) ng;
  ti_ord : (ng <= npm)%nat;
  ti_cap : Z.of_nat (length P) - Z.of_nat ngm <= N - 1;
  ti_slots : forall i x, (ng <= i < npm + b2n hm)%nat -> (P ++ inflight (t_p s)) !! i = Some x ->
               s_store (t_q s) !! Z.to_nat (ix i) = Some x;
  ti_p : tpinv (length P) ngm (t_p s);
  ti_c : tcinv P ng npm (t_c s) }.

Lemma pow_ge2 : (exists k, 1 <= k <= 16 /\ N = 2 ^ k /\ N <= 32768) -> 2 <= N.
Proof. intros (k & Hk & -> & _). change 2 with (2 ^ 1) at 1. apply Z.pow_le_mono_r; lia. Qed.

Lemma next_ix (m : Z) (i : nat) : (exists k, 1 <= k <= 16 /\ N = 2 ^ k /\ N <= 32768) -> m = N - 1 ->
  to_u16 (Z.land (ix i + 1) m) = ix (S i).
Proof.
  intros HN ->. pose proof (pow_ge2 HN). destruct HN as (k & Hk & Hpow & Hle).
  replace (N - 1) with (Z.ones k) by (rewrite Z.ones_equiv; lia).
  rewrite Z.land_ones by lia. rewrite <- Hpow. unfold ix. rewrite Zplus_mod_idemp_l. unfold to_u16.
  replace (Z.of_nat i + 1) with (Z.of_nat (S i)) by lia.
  pose proof (Z.mod_pos_bound (Z.of_nat (S i)) N ltac:(lia)).
  rewrite (Z.mod_small _ 65536); [done|lia].
Qed.
Lemma ix_inj i j : 0 < N -> Z.abs (Z.of_nat i - Z.of_nat j) < N -> ix i = ix j -> i = j.
Proof.
  intros HN Hd H. unfold ix in H.
  destruct (Nat.le_ge_cases i j).
  - assert (0 = Z.of_nat j - Z.of_nat i); [|lia].
    apply (mod_off_inj N (Z.of_nat i)); [lia..|].
    rewrite Z.add_0_r. replace (Z.of_nat i + (Z.of_nat j - Z.of_nat i)) with (Z.of_nat j) by lia. done.
  - assert (0 = Z.of_nat i - Z.of_nat j); [|lia].
    apply (mod_off_inj N (Z.of_nat j)); [lia..|].
    rewrite Z.add_0_r. replace (Z.of_nat j + (Z.of_nat i - Z.of_nat j)) with (Z.of_nat i) by lia. done.
Qed.
Lemma ix_range i : 0 < N -> 0 <= ix i < N.
Proof. intros. apply Z.mod_pos_bound. lia. Qed.

Lemma buf_take0 b e b' : buf_take b 0 = Some (e, b') -> b = e :: b'.
Proof. unfold buf_take. destruct b as [|[a v] b]; simpl; [done|]. intros [= <- <-]. rewrite drop_0. done. Qed.

Ltac dinv H := destruct H as [Hpow Hmask Hlen Hhead Htail Hpb Hcb Hord Hcap Hslots Hp Hc];
  cbn [t_q t_pb t_cb t_p t_c] in *.

Lemma tstep_ok s P ng npm ngm hm l : tso l -> tinv s P ng npm ngm hm ->
  exists s' evs npm' ngm' hm', tstep s l = Ok (s', evs) /\
    tinv s' (P ++ put_items evs) (ng + length (got_items evs)) npm' ngm' hm' /\
    take (ng + length (got_items evs)) (P ++ put_items evs) = take ng P ++ got_items evs.
Proof.
  intros Ht Hi. pose proof (pow_ge2 (ti_pow _ _ _ _ _ _ Hi)) as HN.
  assert (Hid : forall s', tinv s' P ng npm ngm hm -> 
    exists s'' evs npm' ngm' hm', Ok (s', @nil sev) = Ok (s'', evs) /\
    tinv s'' (P ++ put_items evs) (ng + length (got_items evs)) npm' ngm' hm' /\
    take (ng + length (got_items evs)) (P ++ put_items evs) = take ng P ++ got_items evs).
  { intros s' Hs. eexists _, _, npm, ngm, hm. split; [done|]. simpl. by rewrite !app_nil_r, Nat.add_0_r. }
  assert (Hid1 : forall s' e, tinv s' P ng npm ngm hm -> put_items [e] = [] -> got_items [e] = [] ->
    exists s'' evs npm' ngm' hm', Ok (s', [e]) = Ok (s'', evs) /\
    tinv s'' (P ++ put_items evs) (ng + length (got_items evs)) npm' ngm' hm' /\
    take (ng + length (got_items evs)) (P ++ put_items evs) = take ng P ++ got_items evs).
  { intros s' e Hs E1 E2. eexists _, _, npm, ngm, hm. split; [done|]. rewrite E1, E2. simpl.
    by rewrite !app_nil_r, Nat.add_0_r. }
  pose proof Hi as Hi0. destruct s as [q pb cb p c]. dinv Hi.
  pose proof (pbuf_le _ _ _ _ _ _ Hpb) as [_ Hle1]. pose proof (cbuf_le _ _ _ Hcb) as Hle2.
  destruct l as [item| | | |n|n]; simpl tstep.
  - (* start a put *)
    destruct p; try (by apply Hid). apply Hid1; [constructor; done|done|done].
  - destruct c; try (by apply Hid). apply Hid1; [constructor; done|done|done].
  - (* producer *)
    destruct p as [|item|item nt|item nt|item nt t|item nt]; simpl in Hpb, Hslots, Hp |- *.
    + by apply Hid.
    + assert (rd q pb ATail = Ok (ix (length P))) as ->.
      { unfold rd. destruct (pbuf_find_tail _ _ _ _ _ _ Hpb) as [[-> ->]| ->]; [|done]. simpl. by rewrite Htail. }
      simpl. apply Hid. constructor; try done. simpl. by apply next_ix.
    + unfold rd. rewrite (pbuf_find_head _ _ _ _ _ _ Hpb). simpl. rewrite Hhead.
      destruct (Z.eqb_spec nt (ix ngm)) as [He|Hne].
      * apply Hid1; [constructor; done|done|done].
      * apply Hid. constructor; try done. simpl. split; [done|].
        assert (Z.of_nat (length P) - Z.of_nat ngm <> N - 1); [|lia].
        intros E. apply Hne. rewrite Hp. unfold ix.
        replace (Z.of_nat (S (length P))) with (Z.of_nat ngm + 1 * N) by lia. rewrite Z.mod_add by lia. done.
    + assert (rd q pb ATail = Ok (ix (length P))) as ->.
      { unfold rd. destruct (pbuf_find_tail _ _ _ _ _ _ Hpb) as [[-> ->]| ->]; [|done]. simpl. by rewrite Htail. }
      simpl. apply Hid. constructor; try done. simpl. destruct_and!. done.
    + destruct Hp as (-> & Hlt & ->). rewrite app_nil_r in Hpb, Hslots. apply Hid. constructor; try done; simpl.
      * apply pbuf_slot; [by apply pbuf_mono|]. by apply list_lookup_middle.
      * intros i x Hix Hx. destruct (decide (i < length P)%nat).
        -- rewrite lookup_app_l in Hx by done. eauto.
        -- exfalso. pose proof (pbuf_le _ _ _ _ _ _ Hpb) as [? _]. simpl in *. lia.
    + destruct Hp as (-> & Hlt). eexists _, _, npm, ngm, hm. split; [done|]. simpl. rewrite Nat.add_0_r.
      split; [|rewrite app_nil_r, take_app_le by lia; done]. constructor; cbn [t_q t_pb t_cb t_p t_c inflight halfp]; try done.
      * rewrite app_nil_r, app_length, Nat.add_1_r. simpl. by apply pbuf_tail.
      * rewrite app_length; simpl; lia.
      * rewrite app_nil_r. done.
      * destruct c; simpl in *; try done; destruct_and!; split_and!; try done; by apply lookup_app_l_Some.
  - (* consumer *)
    assert (Hrdh : rd q cb AHead = Ok (ix ng)).
    { unfold rd. destruct (cbuf_find_head _ _ _ Hcb) as [[-> ->]| ->]; [|done]. simpl. by rewrite Hhead. }
    destruct c as [| |h| |h|v|v h]; simpl in Hc |- *.
    + by apply Hid.
    + rewrite Hrdh. simpl. apply Hid. constructor; done.
    + unfold rd. rewrite (cbuf_find_other _ _ _ _ Hcb) by done. simpl. rewrite Htail.
      destruct (Z.eqb_spec h (ix npm)) as [He|Hne].
      * apply Hid1; [constructor; done|done|done].
      * apply Hid. constructor; try done. simpl. destruct (decide (ng = npm)); [|lia]. subst. done.
    + rewrite Hrdh. simpl. apply Hid. constructor; done.
    + destruct Hc as [-> Hlt]. unfold rd. rewrite (cbuf_find_other _ _ _ _ Hcb) by done. simpl.
      destruct (lookup_lt_is_Some_2 P ng) as [x Hx]; [lia|].
      rewrite (ld_okZ _ _ x); [| |].
      * simpl. apply Hid. constructor; done.
      * apply ix_range; lia.
      * apply Hslots; [lia|]. by apply lookup_app_l_Some.
    + rewrite Hrdh. simpl. apply Hid. constructor; try done. simpl. destruct_and!. split_and!; try done. by apply next_ix.
    + destruct Hc as (Hv & -> & Hlt). eexists _, _, npm, ngm, hm. split; [done|]. simpl.
      rewrite app_nil_r, Nat.add_1_r. split.
      * constructor; try done; simpl; try lia.
        -- by apply cbuf_app.
        -- intros i x Hix. apply Hslots. lia.
      * by apply take_S_r.
  - (* producer's buffer *)
    simpl in Ht. subst n. destruct (buf_take pb 0) as [[[a v] pb']|] eqn:E; [|by apply Hid].
    apply buf_take0 in E. subst pb. inversion Hpb as [|? ? ? ? ? Hx Hpb'|? ? ? ? Hpb']; subst; simpl.
    + rewrite st_ok by (rewrite Hlen; apply ix_range; lia). simpl.
      eexists _, _, npm, ngm, true. split; [done|]. simpl. rewrite !app_nil_r, Nat.add_0_r. split; [|done].
      pose proof (pbuf_le _ _ _ _ _ _ Hpb') as [Hle3 _]. simpl in Hle3.
      assert (Hnp : Z.of_nat npm - Z.of_nat ngm < N).
      { lia. }
      constructor; try done; simpl.
      * by rewrite insert_length.
      * intros i y Hiy Hy. destruct (decide (i = npm)) as [->|Hne].
        -- rewrite Hx in Hy. injection Hy as <-. apply list_lookup_insert.
           pose proof (ix_range npm ltac:(lia)). lia.
        -- rewrite list_lookup_insert_ne; [apply Hslots; [simpl; lia|done]|].
           intros Heq. apply Z2Nat.inj in Heq; try (apply ix_range; lia). apply ix_inj in Heq; lia.
    + eexists _, _, (S npm), ngm, false. split; [done|]. simpl. rewrite !app_nil_r, Nat.add_0_r. split; [|done].
      constructor; try done; simpl.
      * lia.
      * intros i y Hiy. apply Hslots. simpl. lia.
      * destruct c; simpl in *; destruct_and?; split_and?; try done; lia.
  - simpl in Ht. subst n. destruct (buf_take cb 0) as [[[a v] cb']|] eqn:E; [|by apply Hid].
    apply buf_take0 in E. subst cb. inversion Hcb as [|? ? ? Hcb']; subst; simpl.
    eexists _, _, npm, (S ngm), hm. split; [done|]. simpl. rewrite !app_nil_r, Nat.add_0_r. split; [|done].
    constructor; try done; simpl; try lia.
    destruct p; simpl in *; destruct_and?; split_and?; try done; lia.
Qed.

Lemma put_items_app a b : put_items (a ++ b) = put_items a ++ put_items b.
Proof. induction a as [|[| ? []| |] a IH]; simpl; rewrite ?IH; done. Qed.
Lemma got_items_app a b : got_items (a ++ b) = got_items a ++ got_items b.
Proof. induction a as [|[| | |[]] a IH]; simpl; rewrite ?IH; done. Qed.

Lemma trun_ok : forall ls s P ng npm ngm hm, Forall tso ls -> tinv s P ng npm ngm hm ->
  exists s' evs npm' ngm' hm', trun s ls = Ok (s', evs) /\
    tinv s' (P ++ put_items evs) (ng + length (got_items evs)) npm' ngm' hm' /\
    take (ng + length (got_items evs)) (P ++ put_items evs) = take ng P ++ got_items evs.
Proof.
  induction ls as [|l ls IH]; intros s P ng npm ngm hm Ht Hi; simpl.
  - eexists _, _, npm, ngm, hm. split; [done|]. simpl. rewrite !app_nil_r, Nat.add_0_r. done.
  - apply Forall_cons in Ht as [Ht1 Ht2].
    destruct (tstep_ok s P ng npm ngm hm l Ht1 Hi) as (s1 & e1 & npm1 & ngm1 & hm1 & -> & Hi1 & Hg1). simpl.
    destruct (IH _ _ _ _ _ _ Ht2 Hi1) as (s2 & e2 & npm2 & ngm2 & hm2 & -> & Hi2 & Hg2). simpl.
    eexists _, _, npm2, ngm2, hm2. split; [done|].
    rewrite put_items_app, got_items_app, app_length, app_assoc, Nat.add_assoc. split; [done|].
    rewrite Hg2, Hg1, <- app_assoc. done.
Qed.

Lemma tinit : forall q store q0, 0 <= N <= 65535 -> Z.of_nat (length store) = N ->
  mu_spsc_init q store N = (SPSC_NONE, q0) -> tinv (MkT q0 [] [] PIdle CIdle) [] 0 0 0 false.
Proof.
  intros q store q0 Hs Hl Hi. pose proof (init_rep q store N _ q0 Hs Hl Hi eq_refl) as Hr.
  pose proof (srep_bounds N _ _ Hr) as Hb.
  unfold mu_spsc_init in Hi. destruct (_ || _); [done|]. injection Hi as <-.
  destruct Hr as (Hp & Hm & Hlen & _). constructor; try done; simpl; try constructor; try lia.
Qed.

(** drained and between calls, memory holds exactly the items put and not yet taken *)
Lemma tinv_quiet q P ng npm ngm hm : tinv (MkT q [] [] PIdle CIdle) P ng npm ngm hm -> srep N q (drop ng P).
Proof.
  intros H. pose proof (pow_ge2 (ti_pow _ _ _ _ _ _ H)). dinv H. inversion Hpb; subst. inversion Hcb; subst.
  pose proof (ix_range ng ltac:(lia)). unfold srep. rewrite Hhead, Htail, drop_length.
  split_and!; try done; try lia.
  - unfold ix. rewrite Zplus_mod_idemp_l. f_equal. lia.
  - intros k x Hx. rewrite lookup_drop in Hx. unfold ix. rewrite Zplus_mod_idemp_l, <- Nat2Z.inj_add.
    apply Hslots; [|by rewrite app_nil_r]. apply lookup_lt_Some in Hx. simpl in *. lia.
Qed.
End tso.

(** ** C61: FIFO order survives store buffering *)
(** Every TSO schedule: no undefined behaviour; the items taken are the items put, in
    order, none lost, duplicated or invented; never more than [size - 1] outstanding. *)
Theorem C61_spsc_tso_in_order : forall q store size q0 schedule,
  0 <= size <= 65535 -> Z.of_nat (length store) = size ->
  mu_spsc_init q store size = (SPSC_NONE, q0) -> Forall tso schedule ->
  exists s evs rest, trun (MkT q0 [] [] PIdle CIdle) schedule = Ok (s, evs) /\
    put_items evs = got_items evs ++ rest /\ Z.of_nat (length rest) <= size - 1.
Proof.
  intros q store size q0 sch Hs Hl Hi Ht.
  destruct (trun_ok size sch _ _ _ _ _ _ Ht (tinit size q store q0 Hs Hl Hi))
    as (s & evs & npm & ngm & hm & HE & Hinv & Hg). simpl in *.
  exists s, evs, (drop (length (got_items evs)) (put_items evs)). split; [done|].
  rewrite <- Hg at 1. rewrite take_drop. split; [done|]. rewrite drop_length.
  destruct Hinv. apply cbuf_le in ti_cb0. apply pow_ge2 in ti_pow0. lia.
Qed.
Print Assumptions C61_spsc_tso_in_order.

(** When both threads are between calls and the buffers have drained, the queue in
    memory is exactly the sequential queue of the outstanding items: every further
    sequence of calls behaves as a FIFO started with them. *)
Theorem C61_spsc_tso_drained : forall q store size q0 schedule qm evs ops,
  0 <= size <= 65535 -> Z.of_nat (length store) = size ->
  mu_spsc_init q store size = (SPSC_NONE, q0) -> Forall tso schedule ->
  trun (MkT q0 [] [] PIdle CIdle) schedule = Ok (MkT qm [] [] PIdle CIdle, evs) ->
  exists rest qm', put_items evs = got_items evs ++ rest /\
    srun qm ops = Ok (fst (fifo_run (size - 1) rest (map sop_q ops)), qm').
Proof.
  intros q store size q0 sch qm evs ops Hs Hl Hi Ht HE.
  destruct (trun_ok size sch _ _ _ _ _ _ Ht (tinit size q store q0 Hs Hl Hi))
    as (s & evs' & npm & ngm & hm & HE' & Hinv & Hg). simpl in *.
  rewrite HE in HE'. injection HE' as <- <-.
  apply tinv_quiet in Hinv. destruct (srun_ok size ops qm _ Hinv) as (qm' & HR & _).
  eexists _, qm'. split; [|exact HR]. rewrite <- Hg at 1. by rewrite take_drop.
Qed.
Print Assumptions C61_spsc_tso_drained.

(** the sequentially consistent machine of C14 is this one with every write drained at once *)
Theorem C61_tso_contains_sc : forall ls s s' evs, crun s ls = Ok (s', evs) ->
  Forall tso (concat (map now ls)) /\
  trun (MkT (c_q s) [] [] (c_p s) (c_c s)) (concat (map now ls)) = Ok (MkT (c_q s') [] [] (c_p s') (c_c s'), evs).
Proof.
  induction ls as [|l ls IH]; intros s s' evs H; simpl in *.
  { injection H as <- <-. done. }
  destruct (cstep s l) as [[s1 e1]| |] eqn:E1; try done. simpl in H.
  destruct (crun s1 ls) as [[s2 e2]| |] eqn:E2; try done. simpl in H. injection H as <- <-.
  destruct (IH _ _ _ E2) as [Hf HR]. split.
  { apply Forall_app. split; [|done]. destruct l; repeat constructor. }
  destruct s as [q p c]. simpl in *.
  assert (App : forall a b s0 s1 ea, trun s0 a = Ok (s1, ea) -> trun s0 (a ++ b) = (let* '(s, e) := trun s1 b in Ok (s, ea ++ e))).
  { clear. induction a as [|l a IH]; intros b s0 s1 ea H; simpl in *.
    - injection H as <- <-. destruct (trun s0 b) as [[]| |]; done.
    - destruct (tstep s0 l) as [[sx ex]| |]; try done. simpl in *.
      destruct (trun sx a) as [[sy ey]| |] eqn:Ea; try done. simpl in H. injection H as <- <-.
      rewrite (IH b _ _ _ Ea). destruct (trun sy b) as [[]| |]; simpl; rewrite ?app_assoc; done. }
  rewrite (App _ _ _ (MkT (c_q s1) [] [] (c_p s1) (c_c s1)) e1); [rewrite HR; done|].
  destruct l; simpl in *.
  - destruct p; injection E1 as <- <-; done.
  - destruct c; injection E1 as <- <-; done.
  - destruct p; simpl in *; try (injection E1 as <- <-; done).
    + destruct (_ =? _); injection E1 as <- <-; done.
    + destruct (st (s_store q) t item) eqn:Es; simpl in *; try done. injection E1 as <- <-. done.
  - destruct c; simpl in *; try (injection E1 as <- <-; done).
    + destruct (_ =? _); injection E1 as <- <-; done.
    + unfold rd; simpl. destruct (ld (s_store q) h) eqn:Es; simpl in *; try done. injection E1 as <- <-. done.
Qed.
Print Assumptions C61_tso_contains_sc.

(** ** C62: what store buffering takes away *)
Definition full_put (x : Z) : list tlabel := TPut x :: repeat TP 5.
Definition full_get : list tlabel := TGet :: repeat TC 6.
Definition q4 : spsc := snd (mu_spsc_init (MkS [] 0 0 0) [0;0;0;0] 4).

(** (a) a get that starts after a successful put has returned may report EMPTY *)
Theorem C62_spsc_tso_not_linearizable : exists s,
  Forall tso (full_put 7 ++ full_get) /\
  trun (MkT q4 [] [] PIdle CIdle) (full_put 7 ++ full_get) =
    Ok (s, [InvPut 7; RespPut 7 true; InvGet; RespGet false NULL]).
Proof. eexists. split; [repeat constructor|vm_compute; reflexivity]. Qed.
Print Assumptions C62_spsc_tso_not_linearizable.

(** (b) and some TSO histories are explained by no interleaving of the two threads'
    calls at all, even ignoring real time: one side sees FULL while the other sees EMPTY *)
Inductive interleaving {A} : list A -> list A -> list A -> Prop :=
| int_nil : interleaving [] [] []
| int_l x a b c : interleaving a b c -> interleaving (x :: a) b (x :: c)
| int_r x a b c : interleaving a b c -> interleaving a (x :: b) (x :: c).
Definition producer_calls (evs : list sev) : list (qop * qobs) :=
  concat (map (fun e => match e with RespPut _ _ => ev_op e | _ => [] end) evs).
Definition consumer_calls (evs : list sev) : list (qop * qobs) :=
  concat (map (fun e => match e with RespGet _ _ => ev_op e | _ => [] end) evs).

Definition sc_violation : list tlabel :=
  full_put 1 ++ full_put 2 ++ repeat (FlushP 0) 4 ++    (* two items, known to both *)
  full_put 3 ++                                         (* buffered *)
  full_get ++ full_get ++                               (* buffered *)
  full_put 4 ++                                         (* FULL *)
  full_get.                                             (* EMPTY *)
Ltac inter_all :=
  repeat match goal with H : interleaving _ _ _ |- _ => inversion H; clear H; subst end.
Theorem C62_spsc_tso_not_sequentially_consistent : exists s evs,
  Forall tso sc_violation /\
  trun (MkT q4 [] [] PIdle CIdle) sc_violation = Ok (s, evs) /\
  producer_calls evs = [(QPut 1, QBool true); (QPut 2, QBool true); (QPut 3, QBool true); (QPut 4, QBool false)] /\
  consumer_calls evs = [(QGet, QItem true 1); (QGet, QItem true 2); (QGet, QItem false NULL)] /\
  forall h, interleaving (producer_calls evs) (consumer_calls evs) h ->
    fst (fifo_run 3 [] (map fst h)) <> map snd h.
Proof.
  eexists _, _. split; [repeat constructor|]. split; [vm_compute; reflexivity|].
  split; [reflexivity|]. split; [reflexivity|].
  intros h Hh. cbv [producer_calls consumer_calls] in Hh.
  match type of Hh with interleaving ?a ?b _ => let a' := eval vm_compute in a in let b' := eval vm_compute in b in
    change (interleaving a' b' h) in Hh end.
  inter_all; vm_compute; discriminate.
Qed.
Print Assumptions C62_spsc_tso_not_sequentially_consistent.

(** (c) if the slot store may be delayed past the tail store (PSO, or a compiler moving
    the non-volatile store), a get can return an item that was never put *)
Definition pso_violation : list tlabel := full_put 7 ++ [FlushP 1] ++ full_get.
Theorem C62_spsc_pso_invents_item : exists s evs,
  trun (MkT q4 [] [] PIdle CIdle) pso_violation = Ok (s, evs) /\
  put_items evs = [7] /\ got_items evs = [0].
Proof. eexists _, _. vm_compute. done. Qed.
Print Assumptions C62_spsc_pso_invents_item.

(** a non-trivial TSO schedule: six puts and five gets through a queue of three, with
    the buffers drained at odd moments *)
Definition C61_sched : list tlabel :=
  full_put 1 ++ [FlushP 0] ++ full_put 2 ++ [FlushP 0; FlushP 0] ++ full_get ++ full_put 3 ++
  repeat (FlushP 0) 5 ++ [TPut 4; TP; TP] ++ full_get ++ [FlushC 0; TP; TP; FlushC 0; FlushP 0] ++
  full_put 4 ++ repeat (FlushP 0) 9 ++ full_get ++ full_get ++ full_put 5 ++ [FlushC 0] ++ full_put 6.
Example C61_example : exists s evs, Forall tso C61_sched /\
  trun (MkT q4 [] [] PIdle CIdle) C61_sched = Ok (s, evs) /\
  put_items evs = [1;2;3;4;5;6] /\ got_items evs = [1;2;3;4].
Proof. eexists _, _. split; [repeat constructor|]. split; [vm_compute; reflexivity|]. vm_compute. done. Qed.
