(** * mu_queue used from interrupts: property C97.

    mu_queue_put and mu_queue_get as sequences of accesses to the queue object, and one of
    them interrupted, after any number of accesses, by another complete call. *)
From Verif Require Import CSem FifoSpec Ring QueueModel QueueProofs.

(** ** Model *)
(** What a call still has to do.  mu_queue.c:79-88: *)
Inductive qpc :=
| PutTest (x : Z)            (* :80  load count (and capacity, which never changes) *)
| PutIndex (x : Z)           (* :81  load index *)
| PutSlot (x i : Z)          (* :81  store storage[i] *)
| PutIndex2                  (* :82  load index *)
| PutSetIndex (i : Z)        (* :82  store index *)
| PutCount                   (* :83  load count *)
| PutSetCount (n : Z)        (* :83  store count *)
(* mu_queue.c:101-117, with fetch = true: *)
| GetTest                    (* :102 load count *)
| GetIndex                   (* :104 load index; the order of the two loads is the compiler's choice, here: left to right *)
| GetCount (i : Z)           (* :104 load count *)
| GetSlot (idx : Z)          (* :108 load storage[idx] *)
| GetCount2 (e : Z)          (* :110 load count *)
| GetSetCount (e n : Z)      (* :110 store count *)
| Finished (o : qobs).

(** one access *)
Definition qi_step (p : plat) (q : mqueue) (pc : qpc) : res (mqueue * qpc) :=
  match pc with
  | PutTest x => Ok (q, if negb (mu_queue_is_full q) then PutIndex x else Finished (QBool false))
  | PutIndex x => Ok (q, PutSlot x (q_index q))
  | PutSlot x i => let* s := st (q_store q) i x in Ok (MkQ s (q_cap q) (q_cnt q) (q_index q), PutIndex2)
  | PutIndex2 => let* i := umod (to_size p (q_index q + 1)) (q_cap q) in Ok (q, PutSetIndex i)
  | PutSetIndex i => Ok (MkQ (q_store q) (q_cap q) (q_cnt q) i, PutCount)
  | PutCount => Ok (q, PutSetCount (to_size p (q_cnt q + 1)))
  | PutSetCount n => Ok (MkQ (q_store q) (q_cap q) n (q_index q), Finished (QBool true))
  | GetTest => Ok (q, if negb (mu_queue_is_empty q) then GetIndex else Finished (QItem false 0))
  | GetIndex => Ok (q, GetCount (q_index q))
  | GetCount i => let idx := to_size p (to_size p (q_cap q + i) - q_cnt q) in
                  Ok (q, GetSlot (if q_cap q <=? idx then to_size p (idx - q_cap q) else idx))
  | GetSlot idx => let* e := ld (q_store q) idx in Ok (q, GetCount2 e)
  | GetCount2 e => Ok (q, GetSetCount e (to_size p (q_cnt q - 1)))
  | GetSetCount e n => Ok (MkQ (q_store q) (q_cap q) n (q_index q), Finished (QItem true e))
  | Finished o => Ok (q, Finished o)
  end.
Fixpoint qi_run (p : plat) (n : nat) (q : mqueue) (pc : qpc) : res (mqueue * qpc) :=
  match n with
  | O => Ok (q, pc)
  | S n => let* '(q, pc) := qi_step p q pc in qi_run p n q pc
  end.

Inductive qcall := CPut (x : Z) | CGet.
Definition enter (c : qcall) : qpc := match c with CPut x => PutTest x | CGet => GetTest end.
Definition as_op (c : qcall) : qop := match c with CPut x => QPut x | CGet => QGet end.
(** the rest of a call that has made some of its (at most seven) accesses *)
Definition qi_finish (p : plat) (q : mqueue) (pc : qpc) : res (qobs * mqueue) :=
  let* '(q, pc) := qi_run p 7 q pc in
  match pc with Finished o => Ok (o, q) | _ => NoFuel end.
(** [outer] is interrupted after [j] accesses by a complete call [inner] *)
Definition interrupted (p : plat) (outer inner : qcall) (j : nat) (q : mqueue) : res (qobs * qobs * mqueue) :=
  let* '(q, pc) := qi_run p j q (enter outer) in
  let* '(oi, q) := qrun1 p q (as_op inner) in
  let* '(oo, q) := qi_finish p q pc in
  Ok (oo, oi, q).

(** Uninterrupted, the accesses add up to the functions of QueueModel.v. *)
Theorem C97_alone : forall p c q, qi_finish p q (enter c) = qrun1 p q (as_op c).
Proof.
  intros p [x|] q; destruct q as [s cap cnt idx]; unfold qi_finish; cbn [enter as_op qrun1 qi_run qi_step bind].
  - unfold mu_queue_put, mu_queue_is_full. cbn [q_cnt q_cap q_store q_index]. destruct (negb _); cbn [qi_run qi_step bind q_index q_store]; [|done].
    destruct (st s idx x) as [s'| |]; cbn [bind qi_run qi_step q_index q_cap]; try done.
    destruct (umod _ _); done.
  - unfold mu_queue_get, access_queue, mu_queue_is_empty. cbn [q_cnt q_cap q_store q_index]. destruct (negb _); cbn [qi_run qi_step bind q_index q_store q_cap q_cnt]; [|done].
    destruct (ld s _) as [e| |]; done.
Qed.
Print Assumptions C97_alone.

(** ** Specification *)
(** from now on [q] behaves as a FIFO that holds [l] *)
Definition holds (p : plat) (cap : Z) (q : mqueue) (l : list Z) : Prop :=
  forall ops, exists q', qrun p q ops = Ok (fst (fifo_run cap l ops), q').

Section proofs.
Context (p : plat).
Lemma qrep_holds q l : qrep p q l -> holds p (q_cap q) q l.
Proof. intros Hr ops. destruct (qrun_ok p ops q l Hr) as (q' & E & _). eauto. Qed.

(** the count grows by one and nothing else changes: some old slot counts as the oldest item *)
Lemma ring_extend s cap cnt index l : ringrep p s cap cnt index l -> cnt < cap ->
  exists g, g ∈ s /\ ringrep p s cap (cnt + 1) index (g :: l).
Proof.
  intros Hr Hlt. pose proof (ring_bounds _ _ _ _ _ _ Hr) as Hb. destruct Hr as (Hv & Hl & Hc & Hle & Hi & Hk).
  assert (Hm : 0 <= (index - (cnt + 1)) mod cap < cap) by (apply Z.mod_pos_bound; lia).
  destruct (lookup_lt_is_Some_2 s (Z.to_nat ((index - (cnt + 1)) mod cap))) as [g Hg]; [lia|].
  exists g. split; [by eapply elem_of_list_lookup_2|]. unfold ringrep. simpl. split_and!; try done; try lia.
  intros [|k] x Hx; simpl in Hx.
  - injection Hx as <-. by rewrite Z.add_0_r.
  - rewrite <- (Hk k x Hx). do 3 f_equal. lia.
Qed.
(** the index moves on without a store: the old content of the slot counts as the newest item *)
Lemma ring_skip s cap cnt index l : ringrep p s cap cnt index l -> cnt < cap ->
  exists g, g ∈ s /\ ringrep p s cap (cnt + 1) ((index + 1) mod cap) (l ++ [g]).
Proof.
  intros Hr Hlt. pose proof (ring_bounds _ _ _ _ _ _ Hr) as Hb.
  destruct (lookup_lt_is_Some_2 s (Z.to_nat index)) as [g Hg]; [lia|].
  destruct (ring_put p _ _ _ _ _ g Hr Hlt) as (s' & E & H). rewrite st_ok in E by lia. injection E as <-.
  rewrite list_insert_id in H by done. exists g. split; [by eapply elem_of_list_lookup_2|done].
Qed.

(** *** where a call stands after [j] accesses, and how it ends *)
Definition nx (cap i : Z) : Z := (i + 1) mod cap.
Lemma umod_nx cap i : 0 <= i < cap -> 4 * cap < size_mod p -> umod (to_size p (i + 1)) cap = Ok (nx cap i).
Proof. intros Hi Hc. unfold umod, nx. rewrite to_size_id by lia. destruct (Z.eqb_spec cap 0); [lia|done]. Qed.
Lemma nx_range cap i : 0 <= i < cap -> 0 <= nx cap i < cap.
Proof. intros H. apply Z.mod_pos_bound. lia. Qed.

Definition put_at (s : list Z) (cap n i a : Z) (j : nat) : mqueue * qpc :=
  let s' := <[Z.to_nat i := a]> s in
  match j with
  | 0 => (MkQ s cap n i, PutTest a)
  | 1 => (MkQ s cap n i, PutIndex a)
  | 2 => (MkQ s cap n i, PutSlot a i)
  | 3 => (MkQ s' cap n i, PutIndex2)
  | 4 => (MkQ s' cap n i, PutSetIndex (nx cap i))
  | 5 => (MkQ s' cap n (nx cap i), PutCount)
  | 6 => (MkQ s' cap n (nx cap i), PutSetCount (n + 1))
  | _ => (MkQ s' cap (n + 1) (nx cap i), Finished (QBool true))
  end%nat.
Lemma put_at_ok s cap n i a j : Z.of_nat (length s) = cap -> 4 * cap < size_mod p -> 0 <= n < cap -> 0 <= i < cap -> (j <= 7)%nat ->
  qi_run p j (MkQ s cap n i) (PutTest a) = Ok (put_at s cap n i a j).
Proof.
  intros Hs Hc Hn Hi Hj.
  assert (Hf : mu_queue_is_full (MkQ s cap n i) = false) by (unfold mu_queue_is_full; cbn [q_cnt q_cap]; destruct (Z.eqb_spec n cap); [lia|done]).
  assert (Hst : st s i a = Ok (<[Z.to_nat i := a]> s)) by (apply st_ok; lia).
  assert (Hn1 : to_size p (n + 1) = n + 1) by (apply to_size_id; lia).
  destruct j as [|[|[|[|[|[|[|[|j] ] ] ] ] ] ] ]; try lia;
    repeat (cbn [qi_run qi_step bind q_index q_store q_cap q_cnt negb]; rewrite ?Hf, ?Hst, ?umod_nx, ?Hn1 by done); done.
Qed.
Lemma fin_put s cap n i a : Z.of_nat (length s) = cap -> 4 * cap < size_mod p -> 0 <= n < cap -> 0 <= i < cap ->
  qi_finish p (MkQ s cap n i) (PutTest a) = Ok (QBool true, MkQ (<[Z.to_nat i := a]> s) cap (n + 1) (nx cap i)).
Proof. intros Hs Hc Hn Hi. unfold qi_finish. by rewrite put_at_ok. Qed.
(** the rest of a put, on whatever queue it finds *)
Lemma fin_put_from s cap n i pc : Z.of_nat (length s) = cap -> 4 * cap < size_mod p -> 0 <= n <= cap -> 0 <= i < cap ->
  match pc with
  | PutIndex a => qi_finish p (MkQ s cap n i) pc = Ok (QBool true, MkQ (<[Z.to_nat i := a]> s) cap (n + 1) (nx cap i))
  | PutSlot a k => 0 <= k < cap -> qi_finish p (MkQ s cap n i) pc = Ok (QBool true, MkQ (<[Z.to_nat k := a]> s) cap (n + 1) (nx cap i))
  | PutIndex2 => qi_finish p (MkQ s cap n i) pc = Ok (QBool true, MkQ s cap (n + 1) (nx cap i))
  | PutSetIndex k => qi_finish p (MkQ s cap n i) pc = Ok (QBool true, MkQ s cap (n + 1) k)
  | PutCount => qi_finish p (MkQ s cap n i) pc = Ok (QBool true, MkQ s cap (n + 1) i)
  | PutSetCount m => qi_finish p (MkQ s cap n i) pc = Ok (QBool true, MkQ s cap m i)
  | _ => True
  end.
Proof.
  intros Hs Hc Hn Hi. assert (Hn1 : to_size p (n + 1) = n + 1) by (apply to_size_id; lia).
  assert (Hst : forall k a, 0 <= k < cap -> st s k a = Ok (<[Z.to_nat k := a]> s)) by (intros; apply st_ok; lia).
  destruct pc; try exact I; unfold qi_finish; try (intros Hk);
    repeat (cbn [qi_run qi_step bind q_index q_store q_cap q_cnt]; rewrite ?Hst, ?umod_nx, ?Hn1 by done); done.
Qed.

Lemma put_full s cap n i x : n = cap -> qrun1 p (MkQ s cap n i) (QPut x) = Ok (QBool false, MkQ s cap n i).
Proof. intros ->. cbn [qrun1]. unfold mu_queue_put, mu_queue_is_full. cbn [q_cnt q_cap]. by rewrite Z.eqb_refl. Qed.
Lemma put_room s cap n i x : Z.of_nat (length s) = cap -> 4 * cap < size_mod p -> 0 <= n < cap -> 0 <= i < cap ->
  qrun1 p (MkQ s cap n i) (QPut x) = Ok (QBool true, MkQ (<[Z.to_nat i := x]> s) cap (n + 1) (nx cap i)).
Proof. intros Hs Hc Hn Hi. rewrite <- (C97_alone p (CPut x)). by apply fin_put. Qed.

Lemma ring_put' s cap cnt index l x : ringrep p s cap cnt index l -> cnt < cap ->
  ringrep p (<[Z.to_nat index := x]> s) cap (cnt + 1) (nx cap index) (l ++ [x]).
Proof.
  intros Hr Hlt. pose proof (ring_bounds _ _ _ _ _ _ Hr) as Hb. destruct (ring_put p _ _ _ _ _ x Hr Hlt) as (s' & E & H).
  rewrite st_ok in E by lia. injection E as <-. done.
Qed.

(** *** a put interrupted by a put *)
Definition two_puts (l : list Z) (a b g : Z) (j : nat) : list Z :=
  match j with
  | 0 | 1 => l ++ [b; a]
  | 2 => l ++ [a; g]           (* a overwrites b; an old slot follows *)
  | 3 => l ++ [b; g]           (* b overwrites a; an old slot follows *)
  | 4 => g :: l ++ [b]         (* b overwrites a; an old slot comes first *)
  | 6 => tail (l ++ [a; b])    (* the oldest item is lost *)
  | _ => l ++ [a; b]
  end%nat.
Lemma put_in_put q l a b j : qrep p q l -> Z.of_nat (length l) + 2 <= q_cap q -> (j <= 7)%nat ->
  exists g q', interrupted p (CPut a) (CPut b) j q = Ok (QBool true, QBool true, q') /\ q_cap q' = q_cap q /\ qrep p q' (two_puts l a b g j).
Proof.
  intros Hr Hroom Hj. destruct q as [s cap n i]. unfold qrep in Hr. cbn [q_store q_cap q_cnt q_index] in *.
  pose proof (ring_bounds _ _ _ _ _ _ Hr) as (Hb1 & Hb2 & Hb3 & Hb4 & Hb5 & Hb6).
  assert (Hi : 0 <= i < cap) by lia. pose proof (nx_range cap i Hi) as Hi1. pose proof (nx_range cap _ Hi1) as Hi2.
  pose proof (ring_put' _ _ _ _ _ a Hr ltac:(lia)) as Ha. pose proof (ring_put' _ _ _ _ _ b Hr ltac:(lia)) as Hb.
  unfold interrupted. cbn [enter as_op]. rewrite put_at_ok by (lia || done). cbn [bind].
  destruct j as [|[|[|[|[|[|[|[|j] ] ] ] ] ] ] ]; try lia; cbn [put_at];
    rewrite put_room by (rewrite ?insert_length; lia || done); cbn [bind].
  - rewrite fin_put by (rewrite ?insert_length; lia || done). cbn [bind]. exists 0. eexists. split; [done|]. split; [done|].
    cbn [two_puts]. unfold qrep. cbn [q_store q_cap q_cnt q_index]. rewrite (app_assoc l [b] [a] : l ++ [b; a] = _). apply ring_put'; [exact Hb|lia].
  - rewrite (fin_put_from _ _ _ _ (PutIndex a)) by (rewrite ?insert_length; lia || done). cbn [bind]. exists 0. eexists. split; [done|]. split; [done|].
    cbn [two_puts]. unfold qrep. cbn [q_store q_cap q_cnt q_index]. rewrite (app_assoc l [b] [a] : l ++ [b; a] = _). apply ring_put'; [exact Hb|lia].
  - rewrite (fin_put_from _ _ _ _ (PutSlot a i)) by (rewrite ?insert_length; lia || done). cbn [bind]. rewrite list_insert_insert.
    destruct (ring_skip _ _ _ _ _ Ha ltac:(lia)) as (g & _ & Hg). exists g. eexists. split; [done|]. split; [done|].
    cbn [two_puts]. unfold qrep. cbn [q_store q_cap q_cnt q_index]. rewrite (app_assoc l [a] [g] : l ++ [a; g] = _). exact Hg.
  - rewrite (fin_put_from _ _ _ _ PutIndex2) by (rewrite ?insert_length; lia || done). cbn [bind]. rewrite list_insert_insert.
    destruct (ring_skip _ _ _ _ _ Hb ltac:(lia)) as (g & _ & Hg). exists g. eexists. split; [done|]. split; [done|].
    cbn [two_puts]. unfold qrep. cbn [q_store q_cap q_cnt q_index]. rewrite (app_assoc l [b] [g] : l ++ [b; g] = _). exact Hg.
  - rewrite (fin_put_from _ _ _ _ (PutSetIndex (nx cap i))) by (rewrite ?insert_length; lia || done). cbn [bind]. rewrite list_insert_insert.
    destruct (ring_extend _ _ _ _ _ Hb ltac:(lia)) as (g & _ & Hg). exists g. eexists. split; [done|]. split; [done|].
    cbn [two_puts]. unfold qrep. cbn [q_store q_cap q_cnt q_index]. exact Hg.
  - rewrite (fin_put_from _ _ _ _ PutCount) by (rewrite ?insert_length; lia || done). cbn [bind]. exists 0. eexists. split; [done|]. split; [done|].
    cbn [two_puts]. unfold qrep. cbn [q_store q_cap q_cnt q_index]. rewrite (app_assoc l [a] [b] : l ++ [a; b] = _). apply ring_put'; [exact Ha|lia].
  - rewrite (fin_put_from _ _ _ _ (PutSetCount (n + 1))) by (rewrite ?insert_length; lia || done). cbn [bind]. exists 0. eexists. split; [done|]. split; [done|].
    cbn [two_puts]. unfold qrep. cbn [q_store q_cap q_cnt q_index]. rewrite (app_assoc l [a] [b] : l ++ [a; b] = _).
    destruct (l ++ [a]) as [|x r] eqn:El; [by destruct l|]. cbn [tail app]. apply ring_get in Ha.
    replace (n + 1) with (n + 1 - 1 + 1) by lia. apply (ring_put' _ _ _ _ _ b) in Ha; [exact Ha|lia].
  - exists 0. eexists. split; [done|]. split; [done|].
    cbn [two_puts]. unfold qrep. cbn [q_store q_cap q_cnt q_index]. rewrite (app_assoc l [a] [b] : l ++ [a; b] = _). apply ring_put'; [exact Ha|lia].
Qed.

(** with room for one item only *)
Lemma put_in_put_last q l a b j : qrep p q l -> Z.of_nat (length l) + 1 = q_cap q -> (j <= 7)%nat ->
  exists oo oi q', interrupted p (CPut a) (CPut b) j q = Ok (QBool oo, QBool oi, q') /\ q_cap q' = q_cap q /\
  match j with
  | 0%nat => oo = false /\ oi = true /\ qrep p q' (l ++ [b])
  | 6%nat => oo = true /\ oi = true /\ qrep p q' (tail (l ++ [a; b]))
  | 7%nat => oo = true /\ oi = false /\ qrep p q' (l ++ [a])
  | _ => oo = true /\ oi = true /\ mu_queue_count q' = q_cap q + 1
  end.
Proof.
  intros Hr Hroom Hj. destruct q as [s cap n i]. unfold qrep in Hr. cbn [q_store q_cap q_cnt q_index] in *.
  pose proof (ring_bounds _ _ _ _ _ _ Hr) as (Hb1 & Hb2 & Hb3 & Hb4 & Hb5 & Hb6).
  assert (Hi : 0 <= i < cap) by lia. pose proof (nx_range cap i Hi) as Hi1. pose proof (nx_range cap _ Hi1) as Hi2.
  pose proof (ring_put' _ _ _ _ _ a Hr ltac:(lia)) as Ha. pose proof (ring_put' _ _ _ _ _ b Hr ltac:(lia)) as Hb.
  unfold interrupted. cbn [enter as_op]. rewrite put_at_ok by (lia || done). cbn [bind].
  destruct j as [|[|[|[|[|[|[|[|j] ] ] ] ] ] ] ]; try lia; cbn [put_at];
    [rewrite put_room by (rewrite ?insert_length; lia || done); cbn [bind]..|].
  - rewrite (C97_alone p (CPut a)). cbn [as_op]. rewrite put_full by lia. cbn [bind]. eexists _, _, _. split; [done|]. done.
  - rewrite (fin_put_from _ _ _ _ (PutIndex a)) by (rewrite ?insert_length; lia || done). cbn [bind]. eexists _, _, _. split; [done|]. split; [done|].
    do 2 (split; [done|]). unfold mu_queue_count. cbn [q_cnt]. lia.
  - rewrite (fin_put_from _ _ _ _ (PutSlot a i)) by (rewrite ?insert_length; lia || done). cbn [bind]. eexists _, _, _. split; [done|]. split; [done|].
    do 2 (split; [done|]). unfold mu_queue_count. cbn [q_cnt]. lia.
  - rewrite (fin_put_from _ _ _ _ PutIndex2) by (rewrite ?insert_length; lia || done). cbn [bind]. eexists _, _, _. split; [done|]. split; [done|].
    do 2 (split; [done|]). unfold mu_queue_count. cbn [q_cnt]. lia.
  - rewrite (fin_put_from _ _ _ _ (PutSetIndex (nx cap i))) by (rewrite ?insert_length; lia || done). cbn [bind]. eexists _, _, _. split; [done|]. split; [done|].
    do 2 (split; [done|]). unfold mu_queue_count. cbn [q_cnt]. lia.
  - rewrite (fin_put_from _ _ _ _ PutCount) by (rewrite ?insert_length; lia || done). cbn [bind]. eexists _, _, _. split; [done|]. split; [done|].
    do 2 (split; [done|]). unfold mu_queue_count. cbn [q_cnt]. lia.
  - rewrite (fin_put_from _ _ _ _ (PutSetCount (n + 1))) by (rewrite ?insert_length; lia || done). cbn [bind]. eexists _, _, _. split; [done|]. split; [done|].
    do 2 (split; [done|]). unfold qrep. cbn [q_store q_cap q_cnt q_index]. rewrite (app_assoc l [a] [b] : l ++ [a; b] = _).
    destruct (l ++ [a]) as [|x r] eqn:El; [by destruct l|]. cbn [tail app]. apply ring_get in Ha.
    replace (n + 1) with (n + 1 - 1 + 1) by lia. apply (ring_put' _ _ _ _ _ b) in Ha; [exact Ha|lia].
  - rewrite put_full by lia. cbn [bind]. eexists _, _, _. split; [done|]. done.
Qed.

(** *** gets *)
Lemma ring_any s cap (cnt : nat) i : valid_cap p cap -> Z.of_nat (length s) = cap -> Z.of_nat cnt <= cap -> 0 <= i < cap ->
  exists l, length l = cnt /\ ringrep p s cap (Z.of_nat cnt) i l.
Proof.
  intros Hv Hs Hc Hi. induction cnt as [|cnt IH].
  - exists []. split; [done|]. unfold ringrep. split_and!; try done; try lia.
  - destruct IH as (l & Hl & Hr); [lia|]. destruct (ring_extend _ _ _ _ _ Hr ltac:(lia)) as (g & _ & Hg). exists (g :: l).
    split; [simpl; lia|]. replace (Z.of_nat (S cnt)) with (Z.of_nat cnt + 1) by lia. exact Hg.
Qed.
(** storing at the index, which is free, does not change the items *)
Lemma ring_free s cap cnt index l x : ringrep p s cap cnt index l -> cnt < cap ->
  ringrep p (<[Z.to_nat index := x]> s) cap cnt index l.
Proof.
  intros Hr Hlt. pose proof (ring_bounds _ _ _ _ _ _ Hr) as Hb. pose proof (ring_put' _ _ _ _ _ x Hr Hlt) as (_ & H2 & _ & _ & _ & H6).
  destruct Hr as (Hv & Hl & Hc & Hle & Hi & Hk). unfold ringrep. split_and!; try done.
  intros k y Hy. rewrite <- (H6 k y); [|by apply lookup_app_l_Some]. do 2 f_equal. unfold nx.
  replace ((index + 1) mod cap - (cnt + 1) + Z.of_nat k) with ((index + 1) mod cap + (Z.of_nat k - cnt - 1)) by lia.
  rewrite Zplus_mod_idemp_l. f_equal. lia.
Qed.

Definition get_at (q : mqueue) (x : Z) (j : nat) : mqueue * qpc :=
  match j with
  | 0 => (q, GetTest)
  | 1 => (q, GetIndex)
  | 2 => (q, GetCount (q_index q))
  | 3 => (q, GetSlot (ring_idx p (q_cap q) (q_cnt q) (q_index q)))
  | 4 => (q, GetCount2 x)
  | 5 => (q, GetSetCount x (q_cnt q - 1)%Z)
  | _ => (MkQ (q_store q) (q_cap q) (q_cnt q - 1)%Z (q_index q), Finished (QItem true x))
  end%nat.
Lemma get_at_ok q x l j : qrep p q (x :: l) -> (j <= 6)%nat -> qi_run p j q GetTest = Ok (get_at q x j).
Proof.
  intros Hr Hj. pose proof (ring_bounds _ _ _ _ _ _ Hr) as Hb. pose proof (ring_oldest p _ _ _ _ _ _ Hr) as Ho.
  simpl length in Hb. destruct q as [s cap n i]. cbn [q_store q_cap q_cnt q_index] in *.
  assert (He : mu_queue_is_empty (MkQ s cap n i) = false) by (unfold mu_queue_is_empty; cbn [q_cnt]; destruct (Z.eqb_spec n 0); [lia|done]).
  assert (Hn1 : to_size p (n - 1) = n - 1) by (apply to_size_id; lia).
  destruct j as [|[|[|[|[|[|[|j] ] ] ] ] ] ]; try lia;
    repeat (cbn [qi_run qi_step bind q_index q_store q_cap q_cnt negb]; fold (ring_idx p cap n i); rewrite ?He, ?Ho, ?Hn1); done.
Qed.
Lemma get_empty_at q j : qrep p q [] -> qi_run p j q GetTest = Ok (q, match j with O => GetTest | _ => Finished (QItem false 0) end).
Proof.
  intros Hr. pose proof (ring_bounds _ _ _ _ _ _ Hr) as (_ & _ & _ & Hn & _). destruct q as [s cap n i]. cbn [q_cnt length Z.of_nat] in Hn. subst n.
  assert (H : forall k q, qi_run p k q (Finished (QItem false 0)) = Ok (q, Finished (QItem false 0))) by (induction k; intros; simpl; done).
  destruct j as [|j]; [done|]. cbn [qi_run qi_step bind]. unfold mu_queue_is_empty. cbn [q_cnt]. simpl. apply H.
Qed.
(** the rest of a get, on whatever queue it finds *)
Lemma fin_get_from q pc e :
  match pc with
  | GetIndex => ld (q_store q) (ring_idx p (q_cap q) (q_cnt q) (q_index q)) = Ok e ->
     qi_finish p q pc = Ok (QItem true e, MkQ (q_store q) (q_cap q) (to_size p (q_cnt q - 1)) (q_index q))
  | GetCount k => ld (q_store q) (ring_idx p (q_cap q) (q_cnt q) k) = Ok e ->
     qi_finish p q pc = Ok (QItem true e, MkQ (q_store q) (q_cap q) (to_size p (q_cnt q - 1)) (q_index q))
  | GetSlot idx => ld (q_store q) idx = Ok e ->
     qi_finish p q pc = Ok (QItem true e, MkQ (q_store q) (q_cap q) (to_size p (q_cnt q - 1)) (q_index q))
  | GetCount2 x => qi_finish p q pc = Ok (QItem true x, MkQ (q_store q) (q_cap q) (to_size p (q_cnt q - 1)) (q_index q))
  | GetSetCount x n => qi_finish p q pc = Ok (QItem true x, MkQ (q_store q) (q_cap q) n (q_index q))
  | _ => True
  end.
Proof.
  destruct q as [s cap n i]. destruct pc; try exact I; unfold qi_finish; try intros H;
    repeat (cbn [qi_run qi_step bind q_index q_store q_cap q_cnt] in *; unfold ring_idx in *; rewrite ?H); done.
Qed.
Lemma get_one q x l : qrep p q (x :: l) ->
  qrun1 p q QGet = Ok (QItem true x, MkQ (q_store q) (q_cap q) (q_cnt q - 1) (q_index q)) /\
  qrep p (MkQ (q_store q) (q_cap q) (q_cnt q - 1) (q_index q)) l.
Proof.
  intros Hr. split; [|eapply ring_get; done]. rewrite <- (C97_alone p CGet). unfold qi_finish. cbn [enter].
  replace 7%nat with (6 + 1)%nat by done. pose proof (get_at_ok q x l 6 Hr ltac:(lia)) as H. cbn [get_at] in H.
  assert (Happ : forall n m q pc, qi_run p (n + m) q pc = let* '(q, pc) := qi_run p n q pc in qi_run p m q pc).
  { induction n as [|n IH]; intros m q1 pc1; [done|]. cbn [Nat.add qi_run]. destruct (qi_step p q1 pc1) as [[q2 pc2]| |]; cbn [bind]; [apply IH|done|done]. }
  rewrite Happ, H. done.
Qed.
Lemma get_none q : qrep p q [] -> qrun1 p q QGet = Ok (QItem false 0, q).
Proof. intros Hr. destruct (access_ok p q [] true Hr) as [[_ E]|(x & l' & q' & E & _)]; [|discriminate]. cbn [qrun1]. unfold mu_queue_get. by rewrite E. Qed.

(** *** a get interrupted by a put *)
Lemma put_in_get q x r b j : qrep p q (x :: r) -> Z.of_nat (length (x :: r)) < q_cap q -> (j <= 6)%nat ->
  exists g q', interrupted p CGet (CPut b) j q = Ok (QItem true (if decide (j = 2%nat) then g else x), QBool true, q') /\ q_cap q' = q_cap q /\
    qrep p q' (if decide (j = 5%nat) then tail (r ++ [b]) else r ++ [b]).
Proof.
  intros Hr Hroom Hj. unfold interrupted. cbn [enter as_op]. rewrite (get_at_ok q x r) by done. cbn [bind].
  pose proof (ring_bounds _ _ _ _ _ _ Hr) as (Hb1 & Hb2 & Hb3 & Hb4 & Hb5 & Hb6). pose proof (ring_oldest p _ _ _ _ _ _ Hr) as Ho.
  destruct q as [s cap n i]. unfold qrep in Hr. cbn [q_store q_cap q_cnt q_index] in *.
  assert (Hi : 0 <= i < cap) by lia. pose proof (nx_range cap i Hi) as Hi1.
  assert (Hn : 0 < n < cap) by (simpl length in *; lia).
  pose proof (ring_put' _ _ _ _ _ b Hr ltac:(lia)) as Hb. pose proof (ring_oldest p _ _ _ _ _ _ Hb) as Hob.
  pose proof (ring_free _ _ _ _ _ b Hr ltac:(lia)) as Hf. pose proof (ring_oldest p _ _ _ _ _ _ Hf) as Hof.
  cbn [app] in Hb, Hob. pose proof (ring_get p _ _ _ _ _ _ Hb) as Hg. replace (n + 1 - 1) with n in Hg by lia.
  assert (Hn1 : to_size p (n + 1 - 1) = n) by (rewrite to_size_id; lia).
  assert (Hput := put_room s cap n i b Hb5 Hb3 ltac:(lia) Hi).
  destruct j as [|[|[|[|[|[|[|j] ] ] ] ] ] ]; try lia; cbn [get_at q_store q_cap q_cnt q_index];
    try (rewrite Hput; cbn [bind]).
  - (* 0 *) change GetTest with (enter CGet). rewrite C97_alone. cbn [as_op].
    destruct (get_one (MkQ (<[Z.to_nat i:=b]> s) cap (n + 1) (nx cap i)) x (r ++ [b]) Hb) as [E H]. rewrite E. cbn [bind].
    exists 0. eexists. split; [done|]. split; [done|]. exact H.
  - rewrite (fin_get_from _ GetIndex x) by exact Hob. cbn [bind q_store q_cap q_cnt q_index]. rewrite Hn1.
    exists 0. eexists. split; [done|]. split; [done|]. exact Hg.
  - destruct (ring_any (<[Z.to_nat i:=b]> s) cap (Z.to_nat (n + 1)) i) as (l' & Hl' & Hr'); [by destruct Hr|by rewrite insert_length|lia|done|].
    rewrite Z2Nat.id in Hr' by lia. destruct l' as [|g l']; [simpl in Hl'; lia|]. pose proof (ring_oldest p _ _ _ _ _ _ Hr') as Hg'.
    rewrite (fin_get_from _ (GetCount i) g) by exact Hg'. cbn [bind q_store q_cap q_cnt q_index]. rewrite Hn1.
    exists g. eexists. split; [done|]. split; [done|]. exact Hg.
  - rewrite (fin_get_from _ (GetSlot (ring_idx p cap n i)) x) by exact Hof. cbn [bind q_store q_cap q_cnt q_index]. rewrite Hn1.
    exists 0. eexists. split; [done|]. split; [done|]. exact Hg.
  - rewrite (fin_get_from _ (GetCount2 x) x). cbn [bind q_store q_cap q_cnt q_index]. rewrite Hn1.
    exists 0. eexists. split; [done|]. split; [done|]. exact Hg.
  - rewrite (fin_get_from _ (GetSetCount x (n - 1)) x). cbn [bind q_store q_cap q_cnt q_index].
    exists 0. eexists. split; [done|]. split; [done|]. cbn [decide]. destruct (r ++ [b]) as [|y r'] eqn:E; [by destruct r|].
    eapply (ring_get p); exact Hg.
  - rewrite put_room by (lia || done). cbn [bind].
    exists 0. eexists. split; [done|]. split; [done|]. apply (ring_get p) in Hr. cbn [q_store q_cap q_cnt q_index]. exact (ring_put' _ _ _ _ _ b Hr ltac:(lia)).
Qed.
Lemma full_put_in_get q x r b j : qrep p q (x :: r) -> Z.of_nat (length (x :: r)) = q_cap q -> (j <= 6)%nat ->
  exists q', interrupted p CGet (CPut b) j q = Ok (QItem true x, QBool (bool_decide (j = 6%nat)), q') /\ q_cap q' = q_cap q /\
    qrep p q' (if decide (j = 6%nat) then r ++ [b] else r).
Proof.
  intros Hr Hroom Hj. unfold interrupted. cbn [enter as_op]. rewrite (get_at_ok q x r) by done. cbn [bind].
  pose proof (ring_bounds _ _ _ _ _ _ Hr) as (Hb1 & Hb2 & Hb3 & Hb4 & Hb5 & Hb6). pose proof (ring_oldest p _ _ _ _ _ _ Hr) as Ho.
  destruct (get_one q x r Hr) as [Eg Hg].
  destruct q as [s cap n i]. unfold qrep in Hr, Hg. cbn [q_store q_cap q_cnt q_index] in *.
  simpl length in *. assert (Hi : 0 <= i < cap) by lia. assert (Hn1 : to_size p (n - 1) = n - 1) by (rewrite to_size_id; lia).
  destruct j as [|[|[|[|[|[|[|j] ] ] ] ] ] ]; try lia; cbn [get_at q_store q_cap q_cnt q_index];
    try (rewrite put_full by lia; cbn [bind]).
  - change GetTest with (enter CGet). rewrite C97_alone. cbn [as_op]. rewrite Eg. cbn [bind]. eexists. split; [done|]. split; [done|]. exact Hg.
  - rewrite (fin_get_from _ GetIndex x) by exact Ho. cbn [bind q_store q_cap q_cnt q_index]. rewrite Hn1. eexists. split; [done|]. split; [done|]. exact Hg.
  - rewrite (fin_get_from _ (GetCount i) x) by exact Ho. cbn [bind q_store q_cap q_cnt q_index]. rewrite Hn1. eexists. split; [done|]. split; [done|]. exact Hg.
  - rewrite (fin_get_from _ (GetSlot (ring_idx p cap n i)) x) by exact Ho. cbn [bind q_store q_cap q_cnt q_index]. rewrite Hn1. eexists. split; [done|]. split; [done|]. exact Hg.
  - rewrite (fin_get_from _ (GetCount2 x) x). cbn [bind q_store q_cap q_cnt q_index]. rewrite Hn1. eexists. split; [done|]. split; [done|]. exact Hg.
  - rewrite (fin_get_from _ (GetSetCount x (n - 1)) x). cbn [bind q_store q_cap q_cnt q_index]. eexists. split; [done|]. split; [done|]. exact Hg.
  - rewrite put_room by (lia || done). cbn [bind]. eexists. split; [done|]. split; [done|]. exact (ring_put' _ _ _ _ _ _ Hg ltac:(lia)).
Qed.
Lemma put_in_get_empty q b j : qrep p q [] -> 0 < q_cap q ->
  exists q', interrupted p CGet (CPut b) j q = Ok (if decide (j = O) then QItem true b else QItem false 0, QBool true, q') /\ q_cap q' = q_cap q /\
    qrep p q' (if decide (j = O) then [] else [b]).
Proof.
  intros Hr Hc. unfold interrupted. cbn [enter as_op]. rewrite get_empty_at by done. cbn [bind].
  pose proof (ring_bounds _ _ _ _ _ _ Hr) as (Hb1 & Hb2 & Hb3 & Hb4 & Hb5 & Hb6).
  destruct q as [s cap n i]. unfold qrep in Hr. cbn [q_store q_cap q_cnt q_index] in *. cbn [length Z.of_nat] in Hb4.
  rewrite put_room by lia. cbn [bind]. pose proof (ring_put' _ _ _ _ _ b Hr ltac:(lia)) as Hb. destruct j as [|j].
  - change GetTest with (enter CGet). rewrite C97_alone. cbn [as_op].
    destruct (get_one (MkQ (<[Z.to_nat i:=b]> s) cap (n + 1) (nx cap i)) b [] Hb) as [E H]. rewrite E. cbn [bind].
    eexists. split; [done|]. split; [done|]. exact H.
  - eexists. split; [done|]. split; [done|]. exact Hb.
Qed.

(** *** a put interrupted by a get *)
Lemma get_in_put q x r a j : qrep p q (x :: r) -> Z.of_nat (length (x :: r)) < q_cap q -> (j <= 7)%nat ->
  exists q', interrupted p (CPut a) CGet j q =
      Ok (QBool true, QItem true (if decide (j = 5 \/ j = 6)%nat then hd 0 (r ++ [a]) else x), q') /\ q_cap q' = q_cap q /\
    qrep p q' (if decide (j = 6%nat) then x :: r ++ [a] else r ++ [a]).
Proof.
  intros Hr Hroom Hj. pose proof (ring_bounds _ _ _ _ _ _ Hr) as (Hb1 & Hb2 & Hb3 & Hb4 & Hb5 & Hb6).
  destruct (get_one q x r Hr) as [Eg Hg].
  destruct q as [s cap n i]. unfold qrep in Hr, Hg. cbn [q_store q_cap q_cnt q_index] in *.
  assert (Hi : 0 <= i < cap) by lia. pose proof (nx_range cap i Hi) as Hi1.
  assert (Hn : 0 < n < cap) by (simpl length in *; lia).
  pose proof (ring_put' _ _ _ _ _ a Hr ltac:(lia)) as Ha.
  pose proof (ring_free _ _ _ _ _ a Hr ltac:(lia)) as Hf.
  pose proof (ring_put' _ _ _ _ _ a Hg ltac:(lia)) as Hga.
  unfold interrupted. cbn [enter as_op]. rewrite put_at_ok by (lia || done). cbn [bind].
  assert (Hend : forall s', s' = <[Z.to_nat i:=a]> s -> qrep p (MkQ s' cap (n - 1 + 1) (nx cap i)) (r ++ [a])).
  { intros s' ->. exact Hga. }
  destruct j as [|[|[|[|[|[|[|[|j] ] ] ] ] ] ] ]; try lia; cbn [put_at].
  - rewrite Eg. cbn [bind]. rewrite fin_put by (lia || done). eexists. split; [done|]. split; [done|]. by apply Hend.
  - rewrite Eg. cbn [bind]. rewrite (fin_put_from _ _ _ _ (PutIndex a)) by (lia || done). eexists. split; [done|]. split; [done|]. by apply Hend.
  - rewrite Eg. cbn [bind]. rewrite (fin_put_from _ _ _ _ (PutSlot a i)) by (lia || done). eexists. split; [done|]. split; [done|]. by apply Hend.
  - destruct (get_one (MkQ (<[Z.to_nat i:=a]> s) cap n i) x r Hf) as [E H]. rewrite E. cbn [bind q_store q_cap q_cnt q_index].
    rewrite (fin_put_from _ _ _ _ PutIndex2) by (rewrite ?insert_length; lia || done). eexists. split; [done|]. split; [done|]. by apply Hend.
  - destruct (get_one (MkQ (<[Z.to_nat i:=a]> s) cap n i) x r Hf) as [E H]. rewrite E. cbn [bind q_store q_cap q_cnt q_index].
    rewrite (fin_put_from _ _ _ _ (PutSetIndex (nx cap i))) by (rewrite ?insert_length; lia || done). eexists. split; [done|]. split; [done|]. by apply Hend.
  - specialize (Hend _ eq_refl). replace (n - 1 + 1) with n in Hend by lia.
    destruct (r ++ [a]) as [|y r'] eqn:Er; [by destruct r|].
    destruct (get_one _ y r' Hend) as [E H]. cbn [q_store q_cap q_cnt q_index] in E. rewrite E. cbn [bind].
    rewrite (fin_put_from _ _ _ _ PutCount) by (rewrite ?insert_length; lia || done). eexists. split; [done|]. split; [done|].
    replace (n - 1 + 1) with n by lia. exact Hend.
  - specialize (Hend _ eq_refl). replace (n - 1 + 1) with n in Hend by lia.
    destruct (r ++ [a]) as [|y r'] eqn:Er; [by destruct r|].
    destruct (get_one _ y r' Hend) as [E H]. cbn [q_store q_cap q_cnt q_index] in E. rewrite E. cbn [bind].
    rewrite (fin_put_from _ _ _ _ (PutSetCount (n + 1))) by (rewrite ?insert_length; lia || done). eexists. split; [done|]. split; [done|].
    cbn [app] in Ha. rewrite Er in Ha. exact Ha.
  - destruct (get_one (MkQ (<[Z.to_nat i:=a]> s) cap (n + 1) (nx cap i)) x (r ++ [a]) Ha) as [E H]. rewrite E. cbn [bind].
    eexists. split; [done|]. split; [done|]. exact H.
Qed.
Lemma get_in_put_empty q a j : qrep p q [] -> 0 < q_cap q -> (j <= 7)%nat ->
  exists q', interrupted p (CPut a) CGet j q = Ok (QBool true, if decide (j = 7%nat) then QItem true a else QItem false 0, q') /\ q_cap q' = q_cap q /\
    qrep p q' (if decide (j = 7%nat) then [] else [a]).
Proof.
  intros Hr Hc Hj. pose proof (ring_bounds _ _ _ _ _ _ Hr) as (Hb1 & Hb2 & Hb3 & Hb4 & Hb5 & Hb6).
  destruct q as [s cap n i]. unfold qrep in Hr. cbn [q_store q_cap q_cnt q_index] in *. cbn [length Z.of_nat] in Hb4. subst n.
  assert (Hi : 0 <= i < cap) by lia. pose proof (nx_range cap i Hi) as Hi1.
  pose proof (ring_put' _ _ _ _ _ a Hr ltac:(lia)) as Ha. pose proof (ring_free _ _ _ _ _ a Hr ltac:(lia)) as Hf.
  assert (Hx : ringrep p (<[Z.to_nat i:=a]> s) cap 0 (nx cap i) []).
  { destruct Hf as (H1 & H2 & H3 & H4 & H5 & H6). unfold ringrep. split_and!; try done. by left. }
  unfold interrupted. cbn [enter as_op]. rewrite put_at_ok by (lia || done). cbn [bind].
  destruct j as [|[|[|[|[|[|[|[|j] ] ] ] ] ] ] ]; try lia; cbn [put_at].
  - rewrite get_none by exact Hr. cbn [bind]. rewrite fin_put by (lia || done). eexists. split; [done|]. split; [done|]. exact Ha.
  - rewrite get_none by exact Hr. cbn [bind]. rewrite (fin_put_from _ _ _ _ (PutIndex a)) by (lia || done). eexists. split; [done|]. split; [done|]. exact Ha.
  - rewrite get_none by exact Hr. cbn [bind]. rewrite (fin_put_from _ _ _ _ (PutSlot a i)) by (lia || done). eexists. split; [done|]. split; [done|]. exact Ha.
  - rewrite get_none by exact Hf. cbn [bind]. rewrite (fin_put_from _ _ _ _ PutIndex2) by (rewrite ?insert_length; lia || done). eexists. split; [done|]. split; [done|]. exact Ha.
  - rewrite get_none by exact Hf. cbn [bind]. rewrite (fin_put_from _ _ _ _ (PutSetIndex (nx cap i))) by (rewrite ?insert_length; lia || done). eexists. split; [done|]. split; [done|]. exact Ha.
  - rewrite get_none by exact Hx. cbn [bind]. rewrite (fin_put_from _ _ _ _ PutCount) by (rewrite ?insert_length; lia || done). eexists. split; [done|]. split; [done|]. exact Ha.
  - rewrite get_none by exact Hx. cbn [bind]. rewrite (fin_put_from _ _ _ _ (PutSetCount (0 + 1))) by (rewrite ?insert_length; lia || done). eexists. split; [done|]. split; [done|]. exact Ha.
  - destruct (get_one (MkQ (<[Z.to_nat i:=a]> s) cap 1 (nx cap i)) a [] Ha) as [E H]. change (Z.of_nat 0 + 1) with 1. rewrite E. cbn [bind].
    eexists. split; [done|]. split; [done|]. exact H.
Qed.
Lemma get_in_put_full q x r a j : qrep p q (x :: r) -> Z.of_nat (length (x :: r)) = q_cap q ->
  exists q', interrupted p (CPut a) CGet j q = Ok (QBool (bool_decide (j = O)), QItem true x, q') /\ q_cap q' = q_cap q /\
    qrep p q' (if decide (j = O) then r ++ [a] else r).
Proof.
  intros Hr Hfull. pose proof (ring_bounds _ _ _ _ _ _ Hr) as (Hb1 & Hb2 & Hb3 & Hb4 & Hb5 & Hb6). destruct (get_one q x r Hr) as [Eg Hg].
  destruct q as [s cap n i]. unfold qrep in Hr, Hg. cbn [q_store q_cap q_cnt q_index] in *. simpl length in *.
  assert (H : forall k q, qi_run p k q (Finished (QBool false)) = Ok (q, Finished (QBool false))) by (induction k; intros; simpl; done).
  unfold interrupted. cbn [enter as_op]. destruct j as [|j].
  - cbn [qi_run bind]. rewrite Eg. cbn [bind]. rewrite fin_put by lia. eexists. split; [done|]. split; [done|]. exact (ring_put' _ _ _ _ _ _ Hg ltac:(lia)).
  - cbn [qi_run qi_step bind]. unfold mu_queue_is_full. cbn [q_cnt q_cap]. rewrite (proj2 (Z.eqb_eq n cap)) by lia. cbn [negb]. rewrite H. cbn [bind].
    rewrite Eg. cbn [bind]. eexists. split; [done|]. split; [done|]. exact Hg.
Qed.

(** *** a get interrupted by a get *)
Lemma get_in_get q x y r j : qrep p q (x :: y :: r) -> (j <= 6)%nat ->
  exists q', interrupted p CGet CGet j q =
      Ok (QItem true (if decide (j <= 2)%nat then y else x), QItem true (if decide (j = 6%nat) then y else x), q') /\ q_cap q' = q_cap q /\
    qrep p q' (if decide (j = 5%nat) then y :: r else r).
Proof.
  intros Hr Hj. unfold interrupted. cbn [enter as_op]. rewrite (get_at_ok q x (y :: r)) by done. cbn [bind].
  pose proof (ring_bounds _ _ _ _ _ _ Hr) as (Hb1 & Hb2 & Hb3 & Hb4 & Hb5 & Hb6). pose proof (ring_oldest p _ _ _ _ _ _ Hr) as Ho.
  destruct (get_one q x (y :: r) Hr) as [Eg Hg]. destruct (get_one _ y r Hg) as [Eg2 Hg2].
  destruct q as [s cap n i]. unfold qrep in Hr, Hg, Hg2. cbn [q_store q_cap q_cnt q_index] in *. simpl length in *.
  pose proof (ring_oldest p _ _ _ _ _ _ Hg) as Hog.
  assert (Hn1 : to_size p (n - 1 - 1) = n - 1 - 1) by (rewrite to_size_id; lia).
  destruct j as [|[|[|[|[|[|[|j] ] ] ] ] ] ]; try lia; cbn [get_at q_store q_cap q_cnt q_index].
  - rewrite Eg. cbn [bind]. change GetTest with (enter CGet). rewrite C97_alone. cbn [as_op]. rewrite Eg2. cbn [bind]. eexists. split; [done|]. split; [done|]. exact Hg2.
  - rewrite Eg. cbn [bind]. rewrite (fin_get_from _ GetIndex y) by exact Hog. cbn [bind q_store q_cap q_cnt q_index]. rewrite Hn1. eexists. split; [done|]. split; [done|]. exact Hg2.
  - rewrite Eg. cbn [bind]. rewrite (fin_get_from _ (GetCount i) y) by exact Hog. cbn [bind q_store q_cap q_cnt q_index]. rewrite Hn1. eexists. split; [done|]. split; [done|]. exact Hg2.
  - rewrite Eg. cbn [bind]. rewrite (fin_get_from _ (GetSlot (ring_idx p cap n i)) x) by exact Ho. cbn [bind q_store q_cap q_cnt q_index]. rewrite Hn1. eexists. split; [done|]. split; [done|]. exact Hg2.
  - rewrite Eg. cbn [bind]. rewrite (fin_get_from _ (GetCount2 x) x). cbn [bind q_store q_cap q_cnt q_index]. rewrite Hn1. eexists. split; [done|]. split; [done|]. exact Hg2.
  - rewrite Eg. cbn [bind]. rewrite (fin_get_from _ (GetSetCount x (n - 1)) x). cbn [bind q_store q_cap q_cnt q_index]. eexists. split; [done|]. split; [done|]. exact Hg.
  - rewrite Eg2. cbn [bind]. eexists. split; [done|]. split; [done|]. exact Hg2.
Qed.
(** of one item only: the count underflows *)
Lemma get_in_get_last q x j : qrep p q [x] -> (j <= 6)%nat ->
  exists g oo oi q', interrupted p CGet CGet j q = Ok (oo, oi, q') /\ q_cap q' = q_cap q /\
    oi = (if decide (j = 6%nat) then QItem false 0 else QItem true x) /\
    match j with
    | 0%nat => oo = QItem false 0 /\ qrep p q' []
    | 1%nat | 2%nat => oo = QItem true g /\ mu_queue_count q' = size_max p
    | 3%nat | 4%nat => oo = QItem true x /\ mu_queue_count q' = size_max p
    | _ => oo = QItem true x /\ qrep p q' []
    end.
Proof.
  intros Hr Hj. unfold interrupted. cbn [enter as_op]. rewrite (get_at_ok q x []) by done. cbn [bind].
  pose proof (ring_bounds _ _ _ _ _ _ Hr) as (Hb1 & Hb2 & Hb3 & Hb4 & Hb5 & Hb6). pose proof (ring_oldest p _ _ _ _ _ _ Hr) as Ho.
  destruct (get_one q x [] Hr) as [Eg Hg].
  destruct q as [s cap n i]. unfold qrep in Hr, Hg. cbn [q_store q_cap q_cnt q_index] in *. simpl length in *.
  change (Z.of_nat 1) with 1 in Hb4. subst n. cbn [Z.sub Z.add Z.opp Z.pos_sub] in *.
  assert (Hi : 0 <= i < cap) by lia.
  assert (Hidx : ring_idx p cap 0 i = i).
  { unfold ring_idx. rewrite !to_size_id by (rewrite ?to_size_id; lia). destruct (Z.leb_spec cap (cap + i - 0)); lia. }
  destruct (ld_ex s i) as (g & _ & Hgl); [lia|]. rewrite <- Hidx in Hgl at 1.
  destruct j as [|[|[|[|[|[|[|j] ] ] ] ] ] ]; try lia; cbn [get_at q_store q_cap q_cnt q_index].
  - rewrite Eg. cbn [bind]. change GetTest with (enter CGet). rewrite C97_alone. cbn [as_op]. rewrite get_none by exact Hg. cbn [bind].
    exists 0. eexists _, _, _. split; [done|]. do 3 (split; [done|]). exact Hg.
  - rewrite Eg. cbn [bind]. rewrite (fin_get_from _ GetIndex g) by exact Hgl. cbn [bind q_store q_cap q_cnt q_index].
    exists g. eexists _, _, _. split; [done|]. do 3 (split; [done|]). apply to_size_neg1.
  - rewrite Eg. cbn [bind]. rewrite (fin_get_from _ (GetCount i) g) by exact Hgl. cbn [bind q_store q_cap q_cnt q_index].
    exists g. eexists _, _, _. split; [done|]. do 3 (split; [done|]). apply to_size_neg1.
  - rewrite Eg. cbn [bind]. rewrite (fin_get_from _ (GetSlot (ring_idx p cap 1 i)) x) by exact Ho. cbn [bind q_store q_cap q_cnt q_index].
    exists 0. eexists _, _, _. split; [done|]. do 3 (split; [done|]). apply to_size_neg1.
  - rewrite Eg. cbn [bind]. rewrite (fin_get_from _ (GetCount2 x) x). cbn [bind q_store q_cap q_cnt q_index].
    exists 0. eexists _, _, _. split; [done|]. do 3 (split; [done|]). apply to_size_neg1.
  - rewrite Eg. cbn [bind]. rewrite (fin_get_from _ (GetSetCount x 0) x). cbn [bind q_store q_cap q_cnt q_index].
    exists 0. eexists _, _, _. split; [done|]. do 3 (split; [done|]). exact Hg.
  - rewrite get_none by exact Hg. cbn [bind]. exists 0. eexists _, _, _. split; [done|]. do 3 (split; [done|]). exact Hg.
Qed.
End proofs.

(** ** C97 *)
(** [q] is the queue on [storage] after the calls [ops]; it holds [l] *)
Definition after_calls (p : plat) (storage : list Z) (ops : list qop) (q : mqueue) (l : list Z) : Prop :=
  let cap := Z.of_nat (length storage) in
  valid_cap p cap /\ (exists os, qrun p (mu_queue_init storage cap) ops = Ok (os, q)) /\ l = snd (fifo_run cap [] ops).
Lemma after_rep p storage ops q l : after_calls p storage ops q l -> qrep p q l /\ q_cap q = Z.of_nat (length storage).
Proof.
  intros (Hv & (os & E) & ->).
  assert (H0 : qrep p (mu_queue_init storage (Z.of_nat (length storage))) []) by (by apply ring_init).
  destruct (qrun_ok p ops _ _ H0) as (q' & E' & Hc & Hr). cbn [mu_queue_init mu_queue_reset q_cap] in *.
  rewrite E in E'. injection E' as _ <-. done.
Qed.
Lemma rep_holds p q l cap : qrep p q l -> q_cap q = cap -> holds p cap q l.
Proof. intros H <-. by apply qrep_holds. Qed.

(** mu_queue_put(a) interrupted by mu_queue_put(b). *)
Theorem C97_put_in_put : forall p storage ops q l a b j, after_calls p storage ops q l -> (j <= 7)%nat ->
  let cap := Z.of_nat (length storage) in
  let r := interrupted p (CPut a) (CPut b) j q in
  (* room for both: both calls succeed, but the right two items are there only if j = 0, 1, 5 or 7 *)
  (Z.of_nat (length l) + 2 <= cap -> exists g q', r = Ok (QBool true, QBool true, q') /\
     holds p cap q' (match j with
                     | 0%nat | 1%nat => l ++ [b; a]
                     | 2%nat => l ++ [a; g]
                     | 3%nat => l ++ [b; g]
                     | 4%nat => g :: l ++ [b]
                     | 6%nat => tail (l ++ [a; b])
                     | _ => l ++ [a; b]
                     end)) /\
  (* room for one: unless the interrupt comes before or after, both calls succeed; the
     count exceeds the capacity, or the oldest item is lost *)
  (Z.of_nat (length l) + 1 = cap -> exists q',
     match j with
     | 0%nat => r = Ok (QBool false, QBool true, q') /\ holds p cap q' (l ++ [b])
     | 7%nat => r = Ok (QBool true, QBool false, q') /\ holds p cap q' (l ++ [a])
     | 6%nat => r = Ok (QBool true, QBool true, q') /\ holds p cap q' (tail (l ++ [a; b]))
     | _ => r = Ok (QBool true, QBool true, q') /\ mu_queue_count q' = cap + 1
     end).
Proof.
  intros p storage ops q l a b j Ha Hj cap r. apply after_rep in Ha as [Hr Hc]. split; intros Hroom.
  - destruct (put_in_put p q l a b j Hr) as (g & q' & E & Hc' & H); [lia|done|]. exists g, q'. split; [done|].
    apply rep_holds; [exact H|unfold cap; congruence].
  - destruct (put_in_put_last p q l a b j Hr) as (oo & oi & q' & E & Hc' & H); [lia|done|]. exists q'. unfold r. rewrite E.
    destruct j as [|[|[|[|[|[|[|[|j] ] ] ] ] ] ] ]; try lia; destruct H as (-> & -> & H); (split; [done|]);
      first [rewrite H; unfold cap; lia|apply rep_holds; [exact H|unfold cap; congruence] ].
Qed.
Print Assumptions C97_put_in_put.

(** mu_queue_get interrupted by mu_queue_put(b).  The put is refused only if the queue is
    full.  If it comes between the loads of index and count, the get returns an arbitrary
    old slot and the oldest item is lost; if it comes between the load and the store of the
    final count, one more item is lost. *)
Theorem C97_put_in_get : forall p storage ops q l b j, after_calls p storage ops q l -> (j <= 6)%nat ->
  let cap := Z.of_nat (length storage) in
  let r := interrupted p CGet (CPut b) j q in
  match l with
  | [] => 0 < cap -> exists q', if decide (j = 0%nat) then r = Ok (QItem true b, QBool true, q') /\ holds p cap q' []
                               else r = Ok (QItem false NULL, QBool true, q') /\ holds p cap q' [b]
  | x :: l' =>
     (Z.of_nat (length l) < cap -> exists g q',
        match j with
        | 2%nat => r = Ok (QItem true g, QBool true, q') /\ holds p cap q' (l' ++ [b])
        | 5%nat => r = Ok (QItem true x, QBool true, q') /\ holds p cap q' (tail (l' ++ [b]))
        | _ => r = Ok (QItem true x, QBool true, q') /\ holds p cap q' (l' ++ [b])
        end) /\
     (Z.of_nat (length l) = cap -> exists q',
        if decide (j = 6%nat) then r = Ok (QItem true x, QBool true, q') /\ holds p cap q' (l' ++ [b])
        else r = Ok (QItem true x, QBool false, q') /\ holds p cap q' l')
  end.
Proof.
  intros p storage ops q l b j Ha Hj cap r. apply after_rep in Ha as [Hr Hc]. destruct l as [|x l].
  - intros Hp. destruct (put_in_get_empty p q b j Hr) as (q' & E & Hc' & H); [lia|]. exists q'. unfold r. rewrite E.
    destruct (decide _); (split; [done|]); (apply rep_holds; [exact H|unfold cap; congruence]).
  - split; intros Hroom.
    + destruct (put_in_get p q x l b j Hr) as (g & q' & E & Hc' & H); [lia|done|]. exists g, q'. unfold r. rewrite E.
      destruct j as [|[|[|[|[|[|[|j] ] ] ] ] ] ]; try lia; (split; [done|]); (apply rep_holds; [exact H|unfold cap; congruence]).
    + destruct (full_put_in_get p q x l b j Hr) as (q' & E & Hc' & H); [lia|done|]. exists q'. unfold r. rewrite E.
      destruct (decide _) as [Hd|Hd]; [rewrite bool_decide_true by done|rewrite bool_decide_false by done];
        (split; [done|]); (apply rep_holds; [exact H|unfold cap; congruence]).
Qed.
Print Assumptions C97_put_in_get.

(** mu_queue_put(a) interrupted by mu_queue_get.  After the store of the index the get
    returns the item after the oldest one: either the oldest one is lost and the returned
    one stays, or nothing at all is removed. *)
Theorem C97_get_in_put : forall p storage ops q l a j, after_calls p storage ops q l -> (j <= 7)%nat ->
  let cap := Z.of_nat (length storage) in
  let r := interrupted p (CPut a) CGet j q in
  match l with
  | [] => 0 < cap -> exists q', if decide (j = 7%nat) then r = Ok (QBool true, QItem true a, q') /\ holds p cap q' []
                               else r = Ok (QBool true, QItem false NULL, q') /\ holds p cap q' [a]
  | x :: l' =>
     (Z.of_nat (length l) < cap -> exists q',
        match j with
        | 5%nat => r = Ok (QBool true, QItem true (hd NULL (l' ++ [a])), q') /\ holds p cap q' (l' ++ [a])
        | 6%nat => r = Ok (QBool true, QItem true (hd NULL (l' ++ [a])), q') /\ holds p cap q' (x :: l' ++ [a])
        | _ => r = Ok (QBool true, QItem true x, q') /\ holds p cap q' (l' ++ [a])
        end) /\
     (Z.of_nat (length l) = cap -> exists q',
        if decide (j = 0%nat) then r = Ok (QBool true, QItem true x, q') /\ holds p cap q' (l' ++ [a])
        else r = Ok (QBool false, QItem true x, q') /\ holds p cap q' l')
  end.
Proof.
  intros p storage ops q l a j Ha Hj cap r. apply after_rep in Ha as [Hr Hc]. destruct l as [|x l].
  - intros Hp. destruct (get_in_put_empty p q a j Hr) as (q' & E & Hc' & H); [lia|done|]. exists q'. unfold r. rewrite E.
    destruct (decide _); (split; [done|]); (apply rep_holds; [exact H|unfold cap; congruence]).
  - split; intros Hroom.
    + destruct (get_in_put p q x l a j Hr) as (q' & E & Hc' & H); [lia|done|]. exists q'. unfold r. rewrite E.
      destruct j as [|[|[|[|[|[|[|[|j] ] ] ] ] ] ] ]; try lia; (split; [done|]); (apply rep_holds; [exact H|unfold cap; congruence]).
    + destruct (get_in_put_full p q x l a j Hr) as (q' & E & Hc' & H); [lia|]. exists q'. unfold r. rewrite E.
      destruct (decide _) as [Hd|Hd]; [rewrite bool_decide_true by done|rewrite bool_decide_false by done];
        (split; [done|]); (apply rep_holds; [exact H|unfold cap; congruence]).
Qed.
Print Assumptions C97_get_in_put.

(** mu_queue_get interrupted by mu_queue_get: both may return the oldest item, and the next
    one may be lost; of a single item, the count may become SIZE_MAX. *)
Theorem C97_get_in_get : forall p storage ops q l j, after_calls p storage ops q l -> (j <= 6)%nat ->
  let cap := Z.of_nat (length storage) in
  let r := interrupted p CGet CGet j q in
  match l with
  | [] => exists q', r = Ok (QItem false NULL, QItem false NULL, q') /\ holds p cap q' []
  | [x] => exists g q',
     match j with
     | 0%nat => r = Ok (QItem false NULL, QItem true x, q') /\ holds p cap q' []
     | 1%nat | 2%nat => r = Ok (QItem true g, QItem true x, q') /\ mu_queue_count q' = size_max p
     | 3%nat | 4%nat => r = Ok (QItem true x, QItem true x, q') /\ mu_queue_count q' = size_max p
     | 5%nat => r = Ok (QItem true x, QItem true x, q') /\ holds p cap q' []
     | _ => r = Ok (QItem true x, QItem false NULL, q') /\ holds p cap q' []
     end
  | x :: y :: l' => exists q',
     match j with
     | 0%nat | 1%nat | 2%nat => r = Ok (QItem true y, QItem true x, q') /\ holds p cap q' l'
     | 3%nat | 4%nat => r = Ok (QItem true x, QItem true x, q') /\ holds p cap q' l'
     | 5%nat => r = Ok (QItem true x, QItem true x, q') /\ holds p cap q' (y :: l')
     | _ => r = Ok (QItem true x, QItem true y, q') /\ holds p cap q' l'
     end
  end.
Proof.
  intros p storage ops q l j Ha Hj cap r. apply after_rep in Ha as [Hr Hc]. destruct l as [|x [|y l] ].
  - exists q. unfold r, interrupted. cbn [enter as_op]. rewrite get_empty_at by done. cbn [bind]. rewrite get_none by done. cbn [bind].
    split; [|by apply rep_holds]. destruct j; [|done]. change GetTest with (enter CGet). rewrite C97_alone. cbn [as_op]. by rewrite get_none.
  - destruct (get_in_get_last p q x j Hr Hj) as (g & oo & oi & q' & E & Hc' & -> & H). exists g, q'. unfold r. rewrite E.
    destruct j as [|[|[|[|[|[|[|j] ] ] ] ] ] ]; try lia; destruct H as [-> H]; (split; [done|]);
      first [exact H|apply rep_holds; [exact H|unfold cap; congruence] ].
  - destruct (get_in_get p q x y l j Hr Hj) as (q' & E & Hc' & H). exists q'. unfold r. rewrite E.
    destruct j as [|[|[|[|[|[|[|j] ] ] ] ] ] ]; try lia; (split; [done|]); (apply rep_holds; [exact H|unfold cap; congruence]).
Qed.
Print Assumptions C97_get_in_get.

(** After such an interrupt a later, ordinary call can access memory out of bounds: a queue
    of two with one item; two puts, interrupted between the load and the store of the
    index; then a get.  Likewise two gets of the last item, then one more. *)
Theorem C97_refuted : forall p,
  exists q, after_calls p [0; 0] [QPut 1] q [1] /\
  (exists q', interrupted p (CPut 2) (CPut 3) 4 q = Ok (QBool true, QBool true, q') /\ mu_queue_get p q' = UB) /\
  (exists q', interrupted p CGet CGet 3 q = Ok (QItem true 1, QItem true 1, q') /\ mu_queue_get p q' = UB).
Proof.
  intros p. exists (MkQ [1; 0] 2 1 1). split; [|split].
  - split; [split; destruct p; vm_compute; discriminate|]. split; [eexists; destruct p; vm_compute; reflexivity|reflexivity].
  - exists (MkQ [1; 3] 2 3 0). split; [destruct p; vm_compute; reflexivity|].
    unfold mu_queue_get, access_queue. cbn [mu_queue_is_empty q_cnt q_cap q_index q_store Z.eqb negb Z.sub Z.add Z.opp Z.pos_sub Pos.add].
    rewrite ld_ub; [done|]. right. destruct p; vm_compute; discriminate.
  - exists (MkQ [1; 0] 2 (size_max p) 1). split; destruct p; vm_compute; reflexivity.
Qed.
Print Assumptions C97_refuted.
(** two items in a queue of four: what the eight interrupted puts leave (9: old content) *)
Example C97_example : forall p, after_calls p [9;9;9;9] [QPut 1; QPut 2] (MkQ [1;2;9;9] 4 2 2) [1;2] /\
  map (fun j => match interrupted p (CPut 3) (CPut 4) j (MkQ [1;2;9;9] 4 2 2) with
                | Ok (_, _, q) => match qrun p q [QGet; QGet; QGet; QGet] with Ok (os, _) => os | _ => [] end
                | _ => [] end) [0;1;2;3;4;5;6;7]%nat =
  map (map (fun x => QItem (negb (x =? 0)) x)) [[1;2;4;3]; [1;2;4;3]; [1;2;3;9]; [1;2;4;9]; [9;1;2;4]; [1;2;3;4]; [2;3;4;0]; [1;2;3;4]].
Proof.
  intros p. split.
  - split; [split; destruct p; vm_compute; discriminate|]. split; [eexists; destruct p; vm_compute; reflexivity|reflexivity].
  - destruct p; vm_compute; reflexivity.
Qed.
