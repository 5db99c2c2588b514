(** * Properties C85-C87 (mu_spsc): wait-freedom, interrupts during a reset, nested interrupts *)
From Verif Require Import CSem FifoSpec SpscModel SpscProofs SpscProps.

(** ** C85: both calls are wait-free *)
Global Instance label_dec (a b : label) : Decision (a = b).
Proof. unfold Decision. decide equality; apply Z.eq_dec. Defined.

(** accesses a call in progress still makes at most *)
Definition pleft (p : ppc) : nat :=
  match p with
  | PIdle => 0 | PLoadTail _ => 5 | PLoadHead _ _ => 4 | PLoadTail2 _ _ => 3 | PWriteSlot _ _ _ => 2 | PStoreTail _ _ => 1
  end.
Definition pitem (p : ppc) : option Z :=
  match p with
  | PIdle => None
  | PLoadTail x | PLoadHead x _ | PLoadTail2 x _ | PWriteSlot x _ _ | PStoreTail x _ => Some x
  end.
Definition cleft (c : cpc) : nat :=
  match c with
  | CIdle => 0 | CLoadHead => 6 | CLoadTail _ => 5 | CLoadHead2 => 4 | CReadSlot _ => 3 | CLoadHead3 _ => 2 | CStoreHead _ _ => 1
  end.
(** the first response of a put (get) in a trace *)
Fixpoint first_put_resp (evs : list sev) : option (Z * bool) :=
  match evs with [] => None | RespPut x b :: _ => Some (x, b) | _ :: r => first_put_resp r end.
Fixpoint first_get_resp (evs : list sev) : option (bool * Z) :=
  match evs with [] => None | RespGet b v :: _ => Some (b, v) | _ :: r => first_get_resp r end.
Definition turns (l : label) (sched : list label) : nat := length (filter (fun l' => l' = l) sched).

Lemma crun_app_ex size : forall l1 l2 s l, inv size s l ->
  exists s1 e1 s2 e2, crun s l1 = Ok (s1, e1) /\ (exists l', inv size s1 l') /\
    crun s1 l2 = Ok (s2, e2) /\ crun s (l1 ++ l2) = Ok (s2, e1 ++ e2).
Proof.
  induction l1 as [|a l1 IH]; intros l2 s l Hi.
  - destruct (crun_ok size l2 s l Hi) as (s2 & e2 & l' & E & _). exists s, [], s2, e2. simpl. rewrite E. eauto.
  - destruct (cstep_ok size s l a Hi) as (s1 & e1 & l1' & E & Hi1 & _).
    destruct (IH l2 s1 l1' Hi1) as (s2 & e2 & s3 & e3 & E2 & Hi2 & E3 & E23).
    exists s2, (e1 ++ e2), s3, e3. cbn [crun app]. rewrite E. cbn [bind]. rewrite E2, E23. cbn [bind].
    rewrite <- app_assoc. done.
Qed.

Lemma first_put_app e1 e2 : first_put_resp (e1 ++ e2) =
  match first_put_resp e1 with Some r => Some r | None => first_put_resp e2 end.
Proof. induction e1 as [|[] e1 IH]; simpl; try done. Qed.
Lemma first_get_app e1 e2 : first_get_resp (e1 ++ e2) =
  match first_get_resp e1 with Some r => Some r | None => first_get_resp e2 end.
Proof. induction e1 as [|[] e1 IH]; simpl; try done. Qed.

Lemma pstep_prog s lab s' evs x : cstep s lab = Ok (s', evs) -> pitem (c_p s) = Some x ->
  (exists b, first_put_resp evs = Some (x, b)) \/
  (first_put_resp evs = None /\ pitem (c_p s') = Some x /\
   (pleft (c_p s') + (if decide (lab = LP) then 1 else 0) <= pleft (c_p s))%nat).
Proof.
  intros E Hx. destruct s as [q p c]. cbn [c_p c_q c_c] in *. destruct lab; cbn [cstep c_p c_q c_c] in E.
  - rewrite decide_False by done. destruct p; try done; injection E as <- <-; right; simpl in *; split; done || lia.
  - rewrite decide_False by done. destruct c; injection E as <- <-; right; simpl; (split; [done|split; [done|lia]]).
  - rewrite decide_True by done. destruct p; try done; simpl in Hx; injection Hx as ->.
    + injection E as <- <-. right. simpl. split; [done|split; [done|lia]].
    + destruct (_ =? _); injection E as <- <-; [left; eauto|right]. simpl. split; [done|split; [done|lia]].
    + injection E as <- <-. right. simpl. split; [done|split; [done|lia]].
    + destruct (st _ _ _); try discriminate. simpl in E. injection E as <- <-. right. simpl. split; [done|split; [done|lia]].
    + injection E as <- <-. left. simpl. eauto.
  - rewrite decide_False by done. destruct c; try (injection E as <- <-; right; simpl; (split; [done|split; [done|lia]])).
    + destruct (_ =? _); injection E as <- <-; right; simpl; (split; [done|split; [done|lia]]).
    + destruct (ld _ _); try discriminate. simpl in E. injection E as <- <-. right. simpl. (split; [done|split; [done|lia]]).
Qed.
Lemma gstep_prog s lab s' evs : cstep s lab = Ok (s', evs) -> c_c s <> CIdle ->
  (exists r, first_get_resp evs = Some r) \/
  (first_get_resp evs = None /\ c_c s' <> CIdle /\
   (cleft (c_c s') + (if decide (lab = LC) then 1 else 0) <= cleft (c_c s))%nat).
Proof.
  intros E Hx. destruct s as [q p c]. cbn [c_p c_q c_c] in *. destruct lab; cbn [cstep c_p c_q c_c] in E.
  - rewrite decide_False by done. destruct p; injection E as <- <-; right; simpl; (split; [done|split; [done|lia]]).
  - rewrite decide_False by done. destruct c; try done; injection E as <- <-; right; simpl; (split; [done|split; [done|lia]]).
  - rewrite decide_False by done. destruct p; try (injection E as <- <-; right; simpl; (split; [done|split; [done|lia]])).
    + destruct (_ =? _); injection E as <- <-; right; simpl; (split; [done|split; [done|lia]]).
    + destruct (st _ _ _); try discriminate. simpl in E. injection E as <- <-. right. simpl. (split; [done|split; [done|lia]]).
  - rewrite decide_True by done. destruct c; try done.
    + injection E as <- <-; right; simpl; (split; [done|split; [done|lia]]).
    + destruct (_ =? _); injection E as <- <-; [left; simpl; eauto|right]. simpl. split; [done|split; [done|lia]].
    + injection E as <- <-; right; simpl; (split; [done|split; [done|lia]]).
    + destruct (ld _ _); try discriminate. simpl in E. injection E as <- <-. right. simpl. (split; [done|split; [done|lia]]).
    + injection E as <- <-; right; simpl; (split; [done|split; [done|lia]]).
    + injection E as <- <-. left. simpl. eauto.
Qed.

Lemma turns_cons l a sched : turns l (a :: sched) = ((if decide (a = l) then 1 else 0) + turns l sched)%nat.
Proof. unfold turns. destruct (decide (a = l)); [rewrite filter_cons_True|rewrite filter_cons_False]; done. Qed.

Lemma put_done : forall sched s s' evs x, crun s sched = Ok (s', evs) -> pitem (c_p s) = Some x ->
  (pleft (c_p s) <= turns LP sched)%nat -> exists b, first_put_resp evs = Some (x, b).
Proof.
  induction sched as [|a sched IH]; intros s s' evs x E Hx Ht.
  - exfalso. unfold turns in Ht. simpl in Ht. destruct (c_p s); simpl in *; try done; lia.
  - cbn [crun] in E. destruct (cstep s a) as [[s1 e1]| |] eqn:E1; try discriminate. cbn [bind] in E.
    destruct (crun s1 sched) as [[s2 e2]| |] eqn:E2; try discriminate. cbn [bind] in E. injection E as <- <-.
    rewrite turns_cons in Ht. rewrite first_put_app.
    destruct (pstep_prog _ _ _ _ _ E1 Hx) as [(b & ->)|(-> & Hx1 & Hle)]; [eauto|].
    eapply IH; eauto. lia.
Qed.
Lemma get_done : forall sched s s' evs, crun s sched = Ok (s', evs) -> c_c s <> CIdle ->
  (cleft (c_c s) <= turns LC sched)%nat -> exists r, first_get_resp evs = Some r.
Proof.
  induction sched as [|a sched IH]; intros s s' evs E Hx Ht.
  - exfalso. unfold turns in Ht. simpl in Ht. destruct (c_c s); simpl in *; try done; lia.
  - cbn [crun] in E. destruct (cstep s a) as [[s1 e1]| |] eqn:E1; try discriminate. cbn [bind] in E.
    destruct (crun s1 sched) as [[s2 e2]| |] eqn:E2; try discriminate. cbn [bind] in E. injection E as <- <-.
    rewrite turns_cons in Ht. rewrite first_get_app.
    destruct (gstep_prog _ _ _ _ E1 Hx) as [(b & ->)|(-> & Hx1 & Hle)]; [eauto|].
    eapply IH; eauto. lia.
Qed.

(** A put (get) started at any moment, with the other thread in any state, has returned
    once its own thread has had five (six) turns, whatever the other thread does or does
    not do in between - even if it has stopped in the middle of a call for ever. *)
Theorem C85_spsc_wait_free : forall q store size q0 before after,
  0 <= size <= 65535 -> Z.of_nat (length store) = size ->
  mu_spsc_init q store size = (SPSC_NONE, q0) ->
  exists s1 e1, crun (MkC q0 PIdle CIdle) before = Ok (s1, e1) /\
  (forall item, c_p s1 = PIdle -> (5 <= turns LP after)%nat ->
     exists s2 e2 b, crun (MkC q0 PIdle CIdle) (before ++ LPut item :: after) = Ok (s2, e1 ++ InvPut item :: e2) /\
       first_put_resp e2 = Some (item, b)) /\
  (c_c s1 = CIdle -> (6 <= turns LC after)%nat ->
     exists s2 e2 r, crun (MkC q0 PIdle CIdle) (before ++ LGet :: after) = Ok (s2, e1 ++ InvGet :: e2) /\
       first_get_resp e2 = Some r).
Proof.
  intros q store size q0 before after Hs Hl Hi.
  assert (Hi0 : inv size (MkC q0 PIdle CIdle) []).
  { split; [|done]. eapply init_rep; eauto. }
  destruct (crun_ok size before _ _ Hi0) as (s1 & e1 & l1 & E1 & Hi1 & _).
  exists s1, e1. split; [done|]. split.
  - intros item Hp Ht.
    destruct (crun_app_ex size before (LPut item :: after) _ _ Hi0) as (s1' & e1' & s2 & e2 & E1' & _ & E2 & E).
    rewrite E1 in E1'. injection E1' as <- <-.
    cbn [crun] in E2. destruct s1 as [q1 p1 c1]. cbn [cstep c_p c_q c_c] in *. subst p1. cbn [bind] in E2.
    destruct (crun (MkC q1 (PLoadTail item) c1) after) as [[s3 e3]| |] eqn:E3; try discriminate. cbn [bind] in E2.
    injection E2 as <- <-. destruct (put_done _ _ _ _ item E3 eq_refl Ht) as (b & Hb).
    exists s3, e3, b. done.
  - intros Hc Ht.
    destruct (crun_app_ex size before (LGet :: after) _ _ Hi0) as (s1' & e1' & s2 & e2 & E1' & _ & E2 & E).
    rewrite E1 in E1'. injection E1' as <- <-.
    cbn [crun] in E2. destruct s1 as [q1 p1 c1]. cbn [cstep c_p c_q c_c] in *. subst c1. cbn [bind] in E2.
    destruct (crun (MkC q1 p1 CLoadHead) after) as [[s3 e3]| |] eqn:E3; try discriminate. cbn [bind] in E2.
    injection E2 as <- <-. destruct (get_done _ _ _ _ E3 ltac:(done) Ht) as (b & Hb).
    exists s3, e3, b. done.
Qed.
Print Assumptions C85_spsc_wait_free.
(** a producer stopped between its slot write and its tail store does not keep a get from
    returning *)
Example C85_example : exists s1 e1 s2,
  let q0 := snd (mu_spsc_init (MkS [] 0 0 0) [0;0;0;0] 4) in
  crun (MkC q0 PIdle CIdle) [LPut 7; LP; LP; LP; LP] = Ok (s1, e1) /\ c_c s1 = CIdle /\ c_p s1 = PStoreTail 7 1 /\
  crun (MkC q0 PIdle CIdle) ([LPut 7; LP; LP; LP; LP] ++ LGet :: repeat LC 6) =
    Ok (s2, e1 ++ [InvGet; RespGet false 0]).
Proof. eexists _, _, _. vm_compute. done. Qed.

(** ** C86: interrupts during a reset.  The main program (consumer) calls mu_spsc_get and
    mu_spsc_reset, access by access; interrupts call mu_spsc_put and run to completion
    between any two accesses of the main program. *)
Inductive xpc := XMain (c : cpc) | XReset.   (* XReset: between the two stores of mu_spsc_reset *)
Inductive xlabel := XPut (x : Z) | XGet | XC | XResetHead | XResetTail.
(** results: [in_reset] marks puts made between the two stores of a reset *)
Inductive xev := XPutR (in_reset : bool) (x : Z) (e : spsc_err) | XGetR (ok : bool) (v : Z) | XResetR.
Definition xstep (q : spsc) (c : xpc) (l : xlabel) : res (spsc * xpc * list xev) :=
  match l, c with
  | XPut x, _ => let* '(e, q) := mu_spsc_put q x in
                 Ok (q, c, [XPutR (match c with XReset => true | _ => false end) x e])
  | XGet, XMain CIdle => Ok (q, XMain CLoadHead, [])
  | XC, XMain c => let* '(s, e) := cstep (MkC q PIdle c) LC in
                   Ok (c_q s, XMain (c_c s), match e with [RespGet b v] => [XGetR b v] | _ => [] end)
  (* mu_spsc.c:57 and 58 *)
  | XResetHead, XMain CIdle => Ok (MkS (s_store q) (s_mask q) 0 (s_tail q), XReset, [])
  | XResetTail, XReset => Ok (MkS (s_store q) (s_mask q) (s_head q) 0, XMain CIdle, [XResetR])
  | _, _ => Ok (q, c, [])
  end.
Fixpoint xrun (q : spsc) (c : xpc) (ls : list xlabel) : res (spsc * xpc * list xev) :=
  match ls with
  | [] => Ok (q, c, [])
  | l :: ls => let* '(q, c, e1) := xstep q c l in let* '(q, c, e2) := xrun q c ls in Ok (q, c, e1 ++ e2)
  end.
(** the history without the puts made during resets *)
Definition outside (e : xev) : list (qop * qobs) :=
  match e with
  | XPutR false x e => [(QPut x, match e with SPSC_NONE => QBool true | SPSC_FULL => QBool false | _ => QUnit end)]
  | XPutR true _ _ => []
  | XGetR ok v => [(QGet, QItem ok v)]
  | XResetR => [(QReset, QUnit)]
  end.
Definition put_result (e : xev) : Prop := match e with XPutR _ _ SPSC_NONE | XPutR _ _ SPSC_FULL => True | XPutR _ _ _ => False | _ => True end.

Definition xinv (size : Z) (q : spsc) (c : xpc) (l : list Z) : Prop :=
  match c with
  | XMain c => srep size q l /\ cinv size q l c
  | XReset => exists l', srep size q l'
  end.
(** after the store of head the structure still is a ring: tail items, of which some are stale *)
Lemma reset_head_rep size q l : srep size q l ->
  exists l', srep size (MkS (s_store q) (s_mask q) 0 (s_tail q)) l'.
Proof.
  intros Hr. pose proof (srep_bounds size q l Hr) as Hb. destruct Hr as (Hs & Hm & Hst & Hh & Ht & Hl & Hk).
  exists (take (Z.to_nat (s_tail q)) (s_store q)). unfold srep; simpl.
  rewrite take_length, Nat.min_l by lia. rewrite Z2Nat.id by lia.
  split; [done|]. split; [done|]. split; [done|]. split; [lia|]. split; [rewrite Z.mod_small; lia|]. split; [lia|].
  intros k x Hx. pose proof (lookup_lt_Some _ _ _ Hx) as Hlt. rewrite take_length in Hlt.
  rewrite Z.mod_small by lia. rewrite ?Z.add_0_l, Nat2Z.id. rewrite lookup_take in Hx by lia. done.
Qed.
Lemma reset_tail_rep size q l : srep size q l -> s_head q = 0 ->
  srep size (MkS (s_store q) (s_mask q) (s_head q) 0) [].
Proof.
  intros Hr H0. pose proof (reset_rep size q l Hr) as H. unfold mu_spsc_reset in H. simpl in H. by rewrite H0.
Qed.
Lemma put_head q x e q' : mu_spsc_put q x = Ok (e, q') -> s_head q' = s_head q.
Proof.
  unfold mu_spsc_put. destruct (_ =? _).
  - intros [= <- <-]. done.
  - destruct (st _ _ _); simpl; [|done|done]. intros [= <- <-]. done.
Qed.

Definition xstart (c : xpc) (q : spsc) : Prop := match c with XReset => s_head q = 0 | _ => True end.
Lemma xstep_ok size q c l lab : xinv size q c l -> xstart c q ->
  exists q' c' evs l', xstep q c lab = Ok (q', c', evs) /\ xinv size q' c' l' /\ xstart c' q' /\ Forall put_result evs /\
    fifo_run (size - 1) l (map fst (concat (map outside evs))) = (map snd (concat (map outside evs)), l').
Proof.
  intros Hi H0. destruct lab as [x| | | |].
  - destruct c as [c|].
    + destruct Hi as (Hr & Hc). cbn [xstep].
      destruct (spsc_put_ok size q l x Hr) as (e & q' & E & Hcase). rewrite E. cbn [bind].
      destruct Hcase as [(Hlt & -> & Hr')|(Hf & -> & ->)].
      * exists q', (XMain c), [XPutR false x SPSC_NONE], (l ++ [x]). split; [done|].
        split. { split; [done|]. eapply cinv_put; [done|]. by eapply put_head. }
        split; [done|]. split; [by apply Forall_cons_2|]. simpl.
        destruct (Z.ltb_spec (Z.of_nat (length l)) (size - 1)); [done|lia].
      * exists q, (XMain c), [XPutR false x SPSC_FULL], l. split; [done|]. split; [done|].
        split; [done|]. split; [by apply Forall_cons_2|]. simpl.
        destruct (Z.ltb_spec (Z.of_nat (length l)) (size - 1)); [lia|done].
    + destruct Hi as (l' & Hr). cbn [xstep].
      destruct (spsc_put_ok size q l' x Hr) as (e & q' & E & Hcase). rewrite E. cbn [bind].
      exists q', XReset, [XPutR true x e], l. split; [done|].
      destruct Hcase as [(Hlt & -> & Hr')|(Hf & -> & ->)].
      * split; [by exists (l' ++ [x])|]. split; [simpl; rewrite (put_head _ _ _ _ E); done|].
        split; [by apply Forall_cons_2|done].
      * split; [by exists l'|]. split; [done|]. split; [by apply Forall_cons_2|done].
  - destruct c as [[]|]; cbn [xstep]; eexists _, _, _, l; (split; [reflexivity|]); (split; [|split; [done|split; [apply Forall_nil_2|done]]]); try done.
  - destruct c as [c|]; cbn [xstep].
    2:{ eexists _, _, _, l. split; [reflexivity|]. split; [done|]. split; [done|split; [apply Forall_nil_2|done]]. }
    destruct Hi as (Hr & Hc).
    destruct (cstep_ok size (MkC q PIdle c) l LC) as (s & e & l' & E & (Hr' & _ & Hc') & Hf); [done|].
    rewrite E. cbn [bind]. eexists _, _, _, l'. split; [reflexivity|]. split; [done|]. split; [done|].
    assert (He : e = [] \/ exists b v, e = [RespGet b v]).
    { clear -E. destruct c; cbn [cstep c_c c_q c_p] in E; try (injection E as <- <-; eauto).
      - destruct (_ =? _); injection E as <- <-; eauto.
      - destruct (ld _ _); try discriminate. simpl in E. injection E as <- <-. eauto. }
    destruct He as [->|(b & v & ->)]; (split; [try apply Forall_nil_2; by apply Forall_cons_2|done]).
  - destruct c as [[]|]; cbn [xstep]; eexists _, _, _, l; (split; [reflexivity|]); try (split; [done|split; [done|split; [apply Forall_nil_2|done]]]).
    destruct Hi as (Hr & _). split; [by eapply reset_head_rep|]. split; [done|split; [apply Forall_nil_2|done]].
  - destruct c as [c|]; cbn [xstep].
    1:{ eexists _, _, _, l. split; [reflexivity|]. split; [done|]. split; [done|split; [apply Forall_nil_2|done]]. }
    destruct Hi as (l' & Hr). eexists _, _, _, []. split; [reflexivity|].
    split; [split; [by eapply reset_tail_rep|done]|]. split; [done|]. split; [by apply Forall_cons_2|done].
Qed.
Lemma xrun_ok size : forall ls q c l, xinv size q c l -> xstart c q ->
  exists q' c' evs l', xrun q c ls = Ok (q', c', evs) /\ xinv size q' c' l' /\ Forall put_result evs /\
    fifo_run (size - 1) l (map fst (concat (map outside evs))) = (map snd (concat (map outside evs)), l').
Proof.
  induction ls as [|lab ls IH]; intros q c l Hi H0; cbn [xrun].
  - eexists _, _, _, l. split; [reflexivity|]. split; [done|]. split; [apply Forall_nil_2|done].
  - destruct (xstep_ok size q c l lab Hi H0) as (q1 & c1 & e1 & l1 & -> & Hi1 & H1 & Hp1 & Hf1). cbn [bind].
    destruct (IH q1 c1 l1 Hi1 H1) as (q2 & c2 & e2 & l2 & -> & Hi2 & Hp2 & Hf2). cbn [bind].
    eexists _, _, _, l2. split; [reflexivity|]. split; [done|]. split; [by apply Forall_app|].
    rewrite map_app, concat_app, !map_app, fifo_run_app, Hf1, Hf2. done.
Qed.

(** Whatever interrupts put and whenever, also between the two stores of a reset: nothing is
    undefined; every put returns NONE or FULL; and the history of all the other calls is
    that of a FIFO in which a reset (at its second store) removes everything - so an item
    put during the reset is removed with the rest, and every later one is kept. *)
Theorem C86_spsc_reset_interrupted : forall q store size q0 schedule,
  0 <= size <= 65535 -> Z.of_nat (length store) = size ->
  mu_spsc_init q store size = (SPSC_NONE, q0) ->
  exists q' c evs, xrun q0 (XMain CIdle) schedule = Ok (q', c, evs) /\ Forall put_result evs /\
    fst (fifo_run (size - 1) [] (map fst (concat (map outside evs)))) = map snd (concat (map outside evs)).
Proof.
  intros q store size q0 sch Hs Hl Hi.
  destruct (xrun_ok size sch q0 (XMain CIdle) []) as (q' & c & evs & l & HE & _ & Hp & Hf).
  - split; [|done]. eapply init_rep; eauto.
  - done.
  - exists q', c, evs. split; [done|]. split; [done|]. rewrite Hf. done.
Qed.
Print Assumptions C86_spsc_reset_interrupted.
(** The results of puts during a reset are unreliable: NONE for an item that is then
    removed, and FULL although the queue holds nothing at all. *)
Definition q86 : spsc := snd (mu_spsc_init (MkS [] 0 0 0) [0;0;0;0] 4).
Definition xget : list xlabel := XGet :: repeat XC 6.
Theorem C86_spsc_reset_interrupted_refuted : exists q' c,
  xrun q86 (XMain CIdle)
    ([XPut 1] ++ xget ++ [XPut 2] ++ xget ++ [XResetHead; XPut 3; XPut 4; XResetTail] ++ [XPut 5] ++ xget ++ xget) =
  Ok (q', c, [XPutR false 1 SPSC_NONE; XGetR true 1; XPutR false 2 SPSC_NONE; XGetR true 2;
              XPutR true 3 SPSC_NONE; XPutR true 4 SPSC_FULL; XResetR; XPutR false 5 SPSC_NONE; XGetR true 5; XGetR false 0]).
Proof. eexists _, _. vm_compute. reflexivity. Qed.
Print Assumptions C86_spsc_reset_interrupted_refuted.

(** ** C87: nested interrupts.  [k] accesses of a put of [a] are made; then a second
    interrupt puts [b], to completion; then the first put goes on. *)
Definition nested (q : spsc) (k : nat) (a b : Z) : res (spsc * list sev * spsc_err) :=
  let* '(s, e1) := crun (MkC q PIdle CIdle) (LPut a :: repeat LP k) in
  let* '(eb, q1) := mu_spsc_put (c_q s) b in
  let* '(s, e2) := crun (MkC q1 (c_p s) CIdle) (repeat LP 5) in
  Ok (c_q s, e1 ++ e2, eb).
(** what gets into the queue *)
Definition nested_result (k : nat) (a b : Z) : list Z :=
  match k with O => [b; a] | 3 => [a] | _ => [b] end%nat.

(** the rest of a put from each point *)
Lemma put_rest0 q n : crun (MkC q PIdle CIdle) (repeat LP n) = Ok (MkC q PIdle CIdle, []).
Proof. induction n as [|n IH]; [done|]. cbn [repeat crun]. cbn [cstep c_p]. cbn [bind]. by rewrite IH. Qed.
Lemma crun_cons s l ls : crun s (l :: ls) = let* '(s, e1) := cstep s l in let* '(s, e2) := crun s ls in Ok (s, e1 ++ e2).
Proof. done. Qed.
Lemma put_rest4 s m h t a nt n :
  crun (MkC (MkS s m h t) (PStoreTail a nt) CIdle) (repeat LP (S n)) = Ok (MkC (MkS s m h nt) PIdle CIdle, [RespPut a true]).
Proof. cbn [repeat]. rewrite crun_cons. cbn [cstep c_p c_q c_c bind s_store s_mask s_head]. by rewrite put_rest0. Qed.
Lemma put_rest3 s m h t a nt k n : 0 <= k < Z.of_nat (length s) ->
  crun (MkC (MkS s m h t) (PWriteSlot a nt k) CIdle) (repeat LP (S (S n))) =
  Ok (MkC (MkS (<[Z.to_nat k := a]> s) m h nt) PIdle CIdle, [RespPut a true]).
Proof.
  intros Hk. change (repeat LP (S (S n))) with (LP :: repeat LP (S n)). rewrite crun_cons.
  cbn [cstep c_p c_q c_c s_store s_mask s_head s_tail]. rewrite st_ok by lia. cbn [bind]. by rewrite put_rest4.
Qed.
Lemma put_rest2 s m h t a nt n : 0 <= t < Z.of_nat (length s) ->
  crun (MkC (MkS s m h t) (PLoadTail2 a nt) CIdle) (repeat LP (S (S (S n)))) =
  Ok (MkC (MkS (<[Z.to_nat t := a]> s) m h nt) PIdle CIdle, [RespPut a true]).
Proof.
  intros Hk. change (repeat LP (S (S (S n)))) with (LP :: repeat LP (S (S n))). rewrite crun_cons.
  cbn [cstep c_p c_q c_c s_store s_mask s_head s_tail]. cbn [bind]. by rewrite put_rest3.
Qed.
Lemma put_rest1 s m h t a nt n : 0 <= t < Z.of_nat (length s) -> nt <> h ->
  crun (MkC (MkS s m h t) (PLoadHead a nt) CIdle) (repeat LP (S (S (S (S n))))) =
  Ok (MkC (MkS (<[Z.to_nat t := a]> s) m h nt) PIdle CIdle, [RespPut a true]).
Proof.
  intros Hk Hn. change (repeat LP (S (S (S (S n))))) with (LP :: repeat LP (S (S (S n)))). rewrite crun_cons.
  cbn [cstep c_p c_q c_c s_store s_mask s_head s_tail]. rewrite (proj2 (Z.eqb_neq _ _) Hn). cbn [bind]. by rewrite put_rest2.
Qed.
Lemma put_restL s m h t a n : 0 <= t < Z.of_nat (length s) -> to_u16 (Z.land (t + 1) m) <> h ->
  crun (MkC (MkS s m h t) (PLoadTail a) CIdle) (repeat LP (S (S (S (S (S n)))))) =
  Ok (MkC (MkS (<[Z.to_nat t := a]> s) m h (to_u16 (Z.land (t + 1) m))) PIdle CIdle, [RespPut a true]).
Proof.
  intros Hk Hn. change (repeat LP (S (S (S (S (S n)))))) with (LP :: repeat LP (S (S (S (S n))))). rewrite crun_cons.
  cbn [cstep c_p c_q c_c s_store s_mask s_head s_tail]. cbn [bind]. by rewrite put_rest1.
Qed.
(** its first [k] accesses *)
Definition put_pc (k : nat) (a nt t : Z) : ppc :=
  match k with O => PLoadTail a | 1 => PLoadHead a nt | 2 => PLoadTail2 a nt | 3 => PWriteSlot a nt t | _ => PStoreTail a nt end%nat.
Lemma put_first s m h t a k : (k <= 4)%nat -> 0 <= t < Z.of_nat (length s) -> to_u16 (Z.land (t + 1) m) <> h ->
  crun (MkC (MkS s m h t) PIdle CIdle) (LPut a :: repeat LP k) =
  Ok (MkC (MkS (if (k =? 4)%nat then <[Z.to_nat t := a]> s else s) m h t) (put_pc k a (to_u16 (Z.land (t + 1) m)) t) CIdle, [InvPut a]).
Proof.
  intros Hk Ht Hn. rewrite crun_cons. cbn [cstep c_p c_q c_c bind].
  destruct k as [|[|[|[|[|k]]]]]; [done| | | | |lia]; cbn [repeat];
    rewrite crun_cons; cbn [cstep c_p c_q c_c bind s_store s_mask s_head s_tail]; [done| | |];
    (rewrite crun_cons; cbn [cstep c_p c_q c_c s_store s_mask s_head s_tail]; rewrite (proj2 (Z.eqb_neq _ _) Hn); cbn [bind]); [done| |];
    (rewrite crun_cons; cbn [cstep c_p c_q c_c bind s_store s_mask s_head s_tail]); [done|].
  rewrite crun_cons; cbn [cstep c_p c_q c_c bind s_store s_mask s_head s_tail]. rewrite st_ok by lia. done.
Qed.

(** In every state reached by complete calls with room enough: both puts
    return NONE; if the second one runs before the first access of the first, both items
    are queued; otherwise exactly one of the two items is lost. *)
Lemma nested_ok size q l k a b : srep size q l ->
  Z.of_nat (length l) + (if (k =? 0)%nat then 2 else 1) <= size - 1 -> (k <= 4)%nat ->
  exists q', nested q k a b = Ok (q', [InvPut a; RespPut a true], SPSC_NONE) /\
    srep size q' (l ++ nested_result k a b).
Proof.
  intros Hr Hroom0 Hk. pose proof (srep_bounds size q l Hr) as Hb.
  assert (Hroom : Z.of_nat (length l) + 1 <= size - 1) by (destruct (k =? 0)%nat; lia).
  assert (Hl : Z.of_nat (length (s_store q)) = size) by (by destruct Hr as (_ & _ & ? & _)).
  destruct q as [s m h t]. cbn [s_store s_mask s_head s_tail] in *.
  assert (Hput : forall q l x, srep size q l -> Z.of_nat (length l) + 1 <= size - 1 ->
    to_u16 (Z.land (s_tail q + 1) (s_mask q)) <> s_head q /\ 0 <= s_tail q < Z.of_nat (length (s_store q)) /\
    mu_spsc_put q x = Ok (SPSC_NONE, MkS (<[Z.to_nat (s_tail q) := x]> (s_store q)) (s_mask q) (s_head q) (to_u16 (Z.land (s_tail q + 1) (s_mask q)))) /\
    srep size (MkS (<[Z.to_nat (s_tail q) := x]> (s_store q)) (s_mask q) (s_head q) (to_u16 (Z.land (s_tail q + 1) (s_mask q)))) (l ++ [x])).
  { clear. intros q l x Hr Hroom. pose proof (srep_bounds size q l Hr) as Hb.
    destruct (spsc_put_ok size q l x Hr) as (e & q' & E & [(_ & -> & Hr')|(Hf & _)]); [|lia].
    assert (Hl : Z.of_nat (length (s_store q)) = size) by (by destruct Hr as (_ & _ & ? & _)).
    assert (Hne : to_u16 (Z.land (s_tail q + 1) (s_mask q)) <> s_head q).
    { rewrite (mask_mod size q l) by (done || lia). intros He. apply (full_iff size q l Hr) in He. lia. }
    split; [done|]. split; [lia|].
    unfold mu_spsc_put in *. rewrite (proj2 (Z.eqb_neq _ _) Hne) in *. rewrite st_ok in * by lia. cbn [bind] in *.
    injection E as <-. done. }
  destruct (Hput _ l b Hr ltac:(lia)) as (Hn & Ht & Eb & Hrb). destruct (Hput _ l a Hr ltac:(lia)) as (_ & _ & _ & Hra).
  pose proof (srep_bounds _ _ _ Hrb) as Ht2. cbn [s_store s_mask s_head s_tail] in *.
  assert (Hlb : Z.of_nat (length (<[Z.to_nat t := b]> s)) = size) by (by rewrite insert_length).
  unfold nested. rewrite put_first by done. cbn [bind c_q c_p c_c]. set (nt := to_u16 (Z.land (t + 1) m)) in *.
  destruct k as [|[|[|[|[|k]]]]]; [| | | | |lia]; cbn [Nat.eqb put_pc nested_result].
  - destruct (Hput _ (l ++ [b]) a Hrb) as (Hn2 & _ & _ & Hrab). { rewrite app_length; simpl in *; lia. }
    cbn [s_store s_mask s_head s_tail] in *.
    rewrite Eb. cbn [bind]. rewrite put_restL by (rewrite ?Hlb; done || lia). cbn [bind c_q]. eexists. split; [reflexivity|].
    rewrite <- app_assoc in Hrab. done.
  - rewrite Eb. cbn [bind]. rewrite put_rest1 by (rewrite ?Hlb; done || lia). cbn [bind c_q]. eexists. split; [reflexivity|].
    apply (write_tail size _ _ a Hrb).
  - rewrite Eb. cbn [bind]. rewrite put_rest2 by (rewrite ?Hlb; done || lia). cbn [bind c_q]. eexists. split; [reflexivity|].
    apply (write_tail size _ _ a Hrb).
  - rewrite Eb. cbn [bind]. rewrite put_rest3 by (rewrite ?insert_length; lia). cbn [bind c_q]. eexists. split; [reflexivity|].
    rewrite list_insert_insert. done.
  - pose proof (write_tail size _ _ a Hr) as Hw. destruct (Hput _ l b Hw ltac:(lia)) as (_ & _ & Eb2 & Hrb2).
    cbn [s_store s_mask s_head s_tail] in *. fold nt in Eb2, Hrb2. rewrite Eb2. cbn [bind]. rewrite put_rest4. cbn [bind c_q].
    eexists. split; [reflexivity|]. done.
Qed.

(** After any history of complete calls that left [held] in the queue with room for the two
    items (for one, if the outer put has already loaded the tail): the outer put, interrupted
    by the nested one after [k] of its five accesses, and the nested one both return NONE;
    the queue then holds - for every later history of calls - [held] and
      both items, if the nested put came before the first access (k = 0);
      only one of the two otherwise, the other one being lost.
    So mu_spsc_put must not be called from two interrupt levels. *)
Theorem C87_spsc_nested_puts : forall q store size q0 ops k a b,
  0 <= size <= 65535 -> Z.of_nat (length store) = size ->
  mu_spsc_init q store size = (SPSC_NONE, q0) ->
  let held := snd (fifo_run (size - 1) [] (map sop_q ops)) in
  (k <= 4)%nat -> Z.of_nat (length held) + (if (k =? 0)%nat then 2 else 1) <= size - 1 ->
  exists rs q1 q2, srun q0 ops = Ok (rs, q1) /\
    nested q1 k a b = Ok (q2, [InvPut a; RespPut a true], SPSC_NONE) /\
    forall later, exists q3, srun q2 later =
      Ok (fst (fifo_run (size - 1) (held ++ match k with O => [b; a] | 3 => [a] | _ => [b] end%nat) (map sop_q later)), q3).
Proof.
  intros q store size q0 ops k a b Hs Hl Hi held Hk Hroom.
  destruct (srun_ok size ops q0 []) as (q1 & E1 & Hr1). { eapply init_rep; eauto. }
  destruct (nested_ok size q1 held k a b Hr1 Hroom Hk) as (q2 & E2 & Hr2).
  eexists _, q1, q2. split; [exact E1|]. split; [exact E2|].
  intros later. destruct (srun_ok size later q2 _ Hr2) as (q3 & E3 & _). exists q3. exact E3.
Qed.
Print Assumptions C87_spsc_nested_puts.
Example C87_example : exists q1 q2 q3,
  srun q86 [SPut 1] = Ok ([QBool true], q1) /\
  nested q1 3 7 8 = Ok (q2, [InvPut 7; RespPut 7 true], SPSC_NONE) /\
  srun q2 [SGet; SGet; SGet] = Ok ([QItem true 1; QItem true 7; QItem false 0], q3).
Proof.
  eexists _, _, _. split; [vm_compute; reflexivity|]. split; [vm_compute; reflexivity|]. vm_compute. reflexivity.
Qed.
