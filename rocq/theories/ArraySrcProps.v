(** * Property C110: the text of mu_array.c, run by the rules of C *)
From Verif Require Import CSym SrcArray ArrayModel ArraySpec ArrayRefine ArrayProps ArrayExact ArraySrc.
Open Scope string_scope. Open Scope Z_scope.

Section source.
Context (p : plat) (fuel : nat) (ext : string -> list val -> mem -> res (val * ty * mem))
  (ext_ptr : val -> list val -> mem -> res (val * ty * mem)).
(** a call of a function of mu_array.c; calls nest at most six deep *)
Definition acall (f : string) (vs : list val) (m : mem) : res (val * mem) :=
  let* '(v, _, m) := call p array_prog fuel ext ext_ptr 6 f vs m in Ok (v, m).
Definition abool (v : val) : res bool := match v with VI 0 => Ok false | VI 1 => Ok true | _ => UB end.
(** [v] is a pointer to a comparison function of the user that computes [cmp] and touches nothing *)
Definition comparator (v : val) (cmp : Z -> Z -> Z) : Prop :=
  defined v = Ok v /\ (forall x y m, ext_ptr v [VI x; VI y] m = Ok (VI (cmp x y), int, m)) /\
  forall x y, int_min <= cmp x y <= int_max.
(** the user's variable [void *item] (object [eb]) is uninitialised before a call that may store
    through its address; afterwards it holds what was stored, or nothing *)
Definition blank (m : mem) (eb : nat) : mem := MkMem (<[eb := [VU]]> (heap m)) (next m).
Definition stored (m : mem) (eb : nat) : res (option Z) :=
  match heap m !! eb with Some [VU] => Ok None | Some [VI x] => Ok (Some x) | _ => UB end.
Definition out (eb : nat) (r : res (val * mem)) : res (aobs * mem) :=
  let* '(v, m) := r in let* b := abool v in let* e := stored m eb in Ok (OItem b e, m).
Definition flag (r : res (val * mem)) : res (aobs * mem) := let* '(v, m) := r in let* b := abool v in Ok (OBool b, m).
Definition number (r : res (val * mem)) : res (aobs * mem) := let* '(v, m) := r in let* n := num v in Ok (ONum n, m).
Definition place (r : res (val * mem)) : res (aobs * mem) :=
  let* '(v, m) := r in let* n := num v in Ok (OIdx (if n =? size_max p then None else Some n), m).
Definition nothing (r : res (val * mem)) : res (aobs * mem) := let* '(v, m) := r in Ok (OUnit, m).
(** one call by a user whose array is object [ab] and whose comparison functions are at [fp] *)
Definition src_aop (fp : (Z -> Z -> Z) -> val) (ab eb : nat) (op : aop) (m : mem) : res (aobs * mem) :=
  match op with
  | APush x => flag (acall "mu_array_push" [VP ab 0; VI x] m)
  | APop => out eb (acall "mu_array_pop" [VP ab 0; VP eb 0] (blank m eb))
  | APeek => out eb (acall "mu_array_peek" [VP ab 0; VP eb 0] (blank m eb))
  | ARef i => out eb (acall "mu_array_ref" [VP ab 0; VP eb 0; VI i] (blank m eb))
  | AInsert x i => flag (acall "mu_array_insert" [VP ab 0; VI x; VI i] m)
  | ADelete i => out eb (acall "mu_array_delete" [VP ab 0; VP eb 0; VI i] (blank m eb))
  | AIndex x => place (acall "mu_array_index" [VP ab 0; VI x] m)
  | ARindex x => place (acall "mu_array_rindex" [VP ab 0; VI x] m)
  | AReset => nothing (acall "mu_array_reset" [VP ab 0] m)
  | ACount => number (acall "mu_array_count" [VP ab 0] m)
  | ACapacity => number (acall "mu_array_capacity" [VP ab 0] m)
  | AIsEmpty => flag (acall "mu_array_is_empty" [VP ab 0] m)
  | AIsFull => flag (acall "mu_array_is_full" [VP ab 0] m)
  | ASort cmp => nothing (acall "mu_array_sort" [VP ab 0; fp cmp] m)
  | AInsertSorted cmp x => flag (acall "mu_array_insert_sorted" [VP ab 0; VI x; fp cmp] m)
  end.
Fixpoint src_aops (fp : (Z -> Z -> Z) -> val) (ab eb : nat) (ops : list aop) (m : mem) : res (list aobs * mem) :=
  match ops with
  | [] => Ok ([], m)
  | op :: ops => let* '(o, m) := src_aop fp ab eb op m in let* '(os, m) := src_aops fp ab eb ops m in Ok (o :: os, m)
  end.
(** the comparison functions a call passes *)
Definition acmp_ok (fp : (Z -> Z -> Z) -> val) (op : aop) : Prop :=
  match op with ASort cmp | AInsertSorted cmp _ => comparator (fp cmp) cmp | _ => True end.
Definition untouched (m m' : mem) (bs : list nat) : Prop :=
  next m' = next m /\ forall b, ~ In b bs -> heap m' !! b = heap m !! b.

(** ** One call *)
Lemma abool_truth b : abool (truth b) = Ok b. Proof. destruct b; reflexivity. Qed.
Definition same (ab sb eb : nat) (m : mem) (src : res (aobs * mem)) (model : res (aobs * marray)) : Prop :=
  match model with
  | Ok (o, a') => exists m' v1, src = Ok (o, m') /\ heap m' !! ab = Some (acells sb a') /\ heap m' !! sb = Some (VI <$> a_store a') /\
      heap m' !! eb = Some [v1] /\ untouched m m' [ab; sb; eb]
  | UB => src = UB
  | NoFuel => False
  end.
Lemma untouched_set m ab sb eb a : untouched m (set_array m ab sb a) [ab; sb; eb].
Proof. split; [done|]. intros b Hb. cbn in *. rewrite !lookup_insert_ne by (intros ->; tauto). done. Qed.
Lemma set_heap m ab sb eb a v1 : ab <> sb -> eb <> ab -> eb <> sb -> heap m !! eb = Some [v1] ->
  let m' := set_array m ab sb a in
  heap m' !! ab = Some (acells sb a) /\ heap m' !! sb = Some (VI <$> a_store a) /\ heap m' !! eb = Some [v1] /\ untouched m m' [ab; sb; eb].
Proof.
  intros H1 H2 H3 Hv. cbn. split; [apply lookup_insert|]. split; [rewrite lookup_insert_ne by done; apply lookup_insert|].
  split; [rewrite !lookup_insert_ne by done; done|]. apply untouched_set.
Qed.
Lemma out_heap m ab sb eb a o : ab <> sb -> eb <> ab -> eb <> sb ->
  let m' := set_out (set_array (blank m eb) ab sb a) eb o in
  stored m' eb = Ok o /\
  heap m' !! ab = Some (acells sb a) /\ heap m' !! sb = Some (VI <$> a_store a) /\ (exists v1, heap m' !! eb = Some [v1]) /\ untouched m m' [ab; sb; eb].
Proof.
  intros H1 H2 H3. unfold stored, untouched. destruct o as [x|]; cbn.
  - rewrite !lookup_insert. split; [done|]. rewrite (lookup_insert_ne _ eb ab) by done. rewrite lookup_insert. split; [done|].
    rewrite (lookup_insert_ne _ eb sb), (lookup_insert_ne _ ab sb), lookup_insert by done. split; [done|]. split; [by eexists|].
    split; [done|]. intros b Hb. rewrite !lookup_insert_ne by (intros ->; tauto). done.
  - rewrite (lookup_insert_ne _ ab eb), (lookup_insert_ne _ sb eb), lookup_insert by done. split; [done|]. rewrite lookup_insert. split; [done|].
    rewrite (lookup_insert_ne _ ab sb), lookup_insert by done. split; [done|]. split; [by eexists|].
    split; [done|]. intros b Hb. rewrite !lookup_insert_ne by (intros ->; tauto). done.
Qed.

Lemma op_same fp m ab sb eb a op v0 : array_at p m ab sb a -> eb <> ab -> eb <> sb -> heap m !! eb = Some [v0] ->
  aop_typed p op -> acmp_ok fp op -> 4294967296 + Z.of_nat (length (a_store a)) < Z.of_nat fuel -> arun1 p a op <> NoFuel ->
  same ab sb eb m (src_aop fp ab eb op m) (arun1 p a op).
Proof.
  intros Ha He1 He2 Hv Hty Hcm Hf HN. pose proof Ha as [H1 H2 Hne Hc Hn Hl].
  assert (Hf' : (Z.to_nat (a_cnt a) < fuel)%nat) by lia.
  assert (Hb : array_at p (blank m eb) ab sb a) by (split; cbn; rewrite ?lookup_insert_ne by done; done).
  assert (Hbv : heap (blank m eb) !! eb = Some [VU]) by apply lookup_insert.
  assert (Hsm : size_mod p = size_max p + 1) by (unfold size_max; lia).
  assert (Hsame : exists m' v1, m' = m /\ heap m' !! ab = Some (acells sb a) /\ heap m' !! sb = Some (VI <$> a_store a) /\
      heap m' !! eb = Some [v1] /\ untouched m m' [ab; sb; eb]) by (exists m, v0; split_and!; done).
  destruct op; cbn [arun1 aop_typed acmp_ok] in *; unfold src_aop, acall, out, flag, number, place, nothing.
  - erewrite src_push by done. destruct (mu_array_push p a x) as [[b a']| |]; cbn [bind same] in *; [|done|done].
    rewrite abool_truth. eexists _, _. split; [reflexivity|]. by apply set_heap.
  - erewrite src_pop by done. destruct (mu_array_pop p a) as [[[b o] a']| |]; cbn [bind same] in *; [|done|done].
    cbn [bind]. rewrite abool_truth. destruct (out_heap m ab sb eb a' o) as (-> & ? & ? & (v1 & ?) & ?); try done.
    eexists _, v1. split; [reflexivity|]. done.
  - erewrite src_peek by done. destruct (mu_array_peek p a) as [[b o]| |]; cbn [bind same] in *; [|done|done].
    cbn [bind]. rewrite abool_truth. rewrite <- (set_same p (blank m eb) ab sb a) by done.
    destruct (out_heap m ab sb eb a o) as (-> & ? & ? & (v1 & ?) & ?); try done.
    eexists _, v1. split; [reflexivity|]. done.
  - erewrite src_ref by (done || lia). destruct (mu_array_ref a i) as [[b o]| |]; cbn [bind same] in *; [|done|done].
    cbn [bind]. rewrite abool_truth. rewrite <- (set_same p (blank m eb) ab sb a) by done.
    destruct (out_heap m ab sb eb a o) as (-> & ? & ? & (v1 & ?) & ?); try done.
    eexists _, v1. split; [reflexivity|]. done.
  - erewrite src_insert by ((apply to_size_id; lia) || done). destruct (mu_array_insert p a x i) as [[b a']| |]; cbn [bind same] in *; [|done|done].
    rewrite abool_truth. eexists _, _. split; [reflexivity|]. by apply set_heap.
  - erewrite src_delete by (done || lia). destruct (mu_array_delete p a i) as [[[b o] a']| |]; cbn [bind same] in *; [|done|done].
    cbn [bind]. rewrite abool_truth. destruct (out_heap m ab sb eb a' o) as (-> & ? & ? & (v1 & ?) & ?); try done.
    eexists _, v1. split; [reflexivity|]. done.
  - erewrite src_index by (done || (intros E; rewrite E in HN; done)). destruct (mu_array_index p a x) as [i| |]; cbn [bind same] in *; [|done|done].
    destruct Hsame as (m' & v1 & -> & Hs). eexists m, v1. split; [reflexivity|]. done.
  - erewrite src_rindex by (done || (intros E; rewrite E in HN; done)). destruct (mu_array_rindex p a x) as [i| |]; cbn [bind same] in *; [|done|done].
    destruct Hsame as (m' & v1 & -> & Hs). eexists m, v1. split; [reflexivity|]. done.
  - erewrite src_reset by done. eexists _, _. split; [reflexivity|]. by apply set_heap.
  - erewrite src_count by done. destruct Hsame as (m' & v1 & -> & Hs). eexists m, v1. split; [reflexivity|]. done.
  - erewrite src_capacity by done. destruct Hsame as (m' & v1 & -> & Hs). eexists m, v1. split; [reflexivity|]. done.
  - erewrite src_is_empty by done. destruct Hsame as (m' & v1 & -> & Hs). eexists m, v1.
    split; [|done]. cbn [bind]. rewrite abool_truth. done.
  - erewrite src_is_full by done. destruct Hsame as (m' & v1 & -> & Hs). eexists m, v1.
    split; [|done]. cbn [bind]. rewrite abool_truth. done.
  - destruct Hcm as (Hd & Hcm & Hr).
    erewrite (src_sort p fuel ext ext_ptr (fp cmp) cmp Hd Hcm Hr) by (done || (intros E; rewrite E in HN; done)).
    destruct (mu_array_sort p cmp a) as [a'| |]; cbn [bind same] in *; [|done|done].
    eexists _, _. split; [reflexivity|]. by apply set_heap.
  - destruct Hcm as (Hd & Hcm & Hr).
    erewrite (src_insert_sorted p fuel ext ext_ptr (fp cmp) cmp Hd Hcm Hr) by (done || (intros E; rewrite E in HN; done)).
    destruct (mu_array_insert_sorted p cmp a x) as [[b a']| |]; cbn [bind same] in *; [|done|done].
    rewrite abool_truth. eexists _, _. split; [reflexivity|]. by apply set_heap.
Qed.

(** ** Histories *)
Lemma xreps_at m ab sb a l t : xreps p a l t -> heap m !! ab = Some (acells sb a) -> heap m !! sb = Some (VI <$> a_store a) -> ab <> sb ->
  array_at p m ab sb a.
Proof.
  intros Hx H1 H2 Hne. pose proof Hx as (Hv & Hc & Hs & Hl & Hn). unfold valid_cap in Hv. assert (size_mod p = size_max p + 1) by (unfold size_max; lia).
  assert (len l <= a_cap a) by (rewrite <- Hl; unfold len; rewrite app_length; lia).
  assert (0 <= len l) by (unfold len; lia). assert (a_cap a < size_mod p) by (destruct p; cbn in *; lia). split; try done; [lia|lia|]. rewrite Hs. change (a_cnt a <= len (l ++ t)%list). lia.
Qed.
Lemma ops_same fp ab sb eb ops : forall m a l t v0, xreps p a l t -> heap m !! ab = Some (acells sb a) -> heap m !! sb = Some (VI <$> a_store a) ->
  ab <> sb -> eb <> ab -> eb <> sb -> heap m !! eb = Some [v0] ->
  (forall op, In op ops -> aop_typed p op /\ acmp_ok fp op) -> 4294967296 + a_cap a < Z.of_nat fuel ->
  match arun p a ops with
  | Ok (os, a') => exists m', src_aops fp ab eb ops m = Ok (os, m') /\ heap m' !! ab = Some (acells sb a') /\
      heap m' !! sb = Some (VI <$> a_store a') /\ untouched m m' [ab; sb; eb]
  | UB => src_aops fp ab eb ops m = UB
  | NoFuel => False
  end.
Proof.
  induction ops as [|op ops IH]; intros m a l t v0 Hx H1 H2 Hne He1 He2 Hv Hops Hf; cbn [arun src_aops].
  { exists m. done. }
  destruct (Hops op) as [Hty Hcm]; [by left|].
  pose proof (xreps_at _ _ _ _ _ _ Hx H1 H2 Hne) as Ha.
  assert (Hlen : Z.of_nat (length (a_store a)) = a_cap a) by (destruct Hx as (_ & _ & -> & <- & _); done).
  assert (HN : arun1 p a op <> NoFuel).
  { destruct (dangerous_dec p (a_cap a) l op) as [Hd|Hd].
    - rewrite (xrun1_ub p a l t op) by done. done.
    - destruct (xrun1 p a l t op Hx Hty Hd) as (o & a1 & l1 & t1 & -> & _). done. }
  pose proof (op_same fp m ab sb eb a op v0 Ha He1 He2 Hv Hty Hcm ltac:(lia) HN) as Hs. unfold same in Hs.
  destruct (dangerous_dec p (a_cap a) l op) as [Hd|Hd].
  - rewrite (xrun1_ub p a l t op) in * by done. cbn [bind]. rewrite Hs. done.
  - destruct (xrun1 p a l t op Hx Hty Hd) as (o & a1 & l1 & t1 & HE & Hx1 & Hc1 & _). rewrite HE in *. cbn [bind].
    destruct Hs as (m1 & v1 & -> & H1' & H2' & Hv' & Hu).
    specialize (IH m1 a1 l1 t1 v1 Hx1 H1' H2' Hne He1 He2 Hv' ltac:(intros; apply Hops; by right) ltac:(lia)).
    destruct (arun p a1 ops) as [[os a2]| |]; cbn [bind]; [|by rewrite IH|done].
    destruct IH as (m2 & -> & H1'' & H2'' & Hu2). exists m2. split; [done|]. split; [done|]. split; [done|].
    destruct Hu as [Hn1 Hu1], Hu2 as [Hn2 Hu2]. split; [congruence|]. intros b Hb. rewrite Hu2, Hu1 by done. done.
Qed.
End source.

(** the memory a user starts from: an array object [ab] with anything in it, a storage array [sb]
    of [cap] pointers, a variable [eb] *)
Record start_mem (m : mem) (ab sb eb : nat) (storage : list Z) : Prop := {
  sm_ab : exists c, heap m !! ab = Some c /\ length c = 3%nat;
  sm_sb : heap m !! sb = Some (VI <$> storage);
  sm_eb : exists v, heap m !! eb = Some [v];
  sm_ne : ab <> sb /\ eb <> ab /\ eb <> sb }.

(** ** C110, exact: mu_array_init and then ANY calls (with any comparison functions) give the
    observations and the final storage contents that [xsteps] describes, or are undefined; nothing else
    in memory changes. [fuel] only has to exceed every loop's length. *)
Theorem C110_source_exact : forall p fuel ext ext_ptr fp m ab sb eb storage ops,
  start_mem m ab sb eb storage -> let cap := Z.of_nat (length storage) in
  valid_cap p cap -> cap <= 1073741824 -> 4294967296 + cap < Z.of_nat fuel ->
  (forall op, In op ops -> aop_typed p op /\ acmp_ok ext_ptr fp op) ->
  exists m1, acall p fuel ext ext_ptr "mu_array_init" [VP ab 0; VP sb 0; VI cap] m = Ok (VP ab 0, m1) /\
  (src_aops p fuel ext ext_ptr fp ab eb ops m1 = UB \/
   exists os m2 l t, src_aops p fuel ext ext_ptr fp ab eb ops m1 = Ok (os, m2) /\
     xsteps ([], storage) ops os (l, t) /\
     heap m2 !! ab = Some [VP sb 0; VI cap; VI (len l)] /\ heap m2 !! sb = Some (VI <$> (l ++ t)%list) /\
     untouched m m2 [ab; sb; eb]).
Proof.
  intros p fuel ext ext_ptr fp m ab sb eb storage ops [(c & H1 & Hc3) H2 (v0 & H3) (Hne & He1 & He2)] cap Hv Hcap Hf Hops.
  assert (Hr : 0 <= cap < size_mod p) by (destruct Hv; unfold size_max in *; destruct p; cbn in *; lia).
  unfold acall at 1. erewrite src_init by done. cbn [bind]. eexists. split; [reflexivity|].
  set (m1 := set_array m ab sb (mu_array_init storage cap)).
  assert (Hx : xreps p (mu_array_init storage cap) [] storage).
  { unfold xreps, mu_array_init, mu_array_reset, len; simpl. split_and!; done. }
  destruct (set_heap m ab sb eb (mu_array_init storage cap) v0 Hne He1 He2 H3) as (Q1 & Q2 & Q3 & Qu). fold m1 in Q1, Q2, Q3, Qu.
  pose proof (ops_same p fuel ext ext_ptr fp ab sb eb ops m1 _ _ _ v0 Hx Q1 Q2 Hne He1 He2 Q3 Hops Hf) as HS.
  destruct (C64_array_exact p storage cap ops Hv Hcap eq_refl ltac:(intros op Hop; apply Hops; done)) as [HE|(os & a' & l & t & HE & Hst & Hsto & Hcnt & Hcp)];
    rewrite HE in HS; [by left|right].
  destruct HS as (m2 & HS & R1 & R2 & Ru). exists os, m2, l, t. split; [done|]. split; [done|].
  unfold acells in R1. unfold mu_array_count, mu_array_capacity in *. rewrite R1, R2, Hcnt, Hcp, Hsto. split; [done|]. split; [done|].
  destruct Qu as [Hn1 Hu1], Ru as [Hn2 Hu2]. split; [congruence|]. intros b Hb. rewrite Hu2, Hu1 by done. done.
Qed.
Print Assumptions C110_source_exact.

(** ... and undefined exactly when, after some of the calls, the next call is one of the two bugs:
    an interior delete from a full array (C02), or sorting exactly one item with a 32-bit size_t (C04) *)
Theorem C110_source_ub_iff : forall p fuel ext ext_ptr fp m ab sb eb storage ops m1,
  start_mem m ab sb eb storage -> let cap := Z.of_nat (length storage) in
  valid_cap p cap -> cap <= 1073741824 -> 4294967296 + cap < Z.of_nat fuel ->
  (forall op, In op ops -> aop_typed p op /\ acmp_ok ext_ptr fp op) ->
  acall p fuel ext ext_ptr "mu_array_init" [VP ab 0; VP sb 0; VI cap] m = Ok (VP ab 0, m1) ->
  src_aops p fuel ext ext_ptr fp ab eb ops m1 = UB <->
  exists ops1 op ops2 os1 m2 l t, ops = (ops1 ++ op :: ops2)%list /\
    src_aops p fuel ext ext_ptr fp ab eb ops1 m1 = Ok (os1, m2) /\
    heap m2 !! ab = Some [VP sb 0; VI cap; VI (len l)] /\ heap m2 !! sb = Some (VI <$> (l ++ t)%list) /\
    (match op with ADelete i => i < len l - 1 /\ len l = cap | ASort _ => p = P32 /\ len l = 1 | _ => False end).
Proof.
  intros p fuel ext ext_ptr fp m ab sb eb storage ops m1 [(c & H1 & Hc3) H2 (v0 & H3) (Hne & He1 & He2)] cap Hv Hcap Hf Hops Hi.
  assert (Hr : 0 <= cap < size_mod p) by (destruct Hv; unfold size_max in *; destruct p; cbn in *; lia).
  unfold acall at 1 in Hi. erewrite src_init in Hi by done. cbn [bind] in Hi. injection Hi as <-.
  set (m1 := set_array m ab sb (mu_array_init storage cap)).
  assert (Hx : xreps p (mu_array_init storage cap) [] storage).
  { unfold xreps, mu_array_init, mu_array_reset, len; simpl. split_and!; done. }
  destruct (set_heap m ab sb eb (mu_array_init storage cap) v0 Hne He1 He2 H3) as (Q1 & Q2 & Q3 & Qu). fold m1 in Q1, Q2, Q3, Qu.
  assert (HS : forall ops', (forall op, In op ops' -> In op ops) -> _) by
    exact (fun ops' Hsub => ops_same p fuel ext ext_ptr fp ab sb eb ops' m1 _ _ _ v0 Hx Q1 Q2 Hne He1 He2 Q3 (fun op Hop => Hops op (Hsub op Hop)) Hf).
  assert (HX : forall ops', (forall op, In op ops' -> In op ops) -> _) by
    exact (fun ops' Hsub => xrun p ops' _ _ _ Hx (fun op Hop => proj1 (Hops op (Hsub op Hop)))).
  pose proof (C64_array_ub_iff p storage cap ops Hv Hcap eq_refl ltac:(intros op Hop; apply Hops; done)) as HU.
  split.
  - intros E. pose proof (HS ops ltac:(done)) as Hs. destruct (arun p _ ops) as [[os a']| |] eqn:EA; [destruct Hs as (? & Hs & _); rewrite E in Hs; done| |done].
    apply proj1 in HU. destruct (HU eq_refl) as (ops1 & op & ops2 & os1 & a1 & -> & E1 & Hd).
    assert (Hsub : forall o, In o ops1 -> In o (ops1 ++ op :: ops2)) by (intros o Ho; apply in_or_app; by left).
    pose proof (HS ops1 Hsub) as Hs1. pose proof (HX ops1 Hsub) as Hx1. rewrite E1 in Hs1, Hx1.
    destruct Hs1 as (m2 & Hm2 & R1 & R2 & _). destruct Hx1 as (l & t & _ & Hx1 & Hc1).
    rewrite (areps_contents _ _ _ (xreps_areps _ _ _ _ Hx1)) in Hd. pose proof Hx1 as (_ & _ & Hsto & _ & Hcnt).
    exists ops1, op, ops2, os1, m2, l, t. unfold acells in R1. rewrite R1, R2, Hsto, Hcnt, Hc1. split_and!; try done.
  - intros (ops1 & op & ops2 & os1 & m2 & l & t & -> & E1 & R1 & R2 & Hd).
    pose proof (HS (ops1 ++ op :: ops2)%list ltac:(done)) as Hs. destruct (arun p _ (ops1 ++ op :: ops2)) as [[os a']| |] eqn:EA; [|done|done].
    exfalso. enough (Ok (os, a') = UB) by done. apply HU.
    assert (Hsub : forall o, In o ops1 -> In o (ops1 ++ op :: ops2)%list) by (intros o Ho; apply in_or_app; by left).
    pose proof (HS ops1 Hsub) as Hs1. pose proof (HX ops1 Hsub) as Hx1.
    destruct (arun p (mu_array_init storage cap) ops1) as [[os2 a1]| |] eqn:EA1; [|rewrite E1 in Hs1; done|done].
    destruct Hs1 as (m3 & Hm3 & Q4 & Q5 & _). rewrite E1 in Hm3. injection Hm3 as <- <-.
    destruct Hx1 as (l' & t' & _ & Hx1 & Hc1). pose proof Hx1 as (_ & _ & Hsto & _ & Hcnt).
    rewrite R1 in Q4. unfold acells in Q4. injection Q4 as _ Hcnt'. rewrite Hcnt in Hcnt'.
    exists ops1, op, ops2, os1, a1. split; [done|]. split; [done|].
    rewrite (areps_contents _ _ _ (xreps_areps _ _ _ _ Hx1)). unfold dangerous. destruct op; try done; rewrite <- Hcnt'; done.
Qed.
Print Assumptions C110_source_ub_iff.

(** ** C110, as a list: as long as no interior item is deleted and no single item is sorted with a 32-bit
    size_t, the text of mu_array.c implements the bounded list of C01. *)
Theorem C110_source_history_partial : forall p fuel ext ext_ptr fp m ab sb eb storage ops,
  start_mem m ab sb eb storage -> let cap := Z.of_nat (length storage) in
  valid_cap p cap -> cap <= 1073741824 -> 4294967296 + cap < Z.of_nat fuel ->
  (forall op, In op ops -> aop_typed p op /\ acmp_ok ext_ptr fp op) ->
  (forall ops1 op ops2 os l, ops = (ops1 ++ op :: ops2)%list -> asteps cap [] ops1 os l -> asafe p l op) ->
  exists m1 os m2 l t, acall p fuel ext ext_ptr "mu_array_init" [VP ab 0; VP sb 0; VI cap] m = Ok (VP ab 0, m1) /\
    src_aops p fuel ext ext_ptr fp ab eb ops m1 = Ok (os, m2) /\
    asteps cap [] ops os l /\
    heap m2 !! ab = Some [VP sb 0; VI cap; VI (len l)] /\ heap m2 !! sb = Some (VI <$> (l ++ t)%list) /\
    untouched m m2 [ab; sb; eb].
Proof.
  intros p fuel ext ext_ptr fp m ab sb eb storage ops [(c & H1 & Hc3) H2 (v0 & H3) (Hne & He1 & He2)] cap Hv Hcap Hf Hops Hsafe.
  assert (Hr : 0 <= cap < size_mod p) by (destruct Hv; unfold size_max in *; destruct p; cbn in *; lia).
  unfold acall at 1. erewrite src_init by done. cbn [bind].
  set (m1 := set_array m ab sb (mu_array_init storage cap)).
  assert (Hx : xreps p (mu_array_init storage cap) [] storage).
  { unfold xreps, mu_array_init, mu_array_reset, len; simpl. split_and!; done. }
  destruct (set_heap m ab sb eb (mu_array_init storage cap) v0 Hne He1 He2 H3) as (Q1 & Q2 & Q3 & Qu). fold m1 in Q1, Q2, Q3, Qu.
  pose proof (ops_same p fuel ext ext_ptr fp ab sb eb ops m1 _ _ _ v0 Hx Q1 Q2 Hne He1 He2 Q3 Hops Hf) as HS.
  pose proof (xrun p ops _ _ _ Hx (fun op Hop => proj1 (Hops op Hop))) as HX.
  destruct (C01_array_history_partial p storage cap ops Hv Hcap eq_refl ltac:(intros op Hop; apply Hops; done) Hsafe) as (os & a' & HE & Hst & _).
  rewrite HE in HS, HX. destruct HS as (m2 & HS & R1 & R2 & Ru). destruct HX as (l & t & _ & Hx2 & Hc2).
  rewrite (areps_contents _ _ _ (xreps_areps _ _ _ _ Hx2)) in Hst. destruct Hx2 as (_ & _ & Hsto & _ & Hcnt).
  exists m1, os, m2, l, t. unfold acells in R1. rewrite R1, R2, Hsto, Hcnt, Hc2. split_and!; try done.
  destruct Qu as [Hn1 Hu1], Ru as [Hn2 Hu2]. split; [congruence|]. intros b Hb. rewrite Hu2, Hu1 by done. done.
Qed.
Print Assumptions C110_source_history_partial.

(** Call by call, in any state of the array object and for storage of any size: what the text returns,
    stores and touches, and when it is undefined, is what the model used by C01-C07, C64, C88 and C104 says. *)
Theorem C110_source_is_model : forall p fuel ext ext_ptr fp m ab sb eb a op v0,
  array_at p m ab sb a -> eb <> ab -> eb <> sb -> heap m !! eb = Some [v0] ->
  aop_typed p op -> acmp_ok ext_ptr fp op -> 4294967296 + Z.of_nat (length (a_store a)) < Z.of_nat fuel -> arun1 p a op <> NoFuel ->
  match arun1 p a op with
  | Ok (o, a') => exists m' v1, src_aop p fuel ext ext_ptr fp ab eb op m = Ok (o, m') /\
      heap m' !! ab = Some [VP sb 0; VI (mu_array_capacity a'); VI (mu_array_count a')] /\
      heap m' !! sb = Some (VI <$> a_store a') /\ heap m' !! eb = Some [v1] /\ untouched m m' [ab; sb; eb]
  | _ => src_aop p fuel ext ext_ptr fp ab eb op m = UB
  end.
Proof.
  intros p fuel ext ext_ptr fp m ab sb eb a op v0 H1 H2 H3 H4 H5 H6 H7 H8.
  pose proof (op_same p fuel ext ext_ptr fp m ab sb eb a op v0 H1 H2 H3 H4 H5 H6 H7 H8) as H. unfold same in H.
  destruct (arun1 p a op) as [[o a']| |]; done.
Qed.
Print Assumptions C110_source_is_model.

(** a start memory exists, the loops need no more than [fuel], and the text can be run: with 32- and with
    64-bit size_t, a comparison function at address 77 *)
Definition ex_cmp (x y : Z) : Z := if x <? y then -1 else if y <? x then 1 else 0.
Definition ex_ext_ptr (v : val) (vs : list val) (m : mem) : res (val * ty * mem) :=
  match v, vs with VI 77, [VI x; VI y] => Ok (VI (ex_cmp x y), int, m) | _, _ => UB end.
Definition ex_mem : mem := MkMem (<[10%nat := [VU; VU; VU]]> (<[11%nat := [VI 7; VI 7; VI 7; VI 7]]> (<[12%nat := [VU]]> ∅))) 20.
Definition ex_ops : list aop := [APush 5; APush 3; AInsert 9 1; APush 4; APush 1; ASort ex_cmp; ARef 2; AIndex 9; ARindex 8; APop; APeek;
  AInsertSorted ex_cmp 4; ADelete 3; ACount; ADelete 7; AIsFull].
Example C110_start : start_mem ex_mem 10 11 12 [7;7;7;7] /\ comparator ex_ext_ptr (VI 77) ex_cmp /\
  exists fuel, 4294967296 + 4 < Z.of_nat fuel.
Proof.
  split; [split; [eexists|..|eexists|]; done|]. split; [|exists (Z.to_nat 5000000000); rewrite Z2Nat.id; done].
  split; [done|]. split; [done|]. intros x y. unfold ex_cmp, int_min, int_max. destruct (x <? y), (y <? x); lia.
Qed.
Example C110_run : forall p, p = P32 \/ p = P64 ->
  (let* '(_, m1) := acall p 20 (fun _ _ _ => UB) ex_ext_ptr "mu_array_init" [VP 10 0; VP 11 0; VI 4] ex_mem in
   let* '(os, m2) := src_aops p 20 (fun _ _ _ => UB) ex_ext_ptr (fun _ => VI 77) 10 12 ex_ops m1 in
   Ok (os, heap m2 !! 11%nat)) =
  Ok ([OBool true; OBool true; OBool true; OBool true; OBool false; OUnit; OItem true (Some 5); OIdx (Some 3); OIdx None;
       OItem true (Some 9); OItem true (Some 5); OBool true; OItem true (Some 5); ONum 3; OItem false None; OBool false],
      Some [VI 3; VI 4; VI 4; VI 5]).
Proof. intros p [-> | ->]; vm_compute; reflexivity. Qed.
