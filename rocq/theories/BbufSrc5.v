(** * mu_bbuf, continued: trim, bisect, and the functions which write bytes *)
From Verif Require Import BbufModel.
From Verif Require Import CSym SrcBvec BbufSrc BbufSrc2 BbufSrc3 BbufSrc4.
Open Scope string_scope. Open Scope Z_scope.
Notation length := List.length.
Section bbuf.
Context (p : plat) (fuel : nat) (base : nat) (pr : val -> val -> Z -> bool).
Notation call d := (CLang.call p bvec_prog fuel (libc p) (user_pred pr) d).
Notation pv := (ptrval base).
Notation mrep := (mrep base).
Notation isb := (isb base).
Notation fits := (fits p fuel).
Notation T := (Tptr (Tstruct "mu_bbuf_t")).
Notation U8 := (Tint false W8).
Implicit Types (M : mem) (m : memory).
Notation lp d n c st bd := (loop n (CLang.test p bvec_prog (call d) (user_pred pr) c) (CLang.exec p bvec_prog (call d) (user_pred pr) fuel bd) (CLang.exec p bvec_prog (call d) (user_pred pr) fuel st)).
Notation sset := (sset base).
Ltac csw := repeat first [rewrite st_1 | rewrite st_2 | hstep | cti | cstep | progress change (Z.opp 1) with (-1)].
Ltac call_hook ::= first [erewrite src_capacity by eassumption | erewrite src_bytes_ro by eassumption | erewrite src_bytes_rw by eassumption | erewrite src_is_decimal by eassumption].

(** *** trim *)
Lemma find_pred_lt m pred cap r : forall k q i, 0 <= i -> find_predicate_loop k m q pred i cap = Ok r -> r = MU_BBUF_NOT_FOUND \/ 0 <= r < cap.
Proof.
  induction k as [|k IH]; intros q i Hi; cbn [find_predicate_loop]; (destruct (Z.ltb_spec i cap); [|intros [= <-]; by left]); [done|].
  destruct (rd m q 0); [|done..]. destruct (padd m q 1); [|done..]. cbn [bind]. destruct (negb _); [intros [= <-]; right; lia|]. destruct (iadd i 1) eqn:E; [|done..]. apply iadd_inv in E as [-> ?]. apply IH. lia.
Qed.
Lemma ltrim_cap m e e' dst src b b' pred : 0 <= capacity b < size_mod p -> e !! src = Some b -> mu_bbuf_ltrim p m e dst src pred = Ok e' -> e' !! dst = Some b' -> capacity b' <= capacity b.
Proof.
  intros Hc He Hr Hb'. pose proof (to_int_le (capacity b) ltac:(lia)) as Hl. pose proof (to_int_r (capacity b)) as Hr1. pose proof (size_mod_big p) as Hbig. ints. unfold mu_bbuf_ltrim, sget in Hr. rewrite He in Hr. cbn [bind] in Hr. destruct (mu_bbuf_find_predicate _ _ _) as [idx| |] eqn:Ei; try discriminate Hr. cbn [bind] in Hr.
  destruct (Z.eqb_spec idx MU_BBUF_NOT_FOUND) as [->|Hn].
  { rewrite (copy_env e dst src b e' He Hr) in Hb'. destruct (decide (dst < length e)%nat). - rewrite list_lookup_insert in Hb' by done. injection Hb' as <-. lia. - rewrite list_insert_ge in Hb' by lia. apply lookup_lt_Some in Hb'. lia. }
  apply find_pred_lt in Ei as [|Hi]; [done| |lia]. unfold mu_bbuf_slice, sget, mu_bbuf_init_ro, sput in Hr. rewrite He in Hr. cbn [bind] in Hr. unfold mu_bbuf_capacity in Hi.
  destruct (Z.ltb_spec idx 0); [lia|]. unfold MU_BBUF_END in Hr. rewrite (to_size_id p idx), (to_size_id p int_max) in Hr by lia. destruct (Z.ltb_spec (capacity b) idx); [lia|]. destruct (Z.eqb_spec idx int_max) as [->|]; [lia|].
  cbn [orb] in Hr. destruct (Z.ltb_spec int_max 0); [lia|]. rewrite Z.eqb_refl, orb_true_r in Hr. destruct (Z.ltb_spec (to_int (capacity b)) idx); [lia|].
  destruct (padd _ _ _); try discriminate Hr. cbn [bind] in Hr. unfold isub in Hr. rewrite ichk_ok in Hr by lia. cbn [bind] in Hr. destruct (e !! dst) eqn:Ed; try discriminate Hr. injection Hr as <-.
  rewrite list_lookup_insert in Hb' by (eapply lookup_lt_Some; exact Ed). injection Hb' as <-. cbn [capacity]. rewrite to_size_id; lia.
Qed.
Lemma sset_sset M a b b' : slot M a -> sset (sset M a b) a b' = sset M a b'.
Proof. intros (x & y & rest & H). unfold BbufSrc4.sset at 2 3. rewrite H. unfold BbufSrc4.sset. cbn [heap next]. rewrite lookup_insert, insert_insert. reflexivity. Qed.
Lemma src_trim d M m e e' dst src s1 s2 b fb a : mrep M m -> slot M s1 -> (forall k, (k < length m)%nat -> s1 <> (base + k)%nat) -> isb M s2 b -> fits b -> anyptr a ->
  e !! src = Some b -> mu_bbuf_trim p m e dst src (pr (VP fb 0) a) = Ok e' ->
  exists b', e' = <[dst := b']> e /\ call (S (S (S (S d)))) "mu_bbuf_trim" [VP s1 0; VP s2 0; VP fb 0; a] M = Ok (VP s1 0, T, sset M s1 b') /\ 0 <= capacity b' < size_mod p.
Proof.
  intros Hm Hs1 Hne Hs2 F Ha He Hr. unfold mu_bbuf_trim in Hr. destruct (mu_bbuf_ltrim _ _ _ _ _ _) as [e1| |] eqn:El; try discriminate Hr. cbn [bind] in Hr.
  destruct (src_ltrim p fuel base pr d M m e e1 dst src s1 s2 b fb a Hm Hs1 Hs2 F Ha He El) as (b1 & -> & Hcall & Hb1).
  assert (Hd : (dst < length e)%nat). { destruct (decide (dst < length e)%nat); [done|]. exfalso. revert Hr. unfold mu_bbuf_rtrim, sget. rewrite lookup_ge_None_2 by (rewrite insert_length; lia). done. }
  assert (Hcap : capacity b1 <= capacity b) by (apply (ltrim_cap m e _ dst src b b1 _ (proj1 F) He El); by apply list_lookup_insert).
  assert (F1 : fits b1) by (destruct F; split; lia).
  destruct (src_rtrim p fuel base pr d (sset M s1 b1) m (<[dst := b1]> e) e' dst dst s1 s1 b1 fb a) as (b2 & -> & Hcall2 & Hb2); [by apply sset_mrep|by apply sset_slot|by apply sset_isb|done|done|by apply list_lookup_insert|exact Hr|].
  exists b2. split; [apply list_insert_insert|]. split; [|done]. rewrite sset_sset in Hcall2 by done.
  assert (Ha1 : defined a = Ok a /\ conv p (Tptr Tvoid) a = Ok a) by (destruct Ha as [-> |(?&?&->)]; done). destruct Ha1 as [Ha1 Ha2].
  erewrite call_S by reflexivity. csw. reflexivity.
Qed.

(** *** bisect *)
Lemma src_init_ro_z d M s q z : slot M s -> call (S d) "mu_bbuf_init_ro" [VP s 0; VP (base + blk q) (off q); VI z] M = Ok (VP s 0, T, sset M s (MkBbuf q (to_size p z))).
Proof. intros (x1 & y & rest & H1). unfold BbufSrc4.sset. rewrite H1. assert (Hcz : conv p Tsize (VI z) = Ok (VI (to_size p z))) by done. erewrite call_S by reflexivity. csw. reflexivity. Qed.
Definition oaddr (o : option nat) : val := match o with Some a => VP a 0 | None => VI 0 end.
Definition oset M (o : option nat) (b : bbuf) : mem := match o with Some a => sset M a b | None => M end.
Definition oput (e : list bbuf) (o : option nat) (b : bbuf) : list bbuf := match o with Some i => <[i := b]> e | None => e end.
Lemma isb_after M s b l bl : isb M s b -> slot M l -> bytes bl = bytes b -> exists c, isb (sset M l bl) s (MkBbuf (bytes b) c).
Proof.
  intros Hs Hl Hb. destruct (decide (s = l)) as [->|Hne]. - exists (capacity bl). rewrite <- Hb. replace (MkBbuf (bytes bl) (capacity bl)) with bl by (by destruct bl). by apply sset_isb.
  - exists (capacity b). destruct Hs as [rest Hs]. exists rest. rewrite sset_ne by done. exact Hs.
Qed.
Definition bisect_ix (cap index : Z) : res Z :=
  if index <? 0 then iadd cap index else if (cap <? index) || (index =? MU_BBUF_END) then Ok cap else Ok index.
Definition env_bi (l r : option nat) (s : nat) (index cap : Z) : env := [("left", BReg T (oaddr l)); ("right", BReg T (oaddr r)); ("src", BReg T (VP s 0)); ("index", BReg int (VI index)); ("src_capacity", BReg int (VI cap))].
Lemma bisect_ix_src d M l r s index cap i : int_min <= cap <= int_max -> int_min <= index <= int_max -> bisect_ix cap index = Ok i ->
  exec p bvec_prog (call d) (user_pred pr) fuel (SIf (EBin Lt (EVar "index") (EInt 0))
        (SExpr (EAssign (EVar "index") (EBin Add (EVar "src_capacity") (EVar "index"))))
        (SIf (EOr (EBin Gt (EVar "index") (EVar "src_capacity")) (EBin Eq (EVar "index") (EInt 2147483647)))
          (SExpr (EAssign (EVar "index") (EVar "src_capacity")))
          SSkip)) (env_bi l r s index cap, M) = Ok (Next, (env_bi l r s i cap, M)) /\ int_min <= i <= int_max.
Proof.
  intros Hc Hi H. ints. unfold bisect_ix, MU_BBUF_END in H. rewrite Himax in H. unfold env_bi. destruct (index <? 0) eqn:E.
  - apply iadd_inv in H as [-> H]. split; [|done]. csw. reflexivity.
  - destruct (cap <? index) eqn:E1; cbn [orb] in H; [|destruct (index =? 2147483647) eqn:E2]; injection H as <-; (split; [|done]); csw; reflexivity.
Qed.
Lemma src_bisect d M m e e' src (l r : option nat) (al ar : nat -> nat) s b index : mrep M m -> isb M s b -> fits b -> int_min <= index <= int_max ->
  (forall i, l = Some i -> slot M (al i)) -> (forall i, r = Some i -> slot M (ar i)) -> (forall i, l = Some i -> forall k, (k < length m)%nat -> al i <> (base + k)%nat) ->
  e !! src = Some b -> mu_bbuf_bisect p m e l r src index = Ok e' ->
  exists bl br, e' = oput (oput e l bl) r br /\
    call (S (S d)) "mu_bbuf_bisect" [oaddr (al <$> l); oaddr (ar <$> r); VP s 0; VI index] M = Ok (VP s 0, T, oset (oset M (al <$> l) bl) (ar <$> r) br) /\
    bytes bl = bytes b /\ blk (bytes br) = blk (bytes b) /\ 0 <= capacity bl < size_mod p /\ 0 <= capacity br < size_mod p.
Proof.
  intros Hm Hs [Hc Hf] Hix Hl Hr Hal He H. ints. pose proof (to_int_r (capacity b)) as Hc1. unfold mu_bbuf_bisect, sget, mu_bbuf_capacity, mu_bbuf_bytes_ro in H. rewrite He in H. cbn [bind] in H.
  fold (bisect_ix (to_int (capacity b)) index) in H. destruct (bisect_ix _ _) as [i| |] eqn:Ei; try discriminate H. cbn [bind] in H.
  destruct (bisect_ix_src (S d) M (al <$> l) (ar <$> r) s index (to_int (capacity b)) i Hc1 Hix Ei) as [Hex Hir]. unfold env_bi in Hex.
  set (bl := MkBbuf (bytes b) (to_size p i)).
  assert (Hsrc2 : exists c, isb (oset M (al <$> l) bl) s (MkBbuf (bytes b) c)).
  { destruct l as [l|]; cbn [option_fmap option_map oset fmap]; [by apply isb_after; [|apply Hl|]|exists (capacity b); by destruct b]. }
  destruct Hsrc2 as [c Hsrc2]. pose proof (isb_slot _ _ _ _ Hsrc2) as _.
  assert (Hro2 : call (S d) "mu_bbuf_bytes_ro" [VP s 0] (oset M (al <$> l) bl) = Ok (VP (base + blk (bytes b)) (off (bytes b)), Tptr U8, oset M (al <$> l) bl)).
  { exact (src_bytes_ro p fuel base pr d _ s _ Hsrc2). }
  assert (Hput : exists e1, match l with Some l => mu_bbuf_init_ro e l (bytes b) (to_size p i) | None => Ok e end = Ok e1 /\ e1 = oput e l bl /\ exists b2, e1 !! src = Some b2 /\ bytes b2 = bytes b).
  { destruct l as [l|]; [|exists e; eauto]. cbn [bind] in *. unfold mu_bbuf_init_ro, sput in *. destruct (e !! l) eqn:Eel; [|discriminate H]. eexists. split; [done|]. split; [done|].
    destruct (decide (src = l)) as [->|Hne]; [rewrite list_lookup_insert by (eapply lookup_lt_Some; exact Eel); eauto|rewrite list_lookup_insert_ne by done; eauto]. }
  destruct Hput as (e1 & He1 & -> & b2 & Hb2 & Hbb). rewrite He1 in H. cbn [bind] in H. rewrite Hb2 in H. cbn [bind] in H. rewrite Hbb in H.
  assert (Hmid : exec p bvec_prog (call (S d)) (user_pred pr) fuel (SIf (EBin Ne (EVar "left") (EInt 0))
          (SExpr (CLang.ECall "mu_bbuf_init_ro" [EVar "left"; CLang.ECall "mu_bbuf_bytes_ro" [EVar "src"]; EVar "index"]))
          SSkip) (env_bi (al <$> l) (ar <$> r) s i (to_int (capacity b)), M) = Ok (Next, (env_bi (al <$> l) (ar <$> r) s i (to_int (capacity b)), oset M (al <$> l) bl))).
  { unfold env_bi. destruct l as [l|]; cbn [option_fmap option_map oset oaddr fmap]; [|csw; reflexivity]. pose proof (src_init_ro_z d M (al l) (bytes b) i (Hl l eq_refl)) as Hin. csw. reflexivity. }
  unfold env_bi in Hmid.
  assert (Hdl : defined (oaddr (al <$> l)) = Ok (oaddr (al <$> l))) by (destruct l; done).
  destruct r as [r|].
  - destruct (padd _ _ _) as [q| |] eqn:Eq; try discriminate H. cbn [bind] in H.
    assert (Hlt : (blk (bytes b) < length m)%nat) by (revert Eq; unfold padd; destruct (m !! blk (bytes b)) eqn:Elt; [intros _; exact (lookup_lt_Some _ _ _ Elt)|done]).
    inv1 Eq Hm. uniq. destruct (isub _ _) as [n| |] eqn:En; try discriminate H. cbn [bind] in H. apply isub_inv in En as [-> Hn].
    unfold mu_bbuf_init_ro, sput in H. destruct (oput e l bl !! r) eqn:Er; try discriminate H. injection H as <-.
    eexists bl, _. split; [reflexivity|]. split; [|split; [done|]; split; [|split; apply to_size_range]; done].
    cbn [option_fmap option_map oset oaddr fmap] in *. 
    assert (Hsl : slot (oset M (al <$> l) bl) (ar r)). { destruct l as [l|]; cbn [option_fmap option_map oset fmap]; [apply sset_slot|]; by apply Hr. }
    pose proof (src_init_ro_z d (oset M (al <$> l) bl) (ar r) (Ptr (blk (bytes b)) (off (bytes b) + i)) (to_int (capacity b) - i) Hsl) as Hin2. cbn [blk off] in Hin2.
    assert (Hlk : heap (oset M (al <$> l) bl) !! (base + blk (bytes b))%nat = Some (VI <$> x)).
    { destruct l as [l|]; cbn [option_fmap option_map oset fmap]; [|done]. rewrite sset_ne; [done|]. intros E. by apply (Hal l eq_refl _ Hlt). }
    assert (Hcap : call (S d) "mu_bbuf_capacity" [VP s 0] M = Ok (VI (capacity b), Tsize, M)) by (exact (src_capacity p fuel base pr d M s b Hs Hc)).
    erewrite call_S by reflexivity. csw. reflexivity.
  - injection H as <-. eexists bl, (MkBbuf (bytes b) 0). split; [reflexivity|]. pose proof (size_mod_pos p). split; [|split; [done|]; split; [done|]; split; [apply to_size_range|cbn [capacity]; lia]].
    cbn [option_fmap option_map oset oaddr fmap] in *.
    assert (Hcap : call (S d) "mu_bbuf_capacity" [VP s 0] M = Ok (VI (capacity b), Tsize, M)) by (exact (src_capacity p fuel base pr d M s b Hs Hc)).
    erewrite call_S by reflexivity. csw. reflexivity.
Qed.

(** *** get_byte, put_byte, clear *)
(** the objects which are not byte blocks stay *)
Definition frame M M' (m : memory) : Prop := (next M <= next M')%nat /\ forall k, (k < next M)%nat -> (forall j, (j < length m)%nat -> k <> (base + j)%nat) -> heap M' !! k = heap M !! k.
Definition bput M (k : nat) (d : list Z) : mem := MkMem (<[(base + k)%nat := VI <$> d]> (heap M)) (next M).
Lemma wr_inv M m q i v m' : mrep M m -> wr m q i v = Ok m' -> 0 <= v < 256 ->
  exists d d', heap M !! (base + blk q)%nat = Some (VI <$> d) /\ st d (off q + i) v = Ok d' /\ 0 <= off q + i < Z.of_nat (length d) /\ m' = <[blk q := d']> m /\ mrep (bput M (blk q) d') m'.
Proof.
  intros Hm. unfold wr. destruct (m !! blk q) as [d|] eqn:E; [|done]. destruct (st d (off q + i) v) as [d'| |] eqn:Es; try done. cbn [bind]. intros [= <-] Hv. destruct (Hm _ _ E) as [H1 H2].
  exists d, d'. split; [done|]. split; [done|]. split; [exact (st_bounds _ _ _ _ Es)|]. split; [done|]. intros k dd Hk. unfold bput. cbn [heap].
  destruct (decide (k = blk q)) as [->|Hne].
  - rewrite list_lookup_insert in Hk by (eapply lookup_lt_Some; exact E). injection Hk as <-. rewrite lookup_insert. split; [done|]. revert Es. unfold st. destruct (_ && _); [|done]. intros [= <-]. by apply Forall_insert.
  - rewrite list_lookup_insert_ne in Hk by done. rewrite lookup_insert_ne by lia. by apply Hm.
Qed.
Lemma bput_isb M s b k d x : isb M s b -> heap M !! (base + k)%nat = Some (VI <$> x) -> isb (bput M k d) s b.
Proof.
  intros [rest H] Hx. exists rest. unfold bput. cbn [heap]. rewrite lookup_insert_ne; [done|]. intros E. rewrite E, H in Hx. destruct x; unfold ptrval in Hx; discriminate Hx.
Qed.
Lemma bput_frame M m k d : (k < length m)%nat -> frame M (bput M k d) m.
Proof. intros Hk. split; [done|]. intros k' _ H. unfold bput. cbn [heap]. rewrite lookup_insert_ne; [done|]. intros E. by apply (H k). Qed.
Lemma frame_refl M m : frame M M m. Proof. by split. Qed.
Lemma frame_trans M1 M2 M3 m1 m2 : frame M1 M2 m1 -> frame M2 M3 m2 -> length m1 = length m2 -> frame M1 M3 m1.
Proof. intros [H1 H2] [H3 H4] Hl. split; [lia|]. intros k Hk Hj. rewrite H4; [by apply H2|lia|by rewrite <- Hl]. Qed.
Lemma src_get_byte d M m s b index a x0 xs r : mrep M m -> isb M s b -> 0 <= capacity b < size_mod p -> 0 <= index < size_mod p -> heap M !! a = Some (x0 :: xs) -> mu_bbuf_get_byte m b index = Ok r ->
  call (S d) "mu_bbuf_get_byte" [VP s 0; VI index; VP a 0] M = Ok (truth r.1, Tbool, match r.2 with Some x => MkMem (<[a := VI x :: xs]> (heap M)) (next M) | None => M end).
Proof.
  intros Hm [rest Hs] Hc Hi Ha Hr. ints. unfold ptrval in Hs. unfold mu_bbuf_get_byte in Hr. destruct (capacity b <=? index) eqn:E. { injection Hr as <-. erewrite call_S by reflexivity. csw. reflexivity. }
  mstepn Hm Hr xa. injection Hr as <-. erewrite call_S by reflexivity. csw. reflexivity.
Qed.
Lemma wr_len m q i v m' : wr m q i v = Ok m' -> (blk q < length m)%nat /\ length m' = length m.
Proof. unfold wr. destruct (m !! blk q) eqn:E; [|done]. destruct (st _ _ _); try done. intros [= <-]. split; [exact (lookup_lt_Some _ _ _ E)|apply insert_length]. Qed.
Lemma src_put_byte d M m s b index v r m' : mrep M m -> isb M s b -> 0 <= capacity b < size_mod p -> 0 <= index < size_mod p -> 0 <= v < 256 -> mu_bbuf_put_byte m b index v = Ok (r, m') ->
  exists M', call (S d) "mu_bbuf_put_byte" [VP s 0; VI index; VI v] M = Ok (truth r, Tbool, M') /\ mrep M' m' /\ frame M M' m.
Proof.
  intros Hm [rest Hs] Hc Hi Hv Hr. ints. unfold ptrval in Hs. unfold mu_bbuf_put_byte in Hr. destruct (capacity b <=? index) eqn:E. { injection Hr as <- <-. exists M. split; [|split; [done|apply frame_refl]]. erewrite call_S by reflexivity. csw. reflexivity. }
  destruct (wr m (bytes b) index v) as [m1| |] eqn:Ew; try discriminate Hr. injection Hr as <- <-. pose proof (wr_len _ _ _ _ _ Ew) as [Hlt _]. destruct (wr_inv M m (bytes b) index v m1 Hm Ew Hv) as (dd & d' & H1 & H2 & H3 & -> & H5).
  exists (bput M (blk (bytes b)) d'). split; [|split; [done|by apply bput_frame]]. erewrite call_S by reflexivity. csw. reflexivity.
Qed.
(** memset *)
Lemma src_memset d M m q v n z m' : mrep M m -> mset m q v n = Ok m' -> 0 <= v < 256 -> to_size p z = n ->
  exists d', call d "memset" [VP (base + blk q) (off q); VI v; VI z] M = Ok (VP (base + blk q) (off q), Tptr Tvoid, bput M (blk q) d') /\ mrep (bput M (blk q) d') m' /\ (blk q < length m)%nat /\ length m' = length m /\ exists x, heap M !! (base + blk q)%nat = Some (VI <$> x).
Proof.
  intros Hm Hs Hv Hz. rewrite (call_ext p fuel pr d) by reflexivity. unfold mset in Hs. destruct (m !! blk q) as [c|] eqn:E; [|done]. destruct (Hm _ _ E) as [Hh Hc].
  destruct (Z.leb_spec 0 (off q)); [|done]. destruct (Z.leb_spec 0 n); [|done]. destruct (Z.leb_spec (off q + n) (Z.of_nat (length c))); [|done]. cbn [andb] in Hs. injection Hs as <-.
  set (c' := (take _ c ++ replicate _ v ++ drop _ c)%list). exists c'. split; [|split].
  - cbn [libc String.eqb Ascii.eqb Bool.eqb]. rewrite Hh. cbn [ofopt bind]. rewrite fmap_length, Hz. destruct (Z.leb_spec 0 (off q)); [|lia]. destruct (Z.leb_spec (off q + n) (Z.of_nat (length c))); [|lia]. cbn [andb]. rewrite Z.mod_small by lia.
    unfold bput, c'. do 4 f_equal. rewrite !fmap_app, fmap_take, fmap_replicate, fmap_drop. reflexivity.
  - intros k dd Hk. unfold bput. cbn [heap]. destruct (decide (k = blk q)) as [->|Hne].
    + rewrite list_lookup_insert in Hk by (eapply lookup_lt_Some; exact E). injection Hk as <-. rewrite lookup_insert. split; [done|]. unfold c'. rewrite !Forall_app. split; [by apply Forall_take|]. split; [by apply Forall_replicate|by apply Forall_drop].
    + rewrite list_lookup_insert_ne in Hk by done. rewrite lookup_insert_ne by lia. by apply Hm.
  - split; [exact (lookup_lt_Some _ _ _ E)|]. split; [apply insert_length|]. eauto.
Qed.
Lemma src_clear d M m s b m' : mrep M m -> isb M s b -> 0 <= capacity b < size_mod p -> mu_bbuf_clear m b = Ok m' ->
  exists M', call (S d) "mu_bbuf_clear" [VP s 0] M = Ok (VP s 0, T, M') /\ mrep M' m' /\ frame M M' m.
Proof.
  intros Hm [rest Hs] Hc Hr. unfold ptrval in Hs. unfold mu_bbuf_clear in Hr. destruct (src_memset d M m (bytes b) 0 (capacity b) (capacity b) m' Hm Hr ltac:(lia)) as (d' & H1 & H2 & H3 & H4 & x & H5); [by apply to_size_id|].
  exists (bput M (blk (bytes b)) d'). split; [|split; [done|by apply bput_frame]]. erewrite call_S by reflexivity. csw. reflexivity.
Qed.
End bbuf.
