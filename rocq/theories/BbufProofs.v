(** * Lemmas about the mu_bbuf model *)
From Verif Require Import CSem BbufModel BbufSpec.

(** ** Pointers between two parts of a block *)
Definition at_ (m : memory) (q : ptr) (pre post : list Z) : Prop :=
  m !! blk q = Some (pre ++ post) /\ off q = Z.of_nat (length pre).

Lemma at_rd m q pre x post : at_ m q pre (x :: post) -> rd m q 0 = Ok x.
Proof.
  intros [H1 H2]. unfold rd. rewrite H1, H2. apply ld_okZ; [lia|].
  rewrite Z.add_0_r, Nat2Z.id. by rewrite list_lookup_middle.
Qed.
Lemma at_rdi m q pre post (i : nat) x : at_ m q pre post -> post !! i = Some x -> rd m q (Z.of_nat i) = Ok x.
Proof.
  intros [H1 H2] Hx. unfold rd. rewrite H1, H2. apply ld_okZ; [lia|].
  rewrite lookup_app_r by lia. rewrite <- Hx. f_equal. lia.
Qed.
Lemma at_padd m q pre mid post i : at_ m q pre (mid ++ post) -> i = Z.of_nat (length mid) ->
  exists q', padd m q i = Ok q' /\ at_ m q' (pre ++ mid) post /\ blk q' = blk q /\ off q' = off q + i.
Proof.
  intros [H1 H2] ->. unfold padd. rewrite H1, H2, !app_length.
  destruct (Z.leb_spec 0 (Z.of_nat (length pre) + Z.of_nat (length mid))); [|lia].
  destruct (Z.leb_spec (Z.of_nat (length pre) + Z.of_nat (length mid)) (Z.of_nat (length pre + (length mid + length post)))); [|lia].
  eexists. split; [done|]. repeat split; simpl; rewrite ?app_assoc_reverse, ?app_length; try done. lia.
Qed.
Lemma at_next m q pre x post : at_ m q pre (x :: post) ->
  exists q', padd m q 1 = Ok q' /\ at_ m q' (pre ++ [x]) post /\ blk q' = blk q /\ off q' = off q + 1.
Proof. intros H. apply (at_padd m q pre [x] post 1 H). done. Qed.
Lemma at_prev m q pre x post : at_ m q (pre ++ [x]) post ->
  exists q', padd m q (-1) = Ok q' /\ at_ m q' pre (x :: post) /\ blk q' = blk q /\ off q' = off q - 1.
Proof.
  intros [H1 H2]. unfold padd. rewrite H1, H2, !app_length. simpl length.
  zb; simpl; try lia. eexists. split; [done|].
  repeat split; simpl; rewrite ?H1, ?app_assoc_reverse; try done. lia.
Qed.

Lemma buf_at_at m b pre l post : buf_at m b pre l post -> at_ m (bytes b) pre (l ++ post).
Proof. intros (H1 & H2 & _). split; done. Qed.
Lemma buf_at_cap m b pre l post : buf_at m b pre l post ->
  to_int (capacity b) = Z.of_nat (length l) /\ 0 <= Z.of_nat (length l) <= int_max.
Proof.
  intros (_ & _ & H3 & H4). rewrite H3, to_int_id; [lia|]. unfold int_min. lia.
Qed.

Lemma mem_bytes_buf m b pre l post : mem_bytes m -> buf_at m b pre l post -> Forall is_byte l.
Proof.
  intros Hm (H1 & _). unfold mem_bytes in Hm. rewrite Forall_lookup in Hm. apply Hm in H1.
  rewrite !Forall_app in H1. tauto.
Qed.

(** ** strlen *)
Lemma strlen_loop_ok m q pre s post : at_ m q pre (s ++ 0 :: post) -> Forall (fun c => c <> 0) s ->
  forall k done fuel, s = done ++ k -> (length k <= fuel)%nat ->
  strlen_loop fuel m q (Z.of_nat (length done)) = Ok (Z.of_nat (length s)).
Proof.
  intros Hat Hs k. induction k as [|c k IH]; intros dn fuel Heq Hf.
  - rewrite app_nil_r in Heq. subst dn.
    assert (Hr : rd m q (Z.of_nat (length s)) = Ok 0).
    { apply (at_rdi m q pre (s ++ 0 :: post)); [done|]. by apply list_lookup_middle. }
    destruct fuel; simpl; rewrite Hr; done.
  - assert (Hr : rd m q (Z.of_nat (length dn)) = Ok c).
    { apply (at_rdi m q pre (s ++ 0 :: post)); [done|]. rewrite Heq, <- app_assoc. by apply list_lookup_middle. }
    assert (Hc : c <> 0). { rewrite Heq, Forall_app, Forall_cons in Hs. tauto. }
    destruct fuel; simpl in Hf; [lia|]. cbn [strlen_loop]. rewrite Hr. cbn [bind].
    destruct (Z.eqb_spec c 0); [done|].
    replace (Z.of_nat (length dn) + 1) with (Z.of_nat (length (dn ++ [c]))) by (rewrite app_length; simpl; lia).
    apply IH; [by rewrite <- app_assoc|lia].
Qed.
Lemma strlen_ok m q s : cstr_at m q s -> strlen m q = Ok (Z.of_nat (length s)).
Proof.
  intros (pre & post & H1 & H2 & H3 & _). unfold strlen. rewrite H1.
  apply (strlen_loop_ok m q pre s post) with (k := s) (done := []); try done.
  rewrite !app_length. lia.
Qed.
(** a C string read as a buffer *)
Lemma cstr_buf m q s : cstr_at m q s -> exists pre post, buf_at m (MkBbuf q (Z.of_nat (length s))) pre s (0 :: post).
Proof. intros (pre & post & H1 & H2 & H3 & H4). exists pre, post. repeat split; done. Qed.

(** ** Comparison *)
Fixpoint lexcmp (l1 l2 : list Z) : Z :=
  match l1, l2 with
  | x :: l1', y :: l2' => if x - y =? 0 then lexcmp l1' l2' else x - y
  | _, _ => Z.of_nat (length l1) - Z.of_nat (length l2)
  end.

Lemma compare_loop_ok m q1 pre1 post1 q2 pre2 post2 l1 l2 :
  at_ m q1 pre1 (l1 ++ post1) -> at_ m q2 pre2 (l2 ++ post2) ->
  Forall is_byte l1 -> Forall is_byte l2 ->
  Z.of_nat (length l1) <= int_max -> Z.of_nat (length l2) <= int_max ->
  forall k1 k2 d1 d2 fuel, l1 = d1 ++ k1 -> l2 = d2 ++ k2 -> length d1 = length d2 ->
  (length k1 <= fuel \/ length k2 <= fuel)%nat ->
  compare_loop fuel m q1 q2 (Z.of_nat (length d1)) (Z.of_nat (length l1 `min` length l2)) =
    Ok (if decide (lexcmp k1 k2 = Z.of_nat (length k1) - Z.of_nat (length k2) /\
                   take (length k1 `min` length k2) k1 = take (length k1 `min` length k2) k2)
        then None else Some (lexcmp k1 k2)).
Proof.
  intros Ha1 Ha2 Hb1 Hb2 Hl1 Hl2.
  induction k1 as [|x k1 IH]; intros k2 d1 d2 fuel He1 He2 Hd Hf.
  - rewrite app_nil_r in He1. subst d1.
    assert (Hlt : (length l1 <= length l2)%nat). { rewrite He2, app_length. lia. }
    rewrite Nat.min_l by lia.
    rewrite decide_True by done.
    destruct fuel; cbn [compare_loop]; destruct (Z.ltb_spec (Z.of_nat (length l1)) (Z.of_nat (length l1))); (lia || done).
  - destruct k2 as [|y k2].
    + rewrite app_nil_r in He2. subst d2.
      assert (Hlt : (length l2 <= length l1)%nat). { rewrite He1, app_length. lia. }
      rewrite Nat.min_r by lia. rewrite decide_True by done.
      destruct fuel; cbn [compare_loop]; destruct (Z.ltb_spec (Z.of_nat (length d1)) (Z.of_nat (length l2))); (lia || done).
    + destruct fuel as [|fuel]; [simpl in Hf; lia|]. cbn [compare_loop].
      assert (Hlen1 : length l1 = (length d1 + S (length k1))%nat) by (rewrite He1, app_length; done).
      assert (Hlen2 : length l2 = (length d2 + S (length k2))%nat) by (rewrite He2, app_length; done).
      destruct (Z.ltb_spec (Z.of_nat (length d1)) (Z.of_nat (length l1 `min` length l2))); [|lia].
      rewrite (at_rdi m q1 pre1 (l1 ++ post1) (length d1) x Ha1).
      2:{ rewrite He1, <- app_assoc. by apply list_lookup_middle. }
      rewrite (at_rdi m q2 pre2 (l2 ++ post2) (length d1) y Ha2).
      2:{ rewrite He2, <- app_assoc, Hd. by apply list_lookup_middle. }
      cbn [bind].
      assert (Hx : is_byte x). { rewrite He1, Forall_app, Forall_cons in Hb1. tauto. }
      assert (Hy : is_byte y). { rewrite He2, Forall_app, Forall_cons in Hb2. tauto. }
      unfold is_byte in *. unfold isub at 1. rewrite ichk_ok by (unfold int_min, int_max; lia). cbn [bind].
      destruct (Z.eqb_spec (x - y) 0) as [E|E]; cbn [negb].
      * unfold iadd. rewrite ichk_ok by (unfold int_min, int_max in *; lia). cbn [bind].
        replace (Z.of_nat (length d1) + 1) with (Z.of_nat (length (d1 ++ [x]))) by (rewrite app_length; simpl; lia).
        simpl in Hf. rewrite (IH k2 (d1 ++ [x]) (d2 ++ [y]) fuel); rewrite ?app_assoc_reverse, ?app_length; simpl; try done; [|lia|lia].
        replace (x - y =? 0) with true by lia. assert (x = y) as -> by lia.
        f_equal. apply option_eq. intros z.
        destruct (decide (lexcmp k1 k2 = Z.of_nat (length k1) - Z.of_nat (length k2) /\ take (length k1 `min` length k2) k1 = take (length k1 `min` length k2) k2)) as [Hy1|Hn1].
        -- rewrite decide_True; [done|]. destruct Hy1 as [A B]. split; [rewrite A; lia|by f_equal].
        -- rewrite decide_False; [done|]. intros [A B]. apply Hn1. split; [rewrite A; lia|by injection B].
      * rewrite decide_False.
        2:{ intros [_ B]. simpl in B. injection B as ->. lia. }
        simpl. destruct (Z.eqb_spec (x - y) 0); [lia|]. done.
Qed.

Lemma compare_ok m b1 pre1 l1 post1 q2 pre2 l2 post2 :
  mem_bytes m -> buf_at m b1 pre1 l1 post1 ->
  buf_at m (MkBbuf q2 (Z.of_nat (length l2))) pre2 l2 post2 ->
  str_compare_aux m b1 q2 (Z.of_nat (length l2)) = Ok (lexcmp l1 l2).
Proof.
  intros Hm H1 H2. unfold str_compare_aux, mu_bbuf_bytes_ro, mu_bbuf_capacity.
  pose proof (mem_bytes_buf _ _ _ _ _ Hm H1) as Hb1. pose proof (mem_bytes_buf _ _ _ _ _ Hm H2) as Hb2.
  apply buf_at_cap in H1 as Hc1. apply buf_at_cap in H2 as Hc2. simpl in Hc2.
  apply buf_at_at in H1. apply buf_at_at in H2. simpl in H2.
  destruct Hc1 as [-> Hc1]. destruct Hc2 as [_ Hc2].
  set (len := if Z.of_nat (length l1) <? Z.of_nat (length l2) then Z.of_nat (length l1) else Z.of_nat (length l2)).
  assert (len = Z.of_nat (length l1 `min` length l2)) as -> by (subst len; zb; lia).
  rewrite Nat2Z.id.
  rewrite (compare_loop_ok m (bytes b1) pre1 post1 q2 pre2 post2 l1 l2 H1 H2 Hb1 Hb2 ltac:(lia) ltac:(lia) l1 l2 [] []); try done.
  2:{ destruct (Nat.le_gt_cases (length l1) (length l2)); [left|right]; lia. }
  cbn [bind]. destruct (decide _) as [[A B]|]; [|done].
  rewrite A. unfold isub. apply ichk_ok. unfold int_min, int_max in *. lia.
Qed.

Lemma lexcmp_spec l1 : forall l2, (lexcmp l1 l2 < 0 <-> lex_lt l1 l2) /\ (lexcmp l1 l2 = 0 <-> l1 = l2) /\
  (0 < lexcmp l1 l2 <-> lex_lt l2 l1).
Proof.
  induction l1 as [|x l1 IH]; intros [|y l2]; simpl.
  - repeat split; intros H; try lia; try done; inversion H.
  - repeat split; intros H; try lia; try done; try constructor; inversion H.
  - repeat split; intros H; try lia; try done; try constructor; inversion H.
  - destruct (IH l2) as (A & B & C). destruct (Z.eqb_spec (x - y) 0) as [E|E].
    + assert (x = y) as -> by lia. rewrite A, B, C. repeat split; intros H.
      * by constructor.
      * inversion H; subst; [lia|done].
      * by subst.
      * by injection H.
      * by constructor.
      * inversion H; subst; [lia|done].
    + repeat split; intros H.
      * constructor. lia.
      * inversion H; subst; lia.
      * lia.
      * injection H as -> ->. lia.
      * constructor. lia.
      * inversion H; subst; lia.
Qed.

Lemma lex_lt_trans l1 l2 : lex_lt l1 l2 -> forall l3, lex_lt l2 l3 -> lex_lt l1 l3.
Proof.
  induction 1 as [y l|x y l1 l2 Hxy|x l1 l2 H IH]; intros l3 H3.
  - inversion H3; subst; constructor.
  - inversion H3; subst; constructor; lia.
  - inversion H3; subst; [by constructor|]. apply lex_tail. eauto.
Qed.

(** ** Prefix and suffix *)
Lemma prefix_loop_ok m k1 post1 len1 len2 : forall k2 q1 q2 pre1 pre2 post2 (idx : Z) fuel,
  at_ m q1 pre1 (k1 ++ post1) -> at_ m q2 pre2 (k2 ++ post2) ->
  idx + Z.of_nat (length k1) = len1 -> idx + Z.of_nat (length k2) = len2 ->
  (length k2 <= length k1)%nat -> (length k2 <= fuel)%nat -> 0 <= idx -> len2 <= int_max ->
  exists r, prefix_loop fuel m q1 q2 idx len1 len2 = Ok r /\ (r = len2 <-> exists rest, k1 = k2 ++ rest).
Proof.
  revert k1. intros k1 k2. revert k1.
  induction k2 as [|y k2 IH]; intros k1 q1 q2 pre1 pre2 post2 idx fuel Ha1 Ha2 Hi1 Hi2 Hle Hf H0 Hmax; simpl in *.
  - exists idx. split; [|split; [eauto|lia]].
    destruct fuel; cbn [prefix_loop]; zb; simpl; try lia; done.
  - destruct k1 as [|x k1]; simpl in *; [lia|]. destruct fuel as [|fuel]; [lia|]. cbn [prefix_loop].
    destruct (Z.ltb_spec idx len1); [|lia]. destruct (Z.ltb_spec idx len2); [|lia]. cbn [andb].
    rewrite (at_rd _ _ _ _ _ Ha1), (at_rd _ _ _ _ _ Ha2). cbn [bind].
    destruct (at_next _ _ _ _ _ Ha1) as (q1' & -> & Ha1' & _). cbn [bind].
    destruct (at_next _ _ _ _ _ Ha2) as (q2' & -> & Ha2' & _). cbn [bind].
    destruct (Z.eqb_spec x y) as [->|Hne]; cbn [negb].
    + unfold iadd. rewrite ichk_ok by (unfold int_min, int_max in *; lia). cbn [bind].
      destruct (IH k1 q1' q2' _ _ post2 (idx + 1) fuel Ha1' Ha2') as (r & -> & Hr); try lia.
      exists r. split; [done|]. rewrite Hr. split; intros (rest & HE); exists rest; [by rewrite HE|by injection HE].
    + exists idx. split; [done|]. split; [lia|]. intros (rest & HE). injection HE. intros. congruence.
Qed.

Lemma has_prefix_ok m b1 pre1 l1 post1 q2 pre2 l2 post2 :
  buf_at m b1 pre1 l1 post1 -> buf_at m (MkBbuf q2 (Z.of_nat (length l2))) pre2 l2 post2 ->
  exists r, has_prefix m b1 q2 (Z.of_nat (length l2)) = Ok r /\ (r = true <-> exists rest, l1 = l2 ++ rest).
Proof.
  intros H1 H2. unfold has_prefix, mu_bbuf_bytes_ro, mu_bbuf_capacity.
  apply buf_at_cap in H1 as Hc1. apply buf_at_cap in H2 as Hc2. simpl in Hc2.
  apply buf_at_at in H1. apply buf_at_at in H2. simpl in H2.
  destruct Hc1 as [-> Hc1]. destruct Hc2 as [_ Hc2].
  destruct (Z.eqb_spec (Z.of_nat (length l2)) 0) as [E|E].
  - assert (l2 = []) as -> by (destruct l2; [done|simpl in E; lia]). exists true. split; [done|]. split; eauto.
  - destruct (Z.ltb_spec (Z.of_nat (length l1)) (Z.of_nat (length l2))) as [E2|E2].
    + exists false. split; [done|]. split; [done|]. intros (rest & ->). rewrite app_length in E2. lia.
    + destruct (prefix_loop_ok m l1 post1 (Z.of_nat (length l1)) (Z.of_nat (length l2)) l2 (bytes b1) q2 pre1 pre2 post2 0 (Z.to_nat (Z.of_nat (length l2)))) as (r & -> & Hr); try done; try lia.
      exists (r =? Z.of_nat (length l2)). cbn [bind]. split; [done|]. rewrite Z.eqb_eq. done.
Qed.

Lemma suffix_loop_ok m len1 len2 k2 : forall k1 q1 q2 pre1 pre2 post1 post2 (idx : Z) fuel,
  at_ m q1 (pre1 ++ k1) post1 -> at_ m q2 (pre2 ++ k2) post2 ->
  idx + Z.of_nat (length k1) = len1 -> idx + Z.of_nat (length k2) = len2 ->
  (length k2 <= length k1)%nat -> (length k2 <= fuel)%nat -> 0 <= idx -> len2 <= int_max ->
  exists r, suffix_loop fuel m q1 q2 idx len1 len2 = Ok r /\ (r = len2 <-> exists rest, k1 = rest ++ k2).
Proof.
  induction k2 as [|y k2 IH] using rev_ind; intros k1 q1 q2 pre1 pre2 post1 post2 idx fuel Ha1 Ha2 Hi1 Hi2 Hle Hf H0 Hmax;
    rewrite ?app_length in *; simpl in *.
  - exists idx. split; [|split; [exists k1; by rewrite app_nil_r|lia]].
    destruct fuel; cbn [suffix_loop]; zb; simpl; try lia; done.
  - destruct k1 as [|x k1 _] using rev_ind; rewrite ?app_length in *; simpl in *; [lia|]. destruct fuel as [|fuel]; [lia|]. cbn [suffix_loop].
    destruct (Z.ltb_spec idx len1); [|lia]. destruct (Z.ltb_spec idx len2); [|lia]. cbn [andb].
    rewrite app_assoc in Ha1, Ha2.
    destruct (at_prev _ _ _ _ _ Ha1) as (q1' & -> & Ha1' & _). cbn [bind].
    destruct (at_prev _ _ _ _ _ Ha2) as (q2' & -> & Ha2' & _). cbn [bind].
    rewrite (at_rd _ _ _ _ _ Ha1'), (at_rd _ _ _ _ _ Ha2'). cbn [bind].
    destruct (Z.eqb_spec x y) as [->|Hne]; cbn [negb].
    + unfold iadd. rewrite ichk_ok by (unfold int_min, int_max in *; lia). cbn [bind].
      destruct (IH k1 q1' q2' pre1 pre2 _ _ (idx + 1) fuel Ha1' Ha2') as (r & -> & Hr); try lia.
      exists r. split; [done|]. rewrite Hr. split; intros (rest & HE); exists rest.
      * by rewrite HE, app_assoc.
      * rewrite app_assoc in HE. by apply app_inj_tail in HE as [-> _].
    + exists idx. split; [done|]. split; [lia|]. intros (rest & HE).
      rewrite app_assoc in HE. apply app_inj_tail in HE as [_ ?]. congruence.
Qed.

Lemma has_suffix_ok m b1 pre1 l1 post1 q2 pre2 l2 post2 :
  buf_at m b1 pre1 l1 post1 -> buf_at m (MkBbuf q2 (Z.of_nat (length l2))) pre2 l2 post2 ->
  exists r, has_suffix m b1 q2 (Z.of_nat (length l2)) = Ok r /\ (r = true <-> exists rest, l1 = rest ++ l2).
Proof.
  intros H1 H2. unfold has_suffix, mu_bbuf_bytes_ro, mu_bbuf_capacity.
  apply buf_at_cap in H1 as Hc1. apply buf_at_cap in H2 as Hc2. simpl in Hc2.
  apply buf_at_at in H1. apply buf_at_at in H2. simpl in H2.
  destruct Hc1 as [-> Hc1]. destruct Hc2 as [_ Hc2].
  destruct (Z.eqb_spec (Z.of_nat (length l2)) 0) as [E|E].
  - assert (l2 = []) as -> by (destruct l2; [done|simpl in E; lia]). exists true. split; [done|].
    split; [exists l1; by rewrite app_nil_r|done].
  - destruct (Z.ltb_spec (Z.of_nat (length l1)) (Z.of_nat (length l2))) as [E2|E2].
    + exists false. split; [done|]. split; [done|]. intros (rest & ->). rewrite app_length in E2. lia.
    + destruct (at_padd _ _ _ _ _ _ H1 eq_refl) as (q1' & -> & H1' & _).
      destruct (at_padd _ _ _ _ _ _ H2 eq_refl) as (q2' & -> & H2' & _). cbn [bind].
      destruct (suffix_loop_ok m (Z.of_nat (length l1)) (Z.of_nat (length l2)) l2 l1 q1' q2' pre1 pre2 post1 post2 0 (Z.to_nat (Z.of_nat (length l2)))) as (r & -> & Hr); try done; try lia.
      exists (r =? Z.of_nat (length l2)). cbn [bind]. split; [done|]. rewrite Z.eqb_eq. done.
Qed.

(** ** Substring search *)
Lemma match_loop_ok m h2 hpre hpost q2 qpre qpost h s :
  at_ m h2 hpre (h ++ hpost) -> at_ m q2 qpre (s ++ qpost) -> (length s <= length h)%nat ->
  Z.of_nat (length s) <= int_max ->
  forall k d fuel, s = d ++ k -> (length k <= fuel)%nat -> take (length d) h = d ->
  exists j, match_loop fuel m h2 q2 (Z.of_nat (length d)) (Z.of_nat (length s)) = Ok j /\
    (j = Z.of_nat (length s) <-> take (length s) h = s).
Proof.
  intros Ha Hb Hle Hmax k. induction k as [|y k IH]; intros d fuel Hs Hf Hd.
  - rewrite app_nil_r in Hs. subst d. exists (Z.of_nat (length s)). split; [|done].
    destruct fuel; cbn [match_loop]; zb; try lia; done.
  - destruct fuel as [|fuel]; simpl in Hf; [lia|]. cbn [match_loop].
    assert (Hlen : length s = (length d + S (length k))%nat) by (rewrite Hs, app_length; done).
    destruct (Z.ltb_spec (Z.of_nat (length d)) (Z.of_nat (length s))); [|lia].
    destruct (lookup_lt_is_Some_2 h (length d)) as [x Hx]; [lia|].
    rewrite (at_rdi m h2 hpre (h ++ hpost) (length d) x Ha) by (by apply lookup_app_l_Some).
    rewrite (at_rdi m q2 qpre (s ++ qpost) (length d) y Hb).
    2:{ rewrite Hs, <- app_assoc. by apply list_lookup_middle. }
    cbn [bind]. destruct (Z.eqb_spec x y) as [->|Hne]; cbn [negb].
    + unfold iadd. rewrite ichk_ok by (unfold int_min, int_max in *; lia). cbn [bind].
      replace (Z.of_nat (length d) + 1) with (Z.of_nat (length (d ++ [y]))) by (rewrite app_length; simpl; lia).
      apply IH; [by rewrite <- app_assoc|lia|].
      rewrite app_length. simpl. rewrite Nat.add_1_r. rewrite (take_S_r _ _ y Hx). by rewrite Hd.
    + exists (Z.of_nat (length d)). split; [done|]. split; [lia|].
      intros HE. exfalso. apply Hne. assert (HE2 : take (length s) h !! length d = Some y).
      { rewrite HE, Hs. by apply list_lookup_middle. }
      rewrite lookup_take in HE2 by lia. congruence.
Qed.

Lemma take_occurs (s h : list Z) : (length s <= length h)%nat -> take (length s) h = s <-> exists r, h = s ++ r.
Proof.
  intros H. split.
  - intros HE. exists (drop (length s) h). rewrite <- HE at 1. by rewrite take_drop.
  - intros (r & ->). by rewrite take_app.
Qed.

Lemma match_at_ok m hay pre l post q2 qpre qpost s i :
  at_ m hay pre (l ++ post) -> at_ m q2 qpre (s ++ qpost) -> s <> [] ->
  0 <= i -> i + Z.of_nat (length s) <= Z.of_nat (length l) -> Z.of_nat (length l) <= int_max ->
  exists r, match_at m hay q2 (Z.of_nat (length s)) i = Ok r /\ (r = true <-> occurs_at s l i).
Proof.
  intros Ha Hb Hs Hi Hle Hmax. unfold match_at.
  rewrite <- (take_drop (Z.to_nat i) l) in Ha. rewrite <- app_assoc in Ha.
  destruct (at_padd _ _ _ _ _ i Ha) as (h2 & -> & Ha' & _). { rewrite take_length. lia. }
  cbn [bind]. remember (drop (Z.to_nat i) l) as h eqn:Eh.
  assert (Hh : (length s <= length h)%nat) by (rewrite Eh, drop_length; lia).
  assert (Hocc : occurs_at s l i <-> take (length s) h = s).
  { rewrite take_occurs by done. split.
    - intros (l1 & l2 & HE & Hi2). exists l2. rewrite Eh, HE, drop_app_alt by lia. done.
    - intros (r & HE). exists (take (Z.to_nat i) l), r. rewrite <- HE, Eh, take_drop. split; [done|].
      rewrite take_length. lia. }
  destruct s as [|y s]; [done|]. destruct h as [|x h]; [simpl in Hh; lia|].
  rewrite (at_rd m h2 _ x _ Ha'), (at_rd m q2 _ y _ Hb). cbn [bind].
  destruct (Z.eqb_spec x y) as [->|Hne].
  - destruct (match_loop_ok m h2 _ post q2 qpre qpost (y :: h) (y :: s) Ha' Hb Hh ltac:(lia) s [y] (Z.to_nat (Z.of_nat (length (y :: s))))) as (j & Hj & Hr); try done.
    { simpl. lia. }
    change (Z.of_nat (length [y])) with 1 in Hj. rewrite Hj. cbn [bind].
    eexists. split; [done|]. by rewrite Z.eqb_eq, Hocc, <- Hr.
  - exists false. split; [done|]. rewrite Hocc. split; [done|]. intros HE. simpl in HE. injection HE. intros. congruence.
Qed.

Definition shown (s : list Z) (skip : bool) (i : Z) : Z := if skip then i + Z.of_nat (length s) else i.

Lemma find_loop_ok m hay pre l post q2 qpre qpost s skip :
  at_ m hay pre (l ++ post) -> at_ m q2 qpre (s ++ qpost) -> s <> [] ->
  Z.of_nat (length l) <= int_max -> Z.of_nat (length s) <= int_max ->
  forall fuel i, 0 <= i -> (Z.to_nat (Z.of_nat (length l) - i) < fuel)%nat -> i <= Z.of_nat (length l) ->
  (forall j, j < i -> ~ occurs_at s l j) ->
  exists r, find_loop fuel m hay q2 (Z.of_nat (length l)) (Z.of_nat (length s)) i skip = Ok r /\
    ((exists k, occurs_at s l k /\ (forall j, j < k -> ~ occurs_at s l j) /\ r = shown s skip k) \/
     ((forall j, ~ occurs_at s l j) /\ r = MU_BBUF_NOT_FOUND)).
Proof.
  intros Ha Hb Hs Hmax Hmax2. induction fuel as [|fuel IH]; intros i Hi Hf Hil Hno; [lia|].
  cbn [find_loop]. unfold isub at 1. rewrite ichk_ok by (unfold int_min, int_max in *; lia). cbn [bind].
  destruct (Z.leb_spec i (Z.of_nat (length l) - Z.of_nat (length s))) as [E|E].
  - destruct (match_at_ok m hay pre l post q2 qpre qpost s i Ha Hb Hs Hi ltac:(lia) Hmax) as (r & -> & Hr).
    cbn [bind]. destruct r.
    + exists (shown s skip i). split.
      * unfold shown, iadd. destruct skip; [|done]. apply ichk_ok. unfold int_min, int_max in *. lia.
      * left. exists i. split; [by apply Hr|]. done.
    + unfold iadd. rewrite ichk_ok by (unfold int_min, int_max in *; destruct s; simpl in *; [done|lia]). cbn [bind].
      assert (length s <> 0%nat) by (destruct s; done).
      apply IH; try lia. intros j Hj. destruct (decide (j = i)) as [->|]; [|apply Hno; lia].
      intros Hoc. apply Hr in Hoc. done.
  - eexists. split; [done|]. right. split; [|done]. intros j (l1 & l2 & -> & ->).
    rewrite !app_length in E. destruct (decide (Z.of_nat (length l1) < i)) as [Hlt|Hge].
    + apply (Hno _ Hlt). by exists l1, l2.
    + lia.
Qed.

Lemma rfind_loop_ok m hay pre l post q2 qpre qpost s skip :
  at_ m hay pre (l ++ post) -> at_ m q2 qpre (s ++ qpost) -> s <> [] ->
  Z.of_nat (length l) <= int_max ->
  forall fuel i, (Z.to_nat (i + 1) <= fuel)%nat -> i + Z.of_nat (length s) <= Z.of_nat (length l) ->
  (forall j, i < j -> ~ occurs_at s l j) ->
  exists r, rfind_loop fuel m hay q2 (Z.of_nat (length s)) i skip = Ok r /\
    ((exists k, occurs_at s l k /\ (forall j, k < j -> ~ occurs_at s l j) /\ r = shown s skip k) \/
     ((forall j, ~ occurs_at s l j) /\ r = MU_BBUF_NOT_FOUND)).
Proof.
  intros Ha Hb Hs Hmax. induction fuel as [|fuel IH]; intros i Hf Hil Hno; cbn [rfind_loop].
  - destruct (Z.leb_spec 0 i); [lia|]. eexists. split; [done|]. right. split; [|done].
    intros j (l1 & l2 & HE & Hj). apply (Hno j); [lia|]. by exists l1, l2.
  - destruct (Z.leb_spec 0 i) as [E|E].
    + destruct (match_at_ok m hay pre l post q2 qpre qpost s i Ha Hb Hs E ltac:(lia) Hmax) as (r & -> & Hr).
      cbn [bind]. destruct r.
      * exists (shown s skip i). split.
        -- unfold shown, iadd. destruct skip; [|done]. apply ichk_ok. unfold int_min, int_max in *. lia.
        -- left. exists i. split; [by apply Hr|]. done.
      * unfold isub. rewrite ichk_ok by (unfold int_min, int_max in *; lia). cbn [bind].
        apply IH; try lia. intros j Hj. destruct (decide (j = i)) as [->|]; [|apply Hno; lia].
        intros Hoc. apply Hr in Hoc. done.
    + eexists. split; [done|]. right. split; [|done].
      intros j (l1 & l2 & HE & Hj). apply (Hno j); [lia|]. by exists l1, l2.
Qed.

Lemma find_aux_ok m b pre l post q2 pre2 s post2 skip :
  buf_at m b pre l post -> buf_at m (MkBbuf q2 (Z.of_nat (length s))) pre2 s post2 ->
  exists r, mu_bbuf_find_aux m b q2 (Z.of_nat (length s)) skip = Ok r /\
    ((exists k, occurs_at s l k /\ (forall j, j < k -> ~ occurs_at s l j) /\ r = shown s skip k) \/
     ((forall j, ~ occurs_at s l j) /\ r = MU_BBUF_NOT_FOUND)).
Proof.
  intros H1 H2. unfold mu_bbuf_find_aux, mu_bbuf_bytes_ro, mu_bbuf_capacity.
  apply buf_at_cap in H1 as Hc1. apply buf_at_cap in H2 as Hc2. simpl in Hc2.
  apply buf_at_at in H1. apply buf_at_at in H2. simpl in H2.
  destruct Hc1 as [-> Hc1]. destruct Hc2 as [_ Hc2].
  destruct (Z.eqb_spec (Z.of_nat (length s)) 0) as [E|E].
  - assert (s = []) as -> by (destruct s; [done|simpl in E; lia]). exists 0. split; [done|]. left. exists 0.
    split; [by exists [], l|]. split; [|by destruct skip]. intros j Hj (l1 & l2 & _ & ->). lia.
  - apply (find_loop_ok m (bytes b) pre l post q2 pre2 post2 s skip); try done; try lia.
    + intros ->. done.
    + intros j Hj (l1 & l2 & _ & ->). lia.
Qed.

Lemma rfind_aux_ok m b pre l post q2 pre2 s post2 skip :
  buf_at m b pre l post -> buf_at m (MkBbuf q2 (Z.of_nat (length s))) pre2 s post2 ->
  exists r, mu_bbuf_rfind_aux m b q2 (Z.of_nat (length s)) skip = Ok r /\
    ((exists k, occurs_at s l k /\ (forall j, k < j -> ~ occurs_at s l j) /\ r = shown s skip k) \/
     ((forall j, ~ occurs_at s l j) /\ r = MU_BBUF_NOT_FOUND)).
Proof.
  intros H1 H2. unfold mu_bbuf_rfind_aux, mu_bbuf_bytes_ro, mu_bbuf_capacity.
  apply buf_at_cap in H1 as Hc1. apply buf_at_cap in H2 as Hc2. simpl in Hc2.
  apply buf_at_at in H1. apply buf_at_at in H2. simpl in H2.
  destruct Hc1 as [-> Hc1]. destruct Hc2 as [_ Hc2].
  destruct (Z.eqb_spec (Z.of_nat (length s)) 0) as [E|E].
  - assert (s = []) as -> by (destruct s; [done|simpl in E; lia]). eexists. split; [done|]. left.
    exists (Z.of_nat (length l)). split; [exists l, []; by rewrite app_nil_r|]. split.
    + intros j Hj (l1 & l2 & HE & ->). rewrite HE, app_length in Hj. lia.
    + destruct skip; simpl; lia.
  - unfold isub at 1. rewrite ichk_ok by (unfold int_min, int_max in *; lia). cbn [bind].
    apply (rfind_loop_ok m (bytes b) pre l post q2 pre2 post2 s skip); try done; try lia.
    + intros ->. done.
    + intros j Hj (l1 & l2 & HE & ->). rewrite HE, !app_length in Hj. lia.
Qed.
