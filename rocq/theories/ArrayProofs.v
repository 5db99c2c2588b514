(** * Proofs about the model of mu_array.c *)
From Verif Require Import CSem ArrayModel ArraySpec.

(** ** list swap *)
Lemma swap_ok (l : list Z) (i j : nat) x y :
  l !! i = Some x -> l !! j = Some y ->
  swap l (Z.of_nat i) (Z.of_nat j) = Ok (<[j := x]> (<[i := y]> l)).
Proof.
  intros Hi Hj. unfold swap.
  rewrite (ld_ok l i x Hi), (ld_ok l j y Hj). simpl.
  pose proof (lookup_lt_Some _ _ _ Hi). pose proof (lookup_lt_Some _ _ _ Hj).
  rewrite st_ok by lia. simpl. rewrite st_ok by (rewrite insert_length; lia).
  rewrite !Nat2Z.id. done.
Qed.

Lemma swap_perm_full (l : list Z) (i j : nat) x y :
  l !! i = Some x -> l !! j = Some y -> Permutation (<[j := x]> (<[i := y]> l)) l.
Proof.
  intros Hi Hj.
  destruct (decide (i = j)) as [->|Hne].
  { rewrite list_insert_insert. assert (x = y) by congruence; subst.
    rewrite list_insert_id by done. done. }
  assert (Hj' : (<[i := y]> l) !! j = Some y) by (rewrite list_lookup_insert_ne; done).
  rewrite (insert_take_drop (<[i:=y]> l) j x) by (eapply lookup_lt_Some; done).
  assert (Permutation (take j (<[i:=y]> l) ++ y :: drop (S j) (<[i:=y]> l)) (<[i:=y]> l)) as H0
    by (rewrite take_drop_middle; done).
  assert (Permutation (x :: <[i:=y]> l) (y :: l)) as H1.
  { rewrite (insert_take_drop l i y) by (eapply lookup_lt_Some; done).
    rewrite <- (take_drop_middle l i x Hi) at 3.
    rewrite <- !Permutation_middle. apply Permutation_swap. }
  rewrite <- Permutation_middle in H0 |- *.
  apply (Permutation_cons_inv (a := y)).
  etransitivity; [|exact H1]. etransitivity; [apply Permutation_swap|]. by apply Permutation_skip.
Qed.

Lemma swap_take_drop (l : list Z) (i j n : nat) x y :
  l !! i = Some x -> l !! j = Some y -> (i < n)%nat -> (j < n)%nat ->
  Permutation (take n (<[j := x]> (<[i := y]> l))) (take n l) /\
  drop n (<[j := x]> (<[i := y]> l)) = drop n l.
Proof.
  intros Hi Hj Hin Hjn. split.
  - rewrite !take_insert_lt by done. apply swap_perm_full; rewrite lookup_take; done.
  - rewrite !drop_insert_gt by done. done.
Qed.

(** ** heaps *)
Section heap.
Context (cmp : Z -> Z -> Z).

Definition is_child (i c : nat) : Prop := c = (2 * i + 1)%nat \/ c = (2 * i + 2)%nat.

Definition heap_from (l : list Z) (s n : nat) : Prop :=
  forall i c x y, (s <= i)%nat -> is_child i c -> (c < n)%nat ->
    l !! i = Some x -> l !! c = Some y -> cmp y x <= 0.

(** heap from [s] except possibly at [root] *)
Definition sift_pre (l : list Z) (root s n : nat) : Prop :=
  (s <= root)%nat /\
  (forall i c x y, (s <= i)%nat -> i <> root -> is_child i c -> (c < n)%nat ->
    l !! i = Some x -> l !! c = Some y -> cmp y x <= 0) /\
  (forall i c x y, (s <= i)%nat -> is_child i root -> is_child root c -> (c < n)%nat ->
    l !! i = Some x -> l !! c = Some y -> cmp y x <= 0).

Lemma not_lt_ge x y : total_preorder cmp -> ~ cmp x y < 0 -> cmp y x <= 0.
Proof. intros Htp H. rewrite (tp_sign _ Htp) in H. lia. Qed.
Lemma lt_le x y : total_preorder cmp -> cmp x y < 0 -> cmp x y <= 0.
Proof. lia. Qed.

Lemma sift_step_pre (l : list Z) (root ch s n : nat) xr xc :
  total_preorder cmp ->
  sift_pre l root s n -> is_child root ch -> (ch < n)%nat -> (n <= length l)%nat ->
  l !! root = Some xr -> l !! ch = Some xc -> cmp xr xc < 0 ->
  (forall c y, is_child root c -> (c < n)%nat -> l !! c = Some y -> cmp y xc <= 0) ->
  sift_pre (<[ch := xr]> (<[root := xc]> l)) ch s n.
Proof.
  intros Htp (Hs & H1 & H2) Hch Hchn Hn Hr Hc Hlt Hbig.
  assert (Hrc : root <> ch) by (destruct Hch; lia).
  assert (Hlr : (root < length l)%nat) by (eapply lookup_lt_Some; done).
  assert (Hlc : (ch < length l)%nat) by lia.
  split; [destruct Hch; lia|]. split.
  - intros i c x y Hi Hne Hic Hcn Hx Hy.
    rewrite list_lookup_insert_ne in Hx by done.
    destruct (decide (i = root)) as [->|Hir].
    + rewrite list_lookup_insert in Hx by done. injection Hx as <-.
      destruct (decide (c = ch)) as [->|Hcc].
      * rewrite list_lookup_insert in Hy by (rewrite insert_length; done). injection Hy as <-. lia.
      * rewrite list_lookup_insert_ne in Hy by done.
        rewrite list_lookup_insert_ne in Hy by (destruct Hic; lia). eauto.
    + rewrite list_lookup_insert_ne in Hx by done.
      destruct (decide (c = ch)) as [->|Hcc].
      { exfalso. destruct Hic, Hch; lia. }
      rewrite list_lookup_insert_ne in Hy by done.
      destruct (decide (c = root)) as [->|Hcr].
      * rewrite list_lookup_insert in Hy by done. injection Hy as <-.
        eapply H2; eauto.
      * rewrite list_lookup_insert_ne in Hy by done. eapply H1; eauto.
  - intros i c x y Hi Hic Hcc Hcn Hx Hy.
    assert (i = root) as -> by (destruct Hic, Hch; lia).
    rewrite list_lookup_insert_ne in Hx by done.
    rewrite list_lookup_insert in Hx by done. injection Hx as <-.
    rewrite list_lookup_insert_ne in Hy by (destruct Hcc; lia).
    rewrite list_lookup_insert_ne in Hy by (destruct Hcc, Hch; lia).
    eapply (H1 ch c); eauto. destruct Hch; lia.
Qed.

Lemma sift_done_pre (l : list Z) (root s n : nat) :
  sift_pre l root s n ->
  (forall c x y, is_child root c -> (c < n)%nat -> l !! root = Some x -> l !! c = Some y -> cmp y x <= 0) ->
  heap_from l s n.
Proof.
  intros (Hs & H1 & H2) H i c x y Hi Hic Hc Hx Hy.
  destruct (decide (i = root)) as [->|]; eauto.
Qed.

Lemma sift_loop_ok fuel : forall (l : list Z) (root n : nat),
  (n <= length l)%nat -> Z.of_nat n <= 1073741824 -> (root < n)%nat -> (n - 1 - root <= fuel)%nat ->
  exists l', sift_loop cmp fuel l (Z.of_nat root) (Z.of_nat n - 1) = Ok l' /\
    length l' = length l /\ Permutation (take n l') (take n l) /\ drop n l' = drop n l /\
    (total_preorder cmp -> forall s, sift_pre l root s n -> heap_from l' s n).
Proof.
  induction fuel as [|f IH]; intros l root n Hlen Hn Hroot Hf.
  - (* no fuel: root is the last element, no child *)
    exists l. simpl. unfold imul. rewrite ichk_ok by (unfold int_min, int_max; lia). simpl.
    unfold iadd. rewrite ichk_ok by (unfold int_min, int_max; lia). simpl.
    destruct (Z.leb_spec (Z.of_nat root * 2 + 1) (Z.of_nat n - 1)); [lia|].
    repeat split; try done. intros _ s Hpre. eapply sift_done_pre; [done|].
    intros c x y [->| ->] Hc; lia.
  - simpl. unfold imul. rewrite ichk_ok by (unfold int_min, int_max; lia). simpl.
    unfold iadd at 1. rewrite ichk_ok by (unfold int_min, int_max; lia). simpl.
    destruct (Z.leb_spec (Z.of_nat root * 2 + 1) (Z.of_nat n - 1)) as [Hle|Hgt].
    2:{ exists l. repeat split; try done. intros _ s Hpre. eapply sift_done_pre; [done|].
        intros c x y [->| ->] Hc; lia. }
    unfold iadd at 1. rewrite ichk_ok by (unfold int_min, int_max; lia). simpl.
    destruct (lookup_lt_is_Some_2 l root) as [xr Hxr]; [lia|].
    destruct (lookup_lt_is_Some_2 l (2 * root + 1)) as [x1 Hx1]; [lia|].
    replace (Z.of_nat root * 2 + 1) with (Z.of_nat (2 * root + 1)) by lia.
    assert (exists ch xc, is_child root ch /\ (ch < n)%nat /\ l !! ch = Some xc /\
      (total_preorder cmp -> forall c y, is_child root c -> (c < n)%nat -> l !! c = Some y -> cmp y xc <= 0) /\
      (if Z.of_nat (2 * root + 1) + 1 <=? Z.of_nat n - 1
       then let* x := ld l (Z.of_nat (2 * root + 1)) in
            let* y := ld l (Z.of_nat (2 * root + 1) + 1) in
            (if cmp x y <? 0 then iadd (Z.of_nat (2 * root + 1)) 1 else Ok (Z.of_nat (2 * root + 1)))
       else Ok (Z.of_nat (2 * root + 1))) = Ok (Z.of_nat ch)) as (ch & xc & Hch & Hchn & Hxc & Hbig & ->).
    { destruct (Z.leb_spec (Z.of_nat (2 * root + 1) + 1) (Z.of_nat n - 1)) as [H2|H2].
      - destruct (lookup_lt_is_Some_2 l (2 * root + 2)) as [x2 Hx2]; [lia|].
        rewrite (ld_ok _ _ _ Hx1). simpl.
        replace (Z.of_nat (root + (root + 0) + 1) + 1) with (Z.of_nat (2 * root + 2)) by lia.
        rewrite (ld_ok _ _ _ Hx2). simpl.
        destruct (Z.ltb_spec (cmp x1 x2) 0) as [Hlt|Hge].
        + exists (2 * root + 2)%nat, x2. split; [by right|]. split; [lia|]. split; [done|]. split.
          * intros Htp c y [->| ->] Hc Hy.
            -- assert (y = x1) as -> by congruence. lia.
            -- assert (y = x2) as -> by congruence. destruct (tp_total _ Htp x2 x2); lia.
          * unfold iadd. rewrite ichk_ok by (unfold int_min, int_max; lia). f_equal; lia.
        + exists (2 * root + 1)%nat, x1. split; [by left|]. split; [lia|]. split; [done|]. split; [|done].
          intros Htp c y [->| ->] Hc Hy.
          -- assert (y = x1) as -> by congruence. destruct (tp_total _ Htp x1 x1); lia.
          -- assert (y = x2) as -> by congruence. apply not_lt_ge; [done|lia].
      - exists (2 * root + 1)%nat, x1. split; [by left|]. split; [lia|]. split; [done|]. split; [|done].
        intros Htp c y [->| ->] Hc Hy; [|lia].
        assert (y = x1) as -> by congruence. destruct (tp_total _ Htp x1 x1); lia. }
    simpl. rewrite (ld_ok _ _ _ Hxr), (ld_ok _ _ _ Hxc). simpl.
    destruct (Z.ltb_spec (cmp xr xc) 0) as [Hlt|Hge].
    + rewrite (swap_ok l root ch xr xc) by done. simpl.
      destruct (IH (<[ch:=xr]> (<[root:=xc]> l)) ch n) as (l' & -> & Hl' & Hp & Hd & Hh).
      { rewrite !insert_length; done. } { done. } { done. } { destruct Hch; lia. }
      exists l'. split; [done|].
      destruct (swap_take_drop l root ch n xr xc) as [Hp2 Hd2]; [done..|].
      split; [rewrite Hl', !insert_length; done|].
      split; [by rewrite Hp|]. split; [by rewrite Hd|].
      intros Htp s Hpre. apply Hh; [done|]. eapply sift_step_pre; eauto.
    + exists l. repeat split; try done. intros Htp s Hpre. eapply sift_done_pre; [done|].
      intros c x y Hc Hcn Hx Hy. assert (x = xr) as -> by congruence.
      eapply (tp_trans _ Htp) with (y := xc); [by eapply Hbig|]. apply not_lt_ge; [done|lia].
Qed.

Lemma sift_down_ok (l : list Z) (root n : nat) :
  (n <= length l)%nat -> Z.of_nat n <= 1073741824 -> (root < n)%nat ->
  exists l', sift_down cmp l (Z.of_nat root) (Z.of_nat n - 1) = Ok l' /\
    length l' = length l /\ Permutation (take n l') (take n l) /\ drop n l' = drop n l /\
    (total_preorder cmp -> forall s, sift_pre l root s n -> heap_from l' s n).
Proof. intros. unfold sift_down. apply sift_loop_ok; lia. Qed.

Lemma heapify_loop_ok : forall (k : nat) (l : list Z) (n : nat),
  (n <= length l)%nat -> Z.of_nat n <= 1073741824 -> (k <= n)%nat ->
  exists l', heapify_loop cmp k l (Z.of_nat k - 1) (Z.of_nat n - 1) = Ok l' /\
    length l' = length l /\ Permutation (take n l') (take n l) /\ drop n l' = drop n l /\
    (total_preorder cmp -> heap_from l k n -> heap_from l' 0 n).
Proof.
  induction k as [|k IH]; intros l n Hlen Hn Hk.
  - exists l. simpl. done.
  - cbn [heapify_loop].
    destruct (Z.leb_spec 0 (Z.of_nat (S k) - 1)); [|lia].
    replace (Z.of_nat (S k) - 1) with (Z.of_nat k) by lia.
    destruct (sift_down_ok l k n) as (l1 & -> & Hl1 & Hp1 & Hd1 & Hh1); [done..|].
    simpl. unfold isub. rewrite ichk_ok by (unfold int_min, int_max; lia). simpl.
    destruct (IH l1 n) as (l2 & -> & Hl2 & Hp2 & Hd2 & Hh2); [lia|done|lia|].
    exists l2. split; [done|]. split; [congruence|].
    split; [by rewrite Hp2|]. split; [congruence|].
    intros Htp Hheap. apply Hh2; [done|]. apply (Hh1 Htp k).
    split; [lia|]. split.
    + intros i c x y Hi Hne Hic Hc Hx Hy. eapply (Hheap i c); eauto. lia.
    + intros i c x y Hi Hic. destruct Hic; lia.
Qed.

Lemma heapify_ok p (l : list Z) (n : nat) :
  (n <= length l)%nat -> Z.of_nat n <= 1073741824 -> (2 <= n)%nat \/ (n = 1%nat /\ p = P64) ->
  exists l', heapify p cmp l (Z.of_nat n) = Ok l' /\
    length l' = length l /\ Permutation (take n l') (take n l) /\ drop n l' = drop n l /\
    (total_preorder cmp -> heap_from l' 0 n).
Proof.
  intros Hlen Hn [H2|[-> ->]].
  - unfold heapify.
    pose proof (size_mod_big p).
    rewrite to_size_id by lia.
    assert (Hq : exists k : nat, (k + 1 <= n)%nat /\ (Z.of_nat n - 2) / 2 = Z.of_nat k /\ (n <= 2 * k + 3)%nat).
    { exists (Z.to_nat ((Z.of_nat n - 2) / 2)).
      pose proof (Z.div_mod (Z.of_nat n - 2) 2 ltac:(lia)).
      pose proof (Z.mod_pos_bound (Z.of_nat n - 2) 2 ltac:(lia)).
      lia. }
    destruct Hq as (k & Hk & -> & Hk2).
    rewrite to_int_id by (unfold int_min, int_max; lia).
    rewrite to_size_id by lia.
    rewrite to_int_id by (unfold int_min, int_max; lia).
    destruct (heapify_loop_ok (S k) l n) as (l' & HE & H1 & H3 & H4 & H5); [done|done|lia|].
    exists l'. replace (Z.to_nat (Z.of_nat k + 1)) with (S k) by lia.
    replace (Z.of_nat k) with (Z.of_nat (S k) - 1) by lia.
    split; [done|]. repeat split; try done.
    intros Htp. apply H5; [done|]. intros i c x y Hi [->| ->] Hc; lia.
  - exists l. unfold heapify.
    change (to_int (to_size P64 (Z.of_nat 1 - 2) / 2)) with (-1). simpl.
    repeat split; try done. intros _ i c x y Hi [->| ->] Hc; lia.
Qed.

Lemma heap_root_max (l : list Z) n :
  total_preorder cmp -> heap_from l 0 n -> forall i x r, (i < n)%nat ->
  l !! 0%nat = Some r -> l !! i = Some x -> (n <= length l)%nat -> cmp x r <= 0.
Proof.
  intros Htp Hh i. induction i as [i IH] using lt_wf_ind. intros x r Hi Hr Hx Hn.
  destruct i as [|i'].
  - assert (x = r) as -> by congruence. destruct (tp_total _ Htp r r); lia.
  - set (par := ((i') / 2)%nat).
    assert (Hpar : is_child par (S i')).
    { unfold par, is_child. pose proof (Nat.div_mod i' 2 ltac:(lia)).
      pose proof (Nat.mod_upper_bound i' 2 ltac:(lia)). lia. }
    assert (par < S i')%nat by (destruct Hpar; lia).
    destruct (lookup_lt_is_Some_2 l par) as [y Hy]; [lia|].
    apply (tp_trans _ Htp) with (y := y).
    + eapply (Hh par (S i')); eauto; lia.
    + eapply IH; eauto; lia.
Qed.

(** state of the extraction loop: the prefix of length [n] is a heap; the
    elements from [n] to [m] are sorted and not below the prefix *)
Definition sort_inv (l : list Z) (n m : nat) : Prop :=
  heap_from l 0 n /\
  (forall i j x y, (i < j)%nat -> (n <= j)%nat -> (j < m)%nat ->
     l !! i = Some x -> l !! j = Some y -> cmp x y <= 0).

Lemma perm_take_lookup (l l' : list Z) n i x :
  Permutation (take n l') (take n l) -> (i < n)%nat -> l' !! i = Some x ->
  exists k, (k < n)%nat /\ l !! k = Some x.
Proof.
  intros Hp Hi Hx.
  assert (x ∈ take n l').
  { apply elem_of_list_lookup_2 with i. rewrite lookup_take; done. }
  rewrite Hp in H. apply elem_of_list_lookup_1 in H as [k Hk].
  apply lookup_take_Some in Hk as [? ?]. eauto.
Qed.

Lemma drop_eq_lookup (l l' : list Z) n i :
  drop n l' = drop n l -> (n <= i)%nat -> l' !! i = l !! i.
Proof.
  intros Hd Hi. replace i with (n + (i - n))%nat by lia.
  rewrite <- !lookup_drop, Hd. done.
Qed.

Lemma perm_take_extend (l l' : list Z) n m :
  Permutation (take n l') (take n l) -> drop n l' = drop n l -> length l' = length l -> (n <= m)%nat ->
  Permutation (take m l') (take m l) /\ drop m l' = drop m l.
Proof.
  intros Hp Hd Hl Hm. split.
  - replace m with (n + (m - n))%nat by lia.
    assert (forall k : list Z, take (n + (m - n)) k = take n k ++ take (m - n) (drop n k)) as Hk.
    { intros k. rewrite <- (take_drop n (take (n + (m-n)) k)) at 1.
      rewrite take_take, Nat.min_l by lia.
      rewrite skipn_firstn_comm. replace (n + (m-n) - n)%nat with (m-n)%nat by lia. done. }
    rewrite !Hk, Hd, Hp. done.
  - replace m with (n + (m - n))%nat by lia. rewrite <- !drop_drop, Hd. done.
Qed.

Lemma sort_loop_ok p : forall (n : nat) (l : list Z) (m : nat),
  (S n <= m)%nat -> (m <= length l)%nat -> Z.of_nat m <= 1073741824 ->
  exists l', sort_loop p cmp n l (Z.of_nat n) = Ok l' /\
    length l' = length l /\ Permutation (take m l') (take m l) /\ drop m l' = drop m l /\
    (total_preorder cmp -> sort_inv l (S n) m -> sorted cmp (take m l')).
Proof.
  induction n as [|n IH]; intros l m Hm Hlen Hb.
  - exists l. simpl. split; [done|]. repeat split; try done.
    intros Htp [Hh Hs] i j x y Hij Hi Hj.
    apply lookup_take_Some in Hi as [Hi ?]. apply lookup_take_Some in Hj as [Hj ?].
    eapply (Hs i j); eauto. lia.
  - cbn [sort_loop].
    destruct (Z.ltb_spec 0 (Z.of_nat (S n))); [|lia].
    rewrite to_int_id by (unfold int_min, int_max; lia).
    destruct (lookup_lt_is_Some_2 l (S n)) as [xe Hxe]; [lia|].
    destruct (lookup_lt_is_Some_2 l 0) as [x0 Hx0]; [lia|].
    change 0 with (Z.of_nat 0).
    rewrite (swap_ok l (S n) 0 xe x0) by done. simpl bind.
    set (l1 := <[0%nat:=xe]> (<[S n:=x0]> l)).
    assert (Hl1 : length l1 = length l) by (unfold l1; rewrite !insert_length; done).
    pose proof (size_mod_big p).
    rewrite to_size_id by lia.
    rewrite to_int_id by (unfold int_min, int_max; lia).
    replace (Z.of_nat (S n) - 1) with (Z.of_nat (S n) - 1) by lia.
    change 0 with (Z.of_nat 0).
    destruct (sift_down_ok l1 0 (S n)) as (l2 & HE & Hl2 & Hp2 & Hd2 & Hh2); [lia|lia|lia|].
    replace (Z.of_nat (S n) - 1) with (Z.of_nat (S n) - 1) in * by lia.
    rewrite HE. simpl bind.
    replace (Z.of_nat (S n) - 1) with (Z.of_nat n) by lia.
    destruct (IH l2 m) as (l3 & -> & Hl3 & Hp3 & Hd3 & Hh3); [lia|lia|done|].
    exists l3. split; [done|]. split; [lia|].
    destruct (swap_take_drop l (S n) 0 m xe x0) as [Hp1 Hd1]; [done|done|lia|lia|].
    fold l1 in Hp1, Hd1.
    destruct (perm_take_extend l1 l2 (S n) m) as [Hp2' Hd2']; [done|done|done|lia|].
    split; [rewrite Hp3, Hp2'; done|]. split; [congruence|].
    intros Htp [Hheap Hsort]. apply Hh3; [done|].
    assert (Hl1e : l1 !! S n = Some x0).
    { unfold l1. rewrite list_lookup_insert_ne by lia. rewrite list_lookup_insert by lia. done. }
    assert (Hl1o : forall i, i <> S n -> i <> 0%nat -> l1 !! i = l !! i).
    { intros i H1 H2. unfold l1. rewrite !list_lookup_insert_ne by lia. done. }
    (* every element of l1 below S n occurs in l below S (S n) *)
    assert (Hl1b : forall i x, (i < S n)%nat -> l1 !! i = Some x -> exists k, (k < S (S n))%nat /\ l !! k = Some x).
    { intros i x Hi Hx. destruct (decide (i = 0%nat)) as [->|].
      - unfold l1 in Hx. rewrite list_lookup_insert in Hx by (rewrite insert_length; lia).
        injection Hx as <-. exists (S n). split; [lia|done].
      - rewrite Hl1o in Hx by lia. exists i. split; [lia|done]. }
    split.
    + apply Hh2; [done|]. split; [lia|]. split.
      * intros i c x y Hi Hne Hic Hc Hx Hy. 
        rewrite Hl1o in Hx by (destruct Hic; lia). rewrite Hl1o in Hy by (destruct Hic; lia).
        eapply (Hheap i c); eauto; lia.
      * intros i c x y Hi [?|?]; lia.
    + intros i j x y Hij Hj Hjm Hx Hy.
      rewrite (drop_eq_lookup _ _ _ _ Hd2) in Hy by lia.
      assert (Hx' : exists k, (k < S (S n))%nat /\ l !! k = Some x \/ ((S n < i)%nat /\ l !! i = Some x)).
      { destruct (decide (i < S n)%nat) as [Hi|Hi].
        - destruct (perm_take_lookup _ _ _ _ _ Hp2 Hi Hx) as (k & Hk & Hkx).
          destruct (Hl1b k x Hk Hkx) as (k' & ? & ?). eauto.
        - rewrite (drop_eq_lookup _ _ _ _ Hd2) in Hx by lia.
          destruct (decide (i = S n)) as [->|].
          + exists 0%nat. left. split; [lia|]. congruence.
          + exists 0%nat. right. split; [lia|]. rewrite Hl1o in Hx by lia. done. }
      destruct (decide (j = S n)) as [->|].
      * assert (y = x0) as -> by congruence.
        destruct Hx' as [k [[Hk Hkx]|[? ?]]]; [|lia].
        eapply (heap_root_max l (S (S n))); eauto. lia.
      * rewrite Hl1o in Hy by lia.
        destruct Hx' as [k [[Hk Hkx]|[Hik Hkx]]].
        -- eapply (Hsort k j); eauto; lia.
        -- eapply (Hsort i j); eauto; lia.
Qed.

(** ** binary search *)
Lemma find_loop_ok (l : list Z) (item : Z) (cnt : nat) :
  (cnt <= length l)%nat -> Z.of_nat cnt <= 1073741824 ->
  forall fuel low high, 0 <= low -> low <= high + 1 -> high < Z.of_nat cnt -> high - low + 1 <= Z.of_nat fuel ->
  exists r, find_loop cmp fuel l item low high = Ok r /\ low <= r <= high + 1 /\
    (total_preorder cmp -> sorted cmp (take cnt l) ->
      (forall i y, Z.of_nat i < low -> l !! i = Some y -> cmp y item <= 0) ->
      (forall i y, high < Z.of_nat i -> (i < cnt)%nat -> l !! i = Some y -> 0 < cmp y item) ->
      (forall i y, Z.of_nat i < r -> l !! i = Some y -> cmp y item <= 0) /\
      (forall i y, r <= Z.of_nat i -> (i < cnt)%nat -> l !! i = Some y -> 0 < cmp y item)).
Proof.
  intros Hlen Hb. induction fuel as [|f IH]; intros low high H0 Hlh Hh Hf.
  - exists low. simpl. destruct (Z.leb_spec low high); [lia|].
    split; [done|]. split; [lia|]. intros _ _ Ha Hbb. split; [done|].
    intros i y Hi. apply Hbb. lia.
  - simpl. destruct (Z.leb_spec low high) as [Hle|Hgt].
    2:{ exists low. split; [done|]. split; [lia|]. intros _ _ Ha Hbb. split; [done|].
        intros i y Hi. apply Hbb. lia. }
    unfold iadd at 1. rewrite ichk_ok by (unfold int_min, int_max; lia). simpl.
    rewrite Z.quot_div_nonneg by lia.
    set (mid := (low + high) / 2).
    assert (Hmid : low <= mid <= high).
    { unfold mid. split; [apply Z.div_le_lower_bound; lia|].
      apply Z.div_le_upper_bound; lia. }
    destruct (ld_ex l mid) as (v & Hv & ->); [lia|]. simpl.
    destruct (Z.ltb_spec 0 (cmp v item)) as [Hc|Hc].
    + unfold isub. rewrite ichk_ok by (unfold int_min, int_max; lia). simpl.
      destruct (IH low (mid - 1)) as (r & -> & Hr & Hspec); [lia|lia|lia|lia|].
      exists r. split; [done|]. split; [lia|].
      intros Htp Hs Ha Hbb. apply Hspec; [done|done|done|].
      intros i y Hi Hic Hy.
      destruct (decide (i = Z.to_nat mid)) as [->|]; [congruence|].
      assert (cmp v y <= 0).
      { eapply (Hs (Z.to_nat mid) i); [lia| |]; rewrite lookup_take by lia; done. }
      destruct (Z.le_gt_cases (cmp y item) 0) as [Hyi|]; [|lia].
      pose proof (tp_trans _ Htp _ _ _ H Hyi). lia.
    + unfold iadd. rewrite ichk_ok by (unfold int_min, int_max; lia). simpl.
      destruct (IH (mid + 1) high) as (r & -> & Hr & Hspec); [lia|lia|lia|lia|].
      exists r. split; [done|]. split; [lia|].
      intros Htp Hs Ha Hbb. apply Hspec; [done|done| |done].
      intros i y Hi Hy.
      destruct (decide (i = Z.to_nat mid)) as [->|]; [assert (y = v) by congruence; subst; done|].
      assert (cmp y v <= 0).
      { eapply (Hs i (Z.to_nat mid)); [lia| |]; rewrite lookup_take by lia; done. }
      exact (tp_trans _ Htp _ _ _ H Hc).
Qed.
End heap.
