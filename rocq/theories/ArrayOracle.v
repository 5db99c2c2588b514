(** * Properties C88, C89 (mu_array): comparison functions with state, and the number of calls *)
From Verif Require Import CSem ArrayModel ArraySpec ArrayProofs ArrayRefine ArrayProps.

(** A C comparison function may keep state (a counter, a random generator, a cache) and may
    give a different answer each time.  [cmp s x y] is a call in state [s]: the next state
    and the answer.  Simplification: the function does not itself call mu_array functions on
    the array being sorted.  The definitions below are those of ArrayModel.v with the state
    passed through; [C88_stateless] shows that they agree when there is no state. *)
Section stateful.
Context (p : plat) {St : Type} (cmp : St -> Z -> Z -> St * Z).

(** mu_array.c:231-245 *)
Fixpoint sift_loop_s (fuel : nat) (s : St) (items : list Z) (root end_ : Z) : res (St * list Z) :=
  let* r2 := imul root 2 in
  let* lc := iadd r2 1 in
  if lc <=? end_ then
    match fuel with
    | O => NoFuel
    | S f =>
      let* c1 := iadd lc 1 in
      let* '(s, child) :=
        (if c1 <=? end_ then
           let* x := ld items lc in
           let* y := ld items c1 in
           let '(s, r) := cmp s x y in
           if r <? 0 then let* c := iadd lc 1 in Ok (s, c) else Ok (s, lc)
         else Ok (s, lc)) in
      let* x := ld items root in
      let* y := ld items child in
      let '(s, r) := cmp s x y in
      if r <? 0 then
        let* items := swap items root child in
        sift_loop_s f s items child end_
      else Ok (s, items)
    end
  else Ok (s, items).

(** mu_array.c:228-246 *)
Definition sift_down_s (s : St) (items : list Z) (start end_ : Z) : res (St * list Z) :=
  sift_loop_s (Z.to_nat (end_ - start)) s items start end_.

(** mu_array.c:222-225 *)
Fixpoint heapify_loop_s (fuel : nat) (s : St) (items : list Z) (start end_ : Z) : res (St * list Z) :=
  if 0 <=? start then
    match fuel with
    | O => NoFuel
    | S f =>
      let* '(s, items) := sift_down_s s items start end_ in
      let* start := isub start 1 in
      heapify_loop_s f s items start end_
    end
  else Ok (s, items).

(** mu_array.c:219-226 *)
Definition heapify_s (s : St) (items : list Z) (count : Z) : res (St * list Z) :=
  let start := to_int (to_size p (count - 2) / 2) in
  heapify_loop_s (Z.to_nat (start + 1)) s items start (to_int (to_size p (count - 1))).

(** mu_array.c:180-184 *)
Fixpoint sort_loop_s (fuel : nat) (s : St) (items : list Z) (end_ : Z) : res (St * list Z) :=
  if 0 <? end_ then
    match fuel with
    | O => NoFuel
    | S f =>
      let* items := swap items (to_int end_) 0 in
      let end_ := to_size p (end_ - 1) in
      let* '(s, items) := sift_down_s s items 0 (to_int end_) in
      sort_loop_s f s items end_
    end
  else Ok (s, items).

(** mu_array.c:171-187 *)
Definition mu_array_sort_s (s : St) (a : marray) : res (St * marray) :=
  let count := a_cnt a in
  if 0 <? count then
    let end_ := to_size p (count - 1) in
    let* '(s, items) := heapify_s s (a_store a) count in
    let* '(s, items) := sort_loop_s (Z.to_nat end_) s items end_ in
    Ok (s, MkA items (a_cap a) (a_cnt a))
  else Ok (s, a).

(** mu_array.c:208-215 *)
Fixpoint find_loop_s (fuel : nat) (s : St) (sto : list Z) (item low high : Z) : res (St * Z) :=
  if low <=? high then
    match fuel with
    | O => NoFuel
    | S f =>
      let* sum := iadd low high in
      let mid := Z.quot sum 2 in
      let* v := ld sto mid in
      let '(s, r) := cmp s v item in
      if 0 <? r then
        let* h := isub mid 1 in find_loop_s f s sto item low h
      else
        let* l := iadd mid 1 in find_loop_s f s sto item l high
    end
  else Ok (s, low).

(** mu_array.c:204-217 *)
Definition find_insertion_index_s (s : St) (a : marray) (item : Z) : res (St * Z) :=
  let* '(s, low) := find_loop_s (Z.to_nat (a_cnt a)) s (a_store a) item 0
                (to_int (to_size p (a_cnt a - 1))) in
  Ok (s, to_size p low).

(** mu_array.c:189-197 *)
Definition mu_array_insert_sorted_s (s : St) (a : marray) (item : Z) : res (St * bool * marray) :=
  if mu_array_count a =? 0 then let* '(b, a) := mu_array_push p a item in Ok (s, b, a)
  else
    let* '(s, i) := find_insertion_index_s s a item in
    let index := to_int i in
    let* '(b, a) := mu_array_insert p a item (to_size p index) in Ok (s, b, a).

(** the state after a series of calls of the comparison function *)
Fixpoint asked (s : St) (qs : list (Z * Z)) : St :=
  match qs with [] => s | (x, y) :: qs => asked (fst (cmp s x y)) qs end.
Lemma asked_app s q1 q2 : asked s (q1 ++ q2) = asked (asked s q1) q2.
Proof. revert s. induction q1 as [|[x y] q1 IH]; intros s; simpl; [done|]. apply IH. Qed.

(** ** safety and number of calls, for any answers *)
Definition both_in (l : list Z) (q : Z * Z) : Prop := fst q ∈ l /\ snd q ∈ l.
Lemma both_in_perm l l' qs : Permutation l l' -> Forall (both_in l) qs -> Forall (both_in l') qs.
Proof. intros Hp H. eapply Forall_impl; [exact H|]. intros [x y] [H1 H2]. split; by rewrite <- Hp. Qed.

Lemma lookup_in_take (l : list Z) n i x : l !! i = Some x -> (i < n)%nat -> x ∈ take n l.
Proof. intros Hx Hi. apply elem_of_list_lookup_2 with i. by rewrite lookup_take. Qed.

(** at most two calls for each level below [root] *)
Lemma sift_loop_s_ok fuel : forall k s (l : list Z) (root n : nat),
  (n <= length l)%nat -> Z.of_nat n <= 1073741824 -> (root < n)%nat -> (n - 1 - root <= fuel)%nat ->
  (n < 2 ^ (k + 1) * (root + 1))%nat ->
  exists qs l', sift_loop_s fuel s l (Z.of_nat root) (Z.of_nat n - 1) = Ok (asked s qs, l') /\
    length l' = length l /\ Permutation (take n l') (take n l) /\ drop n l' = drop n l /\
    Forall (both_in (take n l)) qs /\ (length qs <= 2 * k)%nat.
Proof.
  induction fuel as [|f IH]; intros k s l root n Hlen Hn Hroot Hf Hk.
  - exists [], l. simpl. unfold imul. rewrite ichk_ok by (unfold int_min, int_max; lia). simpl.
    unfold iadd. rewrite ichk_ok by (unfold int_min, int_max; lia). simpl.
    destruct (Z.leb_spec (Z.of_nat root * 2 + 1) (Z.of_nat n - 1)); [lia|].
    split; [done|]. split; [done|]. split; [done|]. split; [done|]. split; [apply Forall_nil_2|lia].
  - cbn [sift_loop_s]. unfold imul. rewrite ichk_ok by (unfold int_min, int_max; lia). cbn [bind].
    unfold iadd at 1. rewrite ichk_ok by (unfold int_min, int_max; lia). cbn [bind].
    destruct (Z.leb_spec (Z.of_nat root * 2 + 1) (Z.of_nat n - 1)) as [Hle|Hgt].
    2:{ exists [], l. split; [done|]. split; [done|]. split; [done|]. split; [done|]. split; [apply Forall_nil_2|simpl; lia]. }
    destruct k as [|k]; [exfalso; simpl in Hk; lia|].
    unfold iadd at 1. rewrite ichk_ok by (unfold int_min, int_max; lia). cbn [bind].
    destruct (lookup_lt_is_Some_2 l root) as [xr Hxr]; [lia|].
    destruct (lookup_lt_is_Some_2 l (2 * root + 1)) as [x1 Hx1]; [lia|].
    replace (Z.of_nat root * 2 + 1) with (Z.of_nat (2 * root + 1)) by lia.
    assert (exists q1 ch xc, is_child root ch /\ (ch < n)%nat /\ l !! ch = Some xc /\
      Forall (both_in (take n l)) q1 /\ (length q1 <= 1)%nat /\
      (if Z.of_nat (2 * root + 1) + 1 <=? Z.of_nat n - 1
       then let* x := ld l (Z.of_nat (2 * root + 1)) in
            let* y := ld l (Z.of_nat (2 * root + 1) + 1) in
            let '(s, r) := cmp s x y in
            (if r <? 0 then let* c := iadd (Z.of_nat (2 * root + 1)) 1 in Ok (s, c) else Ok (s, Z.of_nat (2 * root + 1)))
       else Ok (s, Z.of_nat (2 * root + 1))) = Ok (asked s q1, Z.of_nat ch))
      as (q1 & ch & xc & Hch & Hchn & Hxc & Hq1 & Hlq1 & ->).
    { destruct (Z.leb_spec (Z.of_nat (2 * root + 1) + 1) (Z.of_nat n - 1)) as [H2|H2].
      - destruct (lookup_lt_is_Some_2 l (2 * root + 2)) as [x2 Hx2]; [lia|].
        rewrite (ld_ok _ _ _ Hx1). cbn [bind].
        replace (Z.of_nat (2 * root + 1) + 1) with (Z.of_nat (2 * root + 2)) by lia.
        rewrite (ld_ok _ _ _ Hx2). cbn [bind].
        destruct (cmp s x1 x2) as [s1 r1] eqn:E1.
        assert (Hin : both_in (take n l) (x1, x2)).
        { split; simpl; [apply (lookup_in_take _ _ (2 * root + 1))|apply (lookup_in_take _ _ (2 * root + 2))]; done || lia. }
        destruct (Z.ltb_spec r1 0).
        + exists [(x1, x2)], (2 * root + 2)%nat, x2. split; [by right|]. split; [lia|]. split; [done|].
          split; [by apply Forall_cons_2|]. split; [simpl; lia|].
          unfold iadd. rewrite ichk_ok by (unfold int_min, int_max; lia). simpl. rewrite E1. simpl. do 2 f_equal. lia.
        + exists [(x1, x2)], (2 * root + 1)%nat, x1. split; [by left|]. split; [lia|]. split; [done|].
          split; [by apply Forall_cons_2|]. split; [simpl; lia|]. simpl. rewrite E1. done.
      - exists [], (2 * root + 1)%nat, x1. split; [by left|]. split; [lia|]. split; [done|].
        split; [by apply Forall_nil_2|]. split; [simpl; lia|]. done. }
    cbn [bind]. rewrite (ld_ok _ _ _ Hxr), (ld_ok _ _ _ Hxc). cbn [bind].
    assert (Hin : both_in (take n l) (xr, xc)).
    { split; simpl; [apply (lookup_in_take _ _ root)|apply (lookup_in_take _ _ ch)]; done. }
    destruct (cmp (asked s q1) xr xc) as [s2 r2] eqn:E2.
    destruct (Z.ltb_spec r2 0) as [Hlt|Hge].
    + rewrite (swap_ok l root ch xr xc) by done. cbn [bind].
      destruct (IH k s2 (<[ch:=xr]> (<[root:=xc]> l)) ch n) as (q2 & l' & -> & Hl' & Hp & Hd & Hq2 & Hlq2).
      { rewrite !insert_length; done. } { done. } { done. } { destruct Hch; lia. }
      { replace (S k + 1)%nat with (S (k + 1)) in Hk by lia. rewrite Nat.pow_succ_r' in Hk. destruct Hch; nia. }
      destruct (swap_take_drop l root ch n xr xc) as [Hp2 Hd2]; [done..|].
      exists (q1 ++ (xr, xc) :: q2), l'. split. { rewrite asked_app. simpl. rewrite E2. done. }
      split; [rewrite Hl', !insert_length; done|].
      split; [by rewrite Hp|]. split; [by rewrite Hd|].
      split. { apply Forall_app. split; [done|]. apply Forall_cons_2; [done|]. eapply both_in_perm; [exact Hp2|done]. }
      rewrite app_length. simpl. lia.
    + exists (q1 ++ [(xr, xc)]), l. split. { rewrite asked_app. simpl. rewrite E2. done. }
      split; [done|]. split; [done|]. split; [done|].
      split. { apply Forall_app. split; [done|]. by apply Forall_cons_2. }
      rewrite app_length. simpl. lia.
Qed.
Lemma sift_down_s_ok k s (l : list Z) (root n : nat) :
  (n <= length l)%nat -> Z.of_nat n <= 1073741824 -> (root < n)%nat -> (n < 2 ^ (k + 1) * (root + 1))%nat ->
  exists qs l', sift_down_s s l (Z.of_nat root) (Z.of_nat n - 1) = Ok (asked s qs, l') /\
    length l' = length l /\ Permutation (take n l') (take n l) /\ drop n l' = drop n l /\
    Forall (both_in (take n l)) qs /\ (length qs <= 2 * k)%nat.
Proof. intros. unfold sift_down_s. apply sift_loop_s_ok; lia || done. Qed.

Lemma heapify_loop_s_ok h : forall (k : nat) s (l : list Z) (n : nat),
  (n <= length l)%nat -> Z.of_nat n <= 1073741824 -> (k <= n)%nat -> (n < 2 ^ (h + 1))%nat ->
  exists qs l', heapify_loop_s k s l (Z.of_nat k - 1) (Z.of_nat n - 1) = Ok (asked s qs, l') /\
    length l' = length l /\ Permutation (take n l') (take n l) /\ drop n l' = drop n l /\
    Forall (both_in (take n l)) qs /\ (length qs <= k * (2 * h))%nat.
Proof.
  induction k as [|k IH]; intros s l n Hlen Hn Hk Hh.
  - exists [], l. simpl. split; [done|]. split; [done|]. split; [done|]. split; [done|]. split; [apply Forall_nil_2|lia].
  - cbn [heapify_loop_s].
    destruct (Z.leb_spec 0 (Z.of_nat (S k) - 1)); [|lia].
    replace (Z.of_nat (S k) - 1) with (Z.of_nat k) by lia.
    destruct (sift_down_s_ok h s l k n) as (q1 & l1 & -> & Hl1 & Hp1 & Hd1 & Hq1 & Hlq1); [done..| |].
    { nia. }
    cbn [bind]. unfold isub. rewrite ichk_ok by (unfold int_min, int_max; lia). cbn [bind].
    destruct (IH (asked s q1) l1 n) as (q2 & l2 & -> & Hl2 & Hp2 & Hd2 & Hq2 & Hlq2); [lia|done|lia|done|].
    exists (q1 ++ q2), l2. split; [by rewrite asked_app|]. split; [congruence|].
    split; [by rewrite Hp2|]. split; [congruence|].
    split. { apply Forall_app. split; [done|]. by eapply both_in_perm. }
    rewrite app_length. lia.
Qed.

Lemma heapify_s_ok h s (l : list Z) (n : nat) :
  (n <= length l)%nat -> Z.of_nat n <= 1073741824 -> (2 <= n)%nat \/ (n = 1%nat /\ p = P64) -> (n < 2 ^ (h + 1))%nat ->
  exists qs l', heapify_s s l (Z.of_nat n) = Ok (asked s qs, l') /\
    length l' = length l /\ Permutation (take n l') (take n l) /\ drop n l' = drop n l /\
    Forall (both_in (take n l)) qs /\ (length qs <= n * h)%nat.
Proof.
  intros Hlen Hn [H2|[-> Hp]] Hh.
  - unfold heapify_s.
    pose proof (size_mod_big p).
    rewrite to_size_id by lia.
    assert (Hq : exists k : nat, (k + 1 <= n)%nat /\ (Z.of_nat n - 2) / 2 = Z.of_nat k /\ (2 * k + 2 <= n)%nat).
    { exists (Z.to_nat ((Z.of_nat n - 2) / 2)).
      pose proof (Z.div_mod (Z.of_nat n - 2) 2 ltac:(lia)).
      pose proof (Z.mod_pos_bound (Z.of_nat n - 2) 2 ltac:(lia)).
      lia. }
    destruct Hq as (k & Hk & -> & Hk2).
    rewrite to_int_id by (unfold int_min, int_max; lia).
    rewrite to_size_id by lia.
    rewrite to_int_id by (unfold int_min, int_max; lia).
    destruct (heapify_loop_s_ok h (S k) s l n) as (qs & l' & HE & H1 & H3 & H4 & H5 & H6); [done|done|lia|done|].
    exists qs, l'. replace (Z.to_nat (Z.of_nat k + 1)) with (S k) by lia.
    replace (Z.of_nat k) with (Z.of_nat (S k) - 1) by lia.
    split; [done|]. split; [done|]. split; [done|]. split; [done|]. split; [done|]. nia.
  - exists [], l. unfold heapify_s. rewrite Hp.
    change (to_int (to_size P64 (Z.of_nat 1 - 2) / 2)) with (-1). simpl.
    split; [done|]. split; [done|]. split; [done|]. split; [done|]. split; [apply Forall_nil_2|lia].
Qed.

Lemma sort_loop_s_ok h : forall (n : nat) s (l : list Z) (m : nat),
  (S n <= m)%nat -> (m <= length l)%nat -> Z.of_nat m <= 1073741824 -> (m < 2 ^ (h + 1))%nat ->
  exists qs l', sort_loop_s n s l (Z.of_nat n) = Ok (asked s qs, l') /\
    length l' = length l /\ Permutation (take m l') (take m l) /\ drop m l' = drop m l /\
    Forall (both_in (take m l)) qs /\ (length qs <= n * (2 * h))%nat.
Proof.
  induction n as [|n IH]; intros s l m Hm Hlen Hb Hh.
  - exists [], l. simpl. split; [done|]. split; [done|]. split; [done|]. split; [done|]. split; [apply Forall_nil_2|lia].
  - cbn [sort_loop_s].
    destruct (Z.ltb_spec 0 (Z.of_nat (S n))); [|lia].
    rewrite to_int_id by (unfold int_min, int_max; lia).
    destruct (lookup_lt_is_Some_2 l (S n)) as [xe Hxe]; [lia|].
    destruct (lookup_lt_is_Some_2 l 0) as [x0 Hx0]; [lia|].
    change 0 with (Z.of_nat 0).
    rewrite (swap_ok l (S n) 0 xe x0) by done. cbn [bind].
    set (l1 := <[0%nat:=xe]> (<[S n:=x0]> l)).
    assert (Hl1 : length l1 = length l) by (unfold l1; rewrite !insert_length; done).
    pose proof (size_mod_big p).
    rewrite to_size_id by lia.
    rewrite to_int_id by (unfold int_min, int_max; lia).
    destruct (sift_down_s_ok h s l1 0 (S n)) as (q1 & l2 & HE & Hl2 & Hp2 & Hd2 & Hq1 & Hlq1); [lia|lia|lia|lia|].
    change (Z.of_nat 0) with 0 in *. rewrite HE. cbn [bind].
    replace (Z.of_nat (S n) - 1) with (Z.of_nat n) by lia.
    destruct (IH (asked s q1) l2 m) as (q2 & l3 & -> & Hl3 & Hp3 & Hd3 & Hq2 & Hlq2); [lia|lia|done|done|].
    destruct (swap_take_drop l (S n) 0 m xe x0) as [Hp1 Hd1]; [done|done|lia|lia|].
    fold l1 in Hp1, Hd1.
    destruct (perm_take_extend l1 l2 (S n) m) as [Hp2' Hd2']; [done|done|done|lia|].
    exists (q1 ++ q2), l3. split; [by rewrite asked_app|]. split; [lia|].
    split; [rewrite Hp3, Hp2'; done|]. split; [congruence|].
    split; [|rewrite app_length; lia].
    apply Forall_app. split.
    + eapply both_in_perm; [exact Hp1|]. eapply Forall_impl; [exact Hq1|].
      intros [x y] [Hx Hy]. cbn [fst snd] in *. split; cbn [fst snd];
      [apply elem_of_list_lookup in Hx as [i Hi]|apply elem_of_list_lookup in Hy as [i Hi]];
      apply lookup_take_Some in Hi as [Hi ?]; eapply lookup_in_take; eauto; lia.
    + eapply both_in_perm; [|exact Hq2]. rewrite Hp2'. done.
Qed.

Lemma find_loop_s_ok (l : list Z) (item : Z) (cnt : nat) :
  (cnt <= length l)%nat -> Z.of_nat cnt <= 1073741824 ->
  forall fuel h s low high, 0 <= low -> low <= high + 1 -> high < Z.of_nat cnt -> high - low + 1 <= Z.of_nat fuel ->
  high - low + 1 < 2 ^ Z.of_nat h ->
  exists qs r, find_loop_s fuel s l item low high = Ok (asked s qs, r) /\ low <= r <= high + 1 /\
    Forall (fun q => fst q ∈ take cnt l /\ snd q = item) qs /\ (length qs <= h)%nat.
Proof.
  intros Hlen Hb. induction fuel as [|f IH]; intros h s low high H0 Hlh Hh Hf Hp.
  - exists [], low. simpl. destruct (Z.leb_spec low high); [lia|].
    split; [done|]. split; [lia|]. split; [apply Forall_nil_2|lia].
  - cbn [find_loop_s]. destruct (Z.leb_spec low high) as [Hle|Hgt].
    2:{ exists [], low. split; [done|]. split; [lia|]. split; [apply Forall_nil_2|simpl; lia]. }
    destruct h as [|h]; [simpl in Hp; lia|].
    rewrite Nat2Z.inj_succ, Z.pow_succ_r in Hp by lia.
    unfold iadd at 1. rewrite ichk_ok by (unfold int_min, int_max; lia). cbn [bind].
    rewrite Z.quot_div_nonneg by lia.
    pose proof (Z.div_mod (low + high) 2 ltac:(lia)) as Hdm. pose proof (Z.mod_pos_bound (low + high) 2 ltac:(lia)) as Hmb.
    set (mid := (low + high) / 2) in *.
    assert (Hmid : low <= mid <= high) by lia.
    destruct (ld_ex l mid) as (v & Hv & ->); [lia|]. cbn [bind].
    assert (Hin : v ∈ take cnt l). { apply (lookup_in_take _ _ (Z.to_nat mid)); [done|lia]. }
    destruct (cmp s v item) as [s1 r1] eqn:E1.
    destruct (Z.ltb_spec 0 r1).
    + unfold isub. rewrite ichk_ok by (unfold int_min, int_max; lia). cbn [bind].
      destruct (IH h s1 low (mid - 1)) as (qs & r & -> & Hr & Hq & Hlq); [lia|lia|lia|lia|lia|].
      exists ((v, item) :: qs), r. simpl. rewrite E1. split; [done|]. split; [lia|].
      split; [by apply Forall_cons_2|lia].
    + unfold iadd. rewrite ichk_ok by (unfold int_min, int_max; lia). cbn [bind].
      destruct (IH h s1 (mid + 1) high) as (qs & r & -> & Hr & Hq & Hlq); [lia|lia|lia|lia|lia|].
      exists ((v, item) :: qs), r. simpl. rewrite E1. split; [done|]. split; [lia|].
      split; [by apply Forall_cons_2|lia].
Qed.
End stateful.

(** ** what callers see *)
(** [cmp] with a record of its calls: the arguments of all calls, in order *)
Definition recorded {St} (cmp : St -> Z -> Z -> St * Z) (s : St * list (Z * Z)) (x y : Z) : (St * list (Z * Z)) * Z :=
  let '(s', r) := cmp (fst s) x y in ((s', snd s ++ [(x, y)]), r).
Lemma asked_recorded {St} (cmp : St -> Z -> Z -> St * Z) qs : forall s t,
  asked (recorded cmp) (s, t) qs = (asked cmp s qs, t ++ qs).
Proof.
  induction qs as [|[x y] qs IH]; intros s t; cbn [asked]; [by rewrite app_nil_r|].
  assert (H : fst (recorded cmp (s, t) x y) = (fst (cmp s x y), t ++ [(x, y)])).
  { unfold recorded. cbn [fst snd]. by destruct (cmp s x y). }
  rewrite H, IH, <- app_assoc. done.
Qed.

Lemma log2_Z n : Z.of_nat (Nat.log2 n) = Z.log2 (Z.of_nat n).
Proof.
  destruct n as [|n]; [done|]. symmetry. apply Z.log2_unique; [lia|].
  pose proof (Nat.log2_spec (S n) ltac:(lia)) as [H1 H2]. apply Nat2Z.inj_le in H1. apply Nat2Z.inj_lt in H2.
  rewrite Nat2Z.inj_pow in H1, H2. rewrite Nat2Z.inj_succ in H2. change (Z.of_nat 2) with 2 in *. split; done || lia.
Qed.
Section any.
Context (p : plat) {St : Type} (cmp : St -> Z -> Z -> St * Z).

Lemma log2_spec n : (1 <= n)%nat -> (n < 2 ^ (Nat.log2 n + 1))%nat.
Proof. intros H. rewrite Nat.add_1_r. apply Nat.log2_spec. lia. Qed.

Lemma sort_s_ok s a (n : nat) : a_cnt a = Z.of_nat n -> (n <= length (a_store a))%nat -> Z.of_nat n <= 1073741824 ->
  n <> 1%nat \/ p = P64 ->
  exists qs items, mu_array_sort_s p cmp s a = Ok (asked cmp s qs, MkA items (a_cap a) (a_cnt a)) /\
    length items = length (a_store a) /\ Permutation (take n items) (take n (a_store a)) /\
    drop n items = drop n (a_store a) /\ Forall (both_in (take n (a_store a))) qs /\
    (length qs <= 3 * n * Nat.log2 n)%nat.
Proof.
  intros Hc Hlen Hn Hs. unfold mu_array_sort_s. pose proof (size_mod_big p).
  destruct (Z.ltb_spec 0 (a_cnt a)).
  2:{ assert (n = 0%nat) as -> by lia. exists [], (a_store a). simpl. destruct a; simpl in *.
      split; [done|]. split; [done|]. split; [done|]. split; [done|]. split; [apply Forall_nil_2|lia]. }
  rewrite Hc. pose proof (log2_spec n ltac:(lia)) as Hlog.
  destruct (heapify_s_ok p cmp (Nat.log2 n) s (a_store a) n) as (q1 & l1 & -> & Hl1 & Hp1 & Hd1 & Hq1 & Hlq1); [done|done| |done|].
  { destruct (decide (n = 1%nat)); [right|left; lia]. split; [done|]. by destruct Hs. }
  cbn [bind]. rewrite to_size_id by lia.
  destruct (sort_loop_s_ok p cmp (Nat.log2 n) (n - 1) (asked cmp s q1) l1 n) as (q2 & l2 & HE & Hl2 & Hp2 & Hd2 & Hq2 & Hlq2); [lia|lia|lia|done|].
  replace (Z.of_nat n - 1) with (Z.of_nat (n - 1)) by lia. rewrite Nat2Z.id, HE. cbn [bind].
  exists (q1 ++ q2), l2. split; [by rewrite asked_app|]. split; [lia|]. split; [by rewrite Hp2, Hp1|]. split; [congruence|].
  split. { apply Forall_app. split; [done|]. by eapply both_in_perm. }
  rewrite app_length. nia.
Qed.

Lemma insert_sorted_s_ok s a l x : areps p a l ->
  exists qs b a', mu_array_insert_sorted_s p cmp s a x = Ok (asked cmp s qs, b, a') /\ a_cap a' = a_cap a /\
   ((len l = a_cap a /\ b = false /\ a' = a) \/
    (len l < a_cap a /\ b = true /\ exists l1 l2, l = l1 ++ l2 /\ areps p a' (l1 ++ x :: l2))) /\
   Forall (fun q => fst q ∈ l /\ snd q = x) qs /\ (length qs <= if (length l =? 0)%nat then 0 else Nat.log2 (length l) + 1)%nat.
Proof.
  intros Hr. pose proof (areps_bounds _ _ _ Hr) as Hb. unfold mu_array_insert_sorted_s, mu_array_count.
  pose proof (size_mod_big p).
  destruct (Z.eqb_spec (a_cnt a) 0) as [E|].
  - assert (l = []) as -> by (destruct l; [done|simpl in *; lia]).
    destruct (push_ok p a [] x Hr) as (b & a' & -> & Hcase). cbn [bind].
    exists [], b, a'. split; [done|]. destruct Hcase as [(H1 & -> & H2 & H3)|(H1 & -> & ->)].
    + split; [done|]. split; [|split; [apply Forall_nil_2|simpl; lia]].
      right. split; [done|]. split; [done|]. exists [], []. done.
    + split; [done|]. split; [|split; [apply Forall_nil_2|simpl; lia]]. by left.
  - unfold find_insertion_index_s.
    rewrite to_size_id by lia. rewrite to_int_id by (unfold int_min, int_max; lia).
    assert (Hl0 : (1 <= length l)%nat) by lia. pose proof (log2_spec _ Hl0) as Hlog.
    destruct (find_loop_s_ok cmp (a_store a) x (length l)) with (fuel := Z.to_nat (a_cnt a)) (low := 0) (high := a_cnt a - 1)
      (h := (Nat.log2 (length l) + 1)%nat) (s := s) as (qs & r & -> & Hrr & Hq & Hlq); [lia|lia|lia|lia|lia|lia| |].
    { apply Nat2Z.inj_lt in Hlog. rewrite Nat2Z.inj_pow in Hlog. simpl (Z.of_nat 2) in Hlog. lia. }
    cbn [bind]. rewrite (to_size_id p r) by lia. rewrite to_int_id by (unfold int_min, int_max; lia).
    rewrite to_size_id by lia.
    destruct (insert_ok p a l x r Hr) as (b & a' & -> & Hcap & Hcase); [lia|]. cbn [bind].
    exists qs, b, a'. split; [done|]. split; [done|].
    assert (Ht : take (length l) (a_store a) = l) by (by destruct Hr as (_ & _ & _ & _ & _ & ->)).
    rewrite Ht in Hq.
    split; [|split; [done|]; destruct (Nat.eqb_spec (length l) 0); lia].
    destruct Hcase as [(H1 & H2 & -> & H3)|(H1 & -> & ->)].
    + right. split; [done|]. split; [done|].
      exists (take (Z.to_nat r) l), (drop (Z.to_nat r) l). split; [by rewrite take_drop|done].
    + left. unfold len in *. split; [lia|done].
Qed.
End any.

(** ** C88 *)
(** For every comparison function with any state and any answers: on an array of at most
    2^30 items (not exactly one if size_t has 32 bits: see C04) mu_array_sort ends without
    undefined behaviour, permutes the items, changes no slot above them and neither count
    nor capacity; and it calls the function only with items of the array. *)
Theorem C88_sort_any_answers : forall p (St : Type) (cmp : St -> Z -> Z -> St * Z) s storage cap count,
  0 <= count <= cap -> cap <= 1073741824 -> Z.of_nat (length storage) = cap -> count <> 1 \/ p = P64 ->
  let n := Z.to_nat count in
  exists s' calls items, mu_array_sort_s p (recorded cmp) (s, []) (MkA storage cap count) = Ok ((s', calls), MkA items cap count) /\
    Permutation (take n items) (take n storage) /\ drop n items = drop n storage /\ length items = length storage /\
    (forall x y, In (x, y) calls -> In x (take n storage) /\ In y (take n storage)) /\
    Z.of_nat (length calls) <= 3 * count * Z.log2 count.
Proof.
  intros p St cmp s storage cap count Hc Hcap Hl Hs n.
  destruct (sort_s_ok p (recorded cmp) (s, []) (MkA storage cap count) n) as (qs & items & HE & Hl' & Hp & Hd & Hq & Hlq); simpl in *; try lia.
  { destruct Hs; [left; lia|by right]. }
  rewrite asked_recorded in HE. exists (asked cmp s qs), qs, items. split; [done|].
  split; [done|]. split; [done|]. split; [done|]. split.
  - intros x y Hin. rewrite Forall_forall in Hq. destruct (Hq (x, y)) as [H1 H2]; [by apply elem_of_list_In|].
    split; by apply elem_of_list_In.
  - replace count with (Z.of_nat n) by lia. rewrite <- log2_Z. lia.
Qed.
Print Assumptions C88_sort_any_answers.
(** mu_array_insert_sorted, on an array of any size up to 2^30: as C07, and the function is
    called only with an item of the array first and the new item second, at most
    log2(count) + 1 times. *)
Theorem C88_insert_sorted_any_answers : forall p (St : Type) (cmp : St -> Z -> Z -> St * Z) s storage cap count x,
  valid_cap p cap -> 0 <= count <= cap -> cap <= 1073741824 -> Z.of_nat (length storage) = cap ->
  let n := Z.to_nat count in
  exists s' calls b a', mu_array_insert_sorted_s p (recorded cmp) (s, []) (MkA storage cap count) x = Ok ((s', calls), b, a') /\
    ((b = false /\ count = cap /\ a' = MkA storage cap count) \/
     (b = true /\ count < cap /\ a_cnt a' = count + 1 /\ a_cap a' = cap /\ length (a_store a') = length storage /\
      exists l1 l2, take n storage = l1 ++ l2 /\ take (n + 1) (a_store a') = l1 ++ x :: l2)) /\
    (forall y z, In (y, z) calls -> In y (take n storage) /\ z = x) /\
    Z.of_nat (length calls) <= (if count =? 0 then 0 else Z.log2 count + 1).
Proof.
  intros p St cmp s storage cap count x Hv Hc Hcap Hl n.
  assert (Hln : length (take n storage) = n) by (rewrite take_length; lia).
  assert (Hr : areps p (MkA storage cap count) (take n storage)).
  { unfold areps, len. cbn [a_cap a_store a_cnt]. rewrite Hln. split; [done|]. split; [done|]. split; [done|].
    split; [lia|]. split; [lia|done]. }
  destruct (insert_sorted_s_ok p (recorded cmp) (s, []) (MkA storage cap count) (take n storage) x Hr)
    as (qs & b & a' & HE & Hca & Hcase & Hq & Hlq).
  rewrite asked_recorded in HE. exists (asked cmp s qs), qs, b, a'. split; [done|].
  unfold len in *. rewrite Hln in *. cbn [a_cap a_cnt a_store] in *. split; [|split].
  - destruct Hcase as [(H1 & -> & ->)|(H1 & -> & l1 & l2 & H2 & Hr')]; [left; split; [done|]; split; [lia|done]|right].
    destruct Hr' as (_ & _ & Hl' & Hn' & _ & Ht').
    assert (HL : length (l1 ++ x :: l2) = (n + 1)%nat).
    { rewrite <- Hln, H2, !app_length. simpl. lia. }
    unfold len in *. rewrite HL in *. split; [done|]. split; [lia|]. split; [lia|]. split; [done|]. split; [lia|].
    exists l1, l2. done.
  - intros y z Hin. rewrite Forall_forall in Hq. destruct (Hq (y, z)) as [H1 H2]; [by apply elem_of_list_In|].
    split; [by apply elem_of_list_In|done].
  - destruct (Z.eqb_spec count 0) as [->|]; [simpl in *; lia|].
    destruct (Nat.eqb_spec n 0); [lia|]. replace count with (Z.of_nat n) by lia. rewrite <- log2_Z. lia.
Qed.
Print Assumptions C88_insert_sorted_any_answers.

(** The definitions above are those of ArrayModel.v when the answers do not depend on the state. *)
Definition no_state {St A} (r : res (St * A)) : res A := let* '(_, a) := r in Ok a.
Section stateless.
Context (p : plat) {St : Type} (cmp : St -> Z -> Z -> St * Z) (f : Z -> Z -> Z) (Hf : forall s x y, snd (cmp s x y) = f x y).
Lemma sift_loop_sl fuel : forall s l root e, no_state (sift_loop_s cmp fuel s l root e) = sift_loop f fuel l root e.
Proof.
  induction fuel as [|k IH]; intros s l root e; cbn [sift_loop_s sift_loop];
    (destruct (imul root 2) as [r2| |]; cbn [bind]; [|done|done]);
    (destruct (iadd r2 1) as [lc| |]; cbn [bind]; [|done|done]); (destruct (lc <=? e); [|done]); [done|].
  destruct (iadd lc 1) as [c1| |] eqn:Ec; cbn [bind]; [|done|done].
  destruct (c1 <=? e).
  - destruct (ld l lc) as [x| |]; cbn [bind]; [|done|done]. destruct (ld l c1) as [y| |]; cbn [bind]; [|done|done].
    pose proof (Hf s x y) as H. destruct (cmp s x y) as [s1 r]. cbn [snd] in H. rewrite <- H.
    destruct (r <? 0); cbn [bind].
    + destruct (ld l root) as [x2| |]; cbn [bind]; [|done|done]. destruct (ld l c1) as [y2| |]; cbn [bind]; [|done|done].
      pose proof (Hf s1 x2 y2) as H2. destruct (cmp s1 x2 y2) as [s2 r']. cbn [snd] in H2. rewrite <- H2.
      destruct (r' <? 0); [|done]. destruct (swap l root c1); cbn [bind]; [apply IH|done|done].
    + destruct (ld l root) as [x2| |]; cbn [bind]; [|done|done]. destruct (ld l lc) as [y2| |]; cbn [bind]; [|done|done].
      pose proof (Hf s1 x2 y2) as H2. destruct (cmp s1 x2 y2) as [s2 r']. cbn [snd] in H2. rewrite <- H2.
      destruct (r' <? 0); [|done]. destruct (swap l root lc); cbn [bind]; [apply IH|done|done].
  - cbn [bind]. destruct (ld l root) as [x2| |]; cbn [bind]; [|done|done]. destruct (ld l lc) as [y2| |]; cbn [bind]; [|done|done].
    pose proof (Hf s x2 y2) as H2. destruct (cmp s x2 y2) as [s2 r']. cbn [snd] in H2. rewrite <- H2.
    destruct (r' <? 0); [|done]. destruct (swap l root lc); cbn [bind]; [apply IH|done|done].
Qed.
Lemma sift_down_sl s l a e : no_state (sift_down_s cmp s l a e) = sift_down f l a e.
Proof. apply sift_loop_sl. Qed.
Lemma heapify_loop_sl fuel : forall s l a e, no_state (heapify_loop_s cmp fuel s l a e) = heapify_loop f fuel l a e.
Proof.
  induction fuel as [|k IH]; intros s l a e; cbn [heapify_loop_s heapify_loop]; (destruct (0 <=? a); [|done]); [done|].
  rewrite <- (sift_down_sl s). destruct (sift_down_s cmp s l a e) as [[s1 l1]| |]; cbn [bind no_state]; [|done|done].
  destruct (isub a 1); cbn [bind]; [apply IH|done|done].
Qed.
Lemma sort_loop_sl fuel : forall s l e, no_state (sort_loop_s p cmp fuel s l e) = sort_loop p f fuel l e.
Proof.
  induction fuel as [|k IH]; intros s l e; cbn [sort_loop_s sort_loop]; (destruct (0 <? e); [|done]); [done|].
  destruct (swap l (to_int e) 0) as [l0| |]; cbn [bind]; [|done|done].
  rewrite <- (sift_down_sl s). destruct (sift_down_s cmp s l0 0 _) as [[s1 l1]| |]; cbn [bind no_state]; [|done|done].
  apply IH.
Qed.
Lemma find_loop_sl fuel : forall s l x a e, no_state (find_loop_s cmp fuel s l x a e) = find_loop f fuel l x a e.
Proof.
  induction fuel as [|k IH]; intros s l x a e; cbn [find_loop_s find_loop]; (destruct (a <=? e); [|done]); [done|].
  destruct (iadd a e) as [sum| |]; cbn [bind]; [|done|done]. destruct (ld l (Z.quot sum 2)) as [v| |]; cbn [bind]; [|done|done].
  pose proof (Hf s v x) as H. destruct (cmp s v x) as [s1 r]. cbn [snd] in H. rewrite <- H.
  destruct (0 <? r).
  - destruct (isub (Z.quot sum 2) 1); cbn [bind]; [apply IH|done|done].
  - destruct (iadd (Z.quot sum 2) 1); cbn [bind]; [apply IH|done|done].
Qed.
End stateless.
Theorem C88_stateless : forall p (St : Type) (cmp : St -> Z -> Z -> St * Z) f s a x,
  (forall s x y, snd (cmp s x y) = f x y) ->
  no_state (mu_array_sort_s p cmp s a) = mu_array_sort p f a /\
  (let* '(_, b, a') := mu_array_insert_sorted_s p cmp s a x in Ok (b, a')) = mu_array_insert_sorted p f a x.
Proof.
  intros p St cmp f s a x Hf. split.
  - unfold mu_array_sort_s, mu_array_sort. destruct (0 <? a_cnt a); [|done].
    unfold heapify_s, heapify. rewrite <- (heapify_loop_sl cmp f Hf _ s).
    destruct (heapify_loop_s cmp _ s _ _ _) as [[s1 l1]| |]; cbn [bind no_state]; [|done|done].
    rewrite <- (sort_loop_sl p cmp f Hf _ s1).
    destruct (sort_loop_s p cmp _ s1 l1 _) as [[s2 l2]| |]; cbn [bind no_state]; done.
  - unfold mu_array_insert_sorted_s, mu_array_insert_sorted. destruct (mu_array_count a =? 0).
    + destruct (mu_array_push p a x) as [[b a']| |]; done.
    + unfold find_insertion_index_s, find_insertion_index. rewrite <- (find_loop_sl cmp f Hf _ s).
      destruct (find_loop_s cmp _ s _ _ _ _) as [[s1 i]| |]; cbn [bind no_state]; [|done|done].
      destruct (mu_array_insert p a x _) as [[b a']| |]; done.
Qed.
Print Assumptions C88_stateless.
(** a function that answers at random: 1, -1, 1, -1, ... *)
Definition flip (s : bool) (x y : Z) : bool * Z := (negb s, if s then 1 else -1).
Example C88_example :
  mu_array_sort_s P32 (recorded flip) (true, []) (MkA [5;3;9;1;7] 5 4) =
    Ok ((true, [(3,1);(3,9);(5,9);(3,9);(1,9);(9,3)]), MkA [9;3;1;5;7] 5 4) /\
  mu_array_insert_sorted_s P64 (recorded flip) (true, []) (MkA [5;3;9;1;7] 5 4) 8 =
    Ok ((true, [(3,8);(5,8)]), true, MkA [5;8;3;9;1] 5 5).
Proof. vm_compute. split; reflexivity. Qed.
