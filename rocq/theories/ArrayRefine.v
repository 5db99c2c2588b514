(** * Refinement of the mu_array model to bounded lists *)
From Verif Require Import CSem ArrayModel ArraySpec ArrayProofs.

(** The caller's view of a model state: [l] is the list of the first [count]
    slots of the storage object, which has [capacity] slots. *)
Definition areps (p : plat) (a : marray) (l : list Z) : Prop :=
  valid_cap p (a_cap a) /\ a_cap a <= 1073741824 /\
  Z.of_nat (length (a_store a)) = a_cap a /\
  a_cnt a = len l /\ len l <= a_cap a /\
  take (length l) (a_store a) = l.

(** Running one API call of the model and collecting what the caller sees. *)
Definition idx_obs (p : plat) (i : Z) : aobs :=
  OIdx (if i =? MU_ARRAY_NOT_FOUND p then None else Some i).

Definition arun1 (p : plat) (a : marray) (op : aop) : res (aobs * marray) :=
  match op with
  | APush x => let* '(b, a') := mu_array_push p a x in Ok (OBool b, a')
  | APop => let* '(b, o, a') := mu_array_pop p a in Ok (OItem b o, a')
  | APeek => let* '(b, o) := mu_array_peek p a in Ok (OItem b o, a)
  | ARef i => let* '(b, o) := mu_array_ref a i in Ok (OItem b o, a)
  | AInsert x i => let* '(b, a') := mu_array_insert p a x i in Ok (OBool b, a')
  | ADelete i => let* '(b, o, a') := mu_array_delete p a i in Ok (OItem b o, a')
  | AIndex x => let* i := mu_array_index p a x in Ok (idx_obs p i, a)
  | ARindex x => let* i := mu_array_rindex p a x in Ok (idx_obs p i, a)
  | AReset => Ok (OUnit, mu_array_reset a)
  | ACount => Ok (ONum (mu_array_count a), a)
  | ACapacity => Ok (ONum (mu_array_capacity a), a)
  | AIsEmpty => Ok (OBool (mu_array_is_empty a), a)
  | AIsFull => Ok (OBool (mu_array_is_full a), a)
  | ASort cmp => let* a' := mu_array_sort p cmp a in Ok (OUnit, a')
  | AInsertSorted cmp x => let* '(b, a') := mu_array_insert_sorted p cmp a x in Ok (OBool b, a')
  end.

Fixpoint arun (p : plat) (a : marray) (ops : list aop) : res (list aobs * marray) :=
  match ops with
  | [] => Ok ([], a)
  | op :: ops =>
    let* '(o, a) := arun1 p a op in
    let* '(os, a) := arun p a ops in
    Ok (o :: os, a)
  end.

(** Index arguments are [size_t] values. *)
Definition aop_typed (p : plat) (op : aop) : Prop :=
  match op with
  | ARef i | AInsert _ i | ADelete i => 0 <= i <= size_max p
  | _ => True
  end.

(** The two calls that go wrong: deleting an interior item (C02), and sorting
    exactly one item when [size_t] has 32 bits (C04). *)
Definition asafe (p : plat) (l : list Z) (op : aop) : Prop :=
  match op with
  | ADelete i => len l - 1 <= i
  | ASort _ => p = P64 \/ len l <> 1
  | _ => True
  end.

Section refine.
Context (p : plat).

Lemma areps_bounds a l : areps p a l ->
  0 <= a_cnt a <= a_cap a /\ a_cap a <= 1073741824 /\ a_cap a + 2 < size_mod p /\
  a_cnt a = Z.of_nat (length l) /\ Z.of_nat (length (a_store a)) = a_cap a /\
  (length l <= length (a_store a))%nat.
Proof.
  intros (Hv & Hc & Hl & Hn & Hle & _). unfold len in *.
  pose proof (size_mod_big p). lia.
Qed.

Lemma areps_lookup a l i : areps p a l -> (i < length l)%nat -> a_store a !! i = l !! i.
Proof.
  intros (_ & _ & _ & _ & _ & Ht) Hi. rewrite <- Ht.
  rewrite lookup_take; done.
Qed.

Lemma areps_app a l : areps p a l -> a_store a = l ++ drop (length l) (a_store a).
Proof.
  intros (_ & _ & _ & _ & _ & Ht). rewrite <- Ht at 1. symmetry; apply take_drop.
Qed.

Lemma areps_mk a l s' l' : areps p a l ->
  length s' = length (a_store a) -> take (length l') s' = l' -> len l' <= a_cap a ->
  areps p (MkA s' (a_cap a) (len l')) l'.
Proof.
  intros (Hv & Hc & Hl & Hn & Hle & Ht) Hs Ht' Hl'. unfold areps; simpl.
  split_and!; try done. rewrite Hs. done.
Qed.

Lemma areps_nth a l : areps p a l -> a = MkA (a_store a) (a_cap a) (len l).
Proof. intros (_ & _ & _ & Hn & _). destruct a; simpl in *; congruence. Qed.

Lemma take_insert_end (s : list Z) (n : nat) x : (n < length s)%nat ->
  take (S n) (<[n := x]> s) = take n s ++ [x].
Proof.
  intros H. rewrite (take_S_r _ _ x); [|apply list_lookup_insert; done].
  rewrite take_insert by lia. done.
Qed.

Lemma push_ok a l x : areps p a l ->
  exists b a', mu_array_push p a x = Ok (b, a') /\
   ((len l < a_cap a /\ b = true /\ areps p a' (l ++ [x]) /\ a_cap a' = a_cap a) \/
    (len l = a_cap a /\ b = false /\ a' = a)).
Proof.
  intros Hr. pose proof (areps_bounds _ _ Hr) as Hb. unfold mu_array_push, mu_array_is_full.
  destruct (Z.eqb_spec (a_cnt a) (a_cap a)); simpl.
  - eexists _, _. split; [done|]. right. unfold len. split_and!; [lia|done|done].
  - rewrite st_ok by lia. simpl. eexists _, _. split; [done|]. left. unfold len.
    split_and!; [lia|done| |done].
    assert (to_size p (a_cnt a + 1) = len (l ++ [x])) as ->.
    { rewrite to_size_id by lia. unfold len. rewrite app_length; simpl; lia. }
    eapply areps_mk; [done|by rewrite insert_length| |unfold len; rewrite app_length; simpl; lia].
    rewrite app_length; simpl. replace (length l + 1)%nat with (S (length l)) by lia.
    replace (Z.to_nat (a_cnt a)) with (length l) by lia.
    rewrite take_insert_end by lia. f_equal. apply Hr.
Qed.

Lemma areps_snoc_inv a l x : areps p a (l ++ [x]) ->
  a_cnt a = Z.of_nat (length l) + 1 /\ a_store a !! length l = Some x /\
  areps p (MkA (a_store a) (a_cap a) (Z.of_nat (length l))) l.
Proof.
  intros Hr. pose proof (areps_bounds _ _ Hr) as Hb. rewrite app_length in Hb; simpl in Hb.
  split; [lia|]. split.
  - rewrite (areps_lookup _ _ _ Hr) by (rewrite app_length; simpl; lia).
    rewrite list_lookup_middle; done.
  - change (Z.of_nat (length l)) with (len l). eapply areps_mk; [exact Hr|done| |unfold len; lia].
    destruct Hr as (_ & _ & _ & _ & _ & Ht).
    rewrite app_length in Ht. simpl in Ht.
    assert (take (length l) (take (length l + 1) (a_store a)) = take (length l) (l ++ [x])) by congruence.
    rewrite take_take, Nat.min_l in H by lia. rewrite take_app in H. done.
Qed.

Lemma list_cases_snoc (l : list Z) : l = [] \/ exists l' x, l = l' ++ [x].
Proof. destruct l using rev_ind; eauto. Qed.

Lemma pop_ok a l : areps p a l ->
  (l = [] /\ mu_array_pop p a = Ok (false, None, a)) \/
  (exists l' x a', l = l' ++ [x] /\ mu_array_pop p a = Ok (true, Some x, a') /\
     areps p a' l' /\ a_cap a' = a_cap a).
Proof.
  intros Hr. pose proof (areps_bounds _ _ Hr) as Hb. unfold mu_array_pop, mu_array_is_empty.
  destruct (list_cases_snoc l) as [->|(l' & x & ->)].
  - left. split; [done|]. simpl in Hb. destruct (Z.eqb_spec (a_cnt a) 0); [done|lia].
  - right. destruct (areps_snoc_inv _ _ _ Hr) as (Hc & Hx & Hr').
    destruct (Z.eqb_spec (a_cnt a) 0); [lia|]. simpl.
    rewrite to_size_id by lia.
    replace (a_cnt a - 1) with (Z.of_nat (length l')) by lia.
    rewrite (ld_ok _ _ _ Hx). simpl. eexists _, _, _. split_and!; done.
Qed.

Lemma peek_ok a l : areps p a l ->
  (l = [] /\ mu_array_peek p a = Ok (false, None)) \/
  (exists l' x, l = l' ++ [x] /\ mu_array_peek p a = Ok (true, Some x)).
Proof.
  intros Hr. pose proof (areps_bounds _ _ Hr) as Hb. unfold mu_array_peek, mu_array_is_empty.
  destruct (list_cases_snoc l) as [->|(l' & x & ->)].
  - left. split; [done|]. simpl in Hb. destruct (Z.eqb_spec (a_cnt a) 0); [done|lia].
  - right. destruct (areps_snoc_inv _ _ _ Hr) as (Hc & Hx & Hr').
    destruct (Z.eqb_spec (a_cnt a) 0); [lia|]. simpl.
    rewrite to_size_id by lia.
    replace (a_cnt a - 1) with (Z.of_nat (length l')) by lia.
    rewrite (ld_ok _ _ _ Hx). simpl. eexists _, _. split_and!; done.
Qed.

Lemma ref_ok a l i : areps p a l -> 0 <= i ->
  (len l <= i /\ mu_array_ref a i = Ok (false, None)) \/
  (exists x, l !! Z.to_nat i = Some x /\ mu_array_ref a i = Ok (true, Some x)).
Proof.
  intros Hr Hi. pose proof (areps_bounds _ _ Hr) as Hb. unfold mu_array_ref.
  destruct (Z.ltb_spec i (a_cnt a)).
  - right. destruct (lookup_lt_is_Some_2 l (Z.to_nat i)) as [x Hx]; [lia|].
    exists x. split; [done|]. rewrite (ld_okZ _ _ x); [done|done|].
    rewrite (areps_lookup _ _ _ Hr) by lia. done.
  - left. unfold len. split; [lia|done].
Qed.

Lemma move_elems_id n : 0 <= n <= 1073741824 -> n * ptr_bytes p < size_mod p -> move_elems p (to_int (to_size p n)) = n.
Proof.
  intros Hn Hm. unfold move_elems. pose proof (size_mod_big p).
  assert (0 < ptr_bytes p) by (destruct p; simpl; lia).
  rewrite (to_size_id p n) by lia. rewrite to_int_id by (unfold int_min, int_max; lia).
  rewrite (to_size_id p n) by lia. rewrite to_size_id by nia.
  apply Z.div_mul. lia.
Qed.

Lemma insert_ok a l x i : areps p a l -> 0 <= i ->
  exists b a', mu_array_insert p a x i = Ok (b, a') /\ a_cap a' = a_cap a /\
   ((len l < a_cap a /\ i <= len l /\ b = true /\
     areps p a' (take (Z.to_nat i) l ++ x :: drop (Z.to_nat i) l)) \/
    ((len l = a_cap a \/ len l < i) /\ b = false /\ a' = a)).
Proof.
  intros Hr Hi. pose proof (areps_bounds _ _ Hr) as Hb. unfold mu_array_insert, mu_array_is_full.
  pose proof Hr as ((Hv1 & Hv2) & _ & _ & _ & _ & Ht).
  destruct (Z.eqb_spec (a_cnt a) (a_cap a)) as [Hq1|Hq1]; simpl.
  { eexists _, _. split; [done|]. split; [done|]. right. unfold len. split_and!; [lia|done|done]. }
  destruct (Z.ltb_spec (a_cnt a) i).
  { eexists _, _. split; [done|]. split; [done|]. right. unfold len. split_and!; [lia|done|done]. }
  destruct (Z.eqb_spec i (a_cnt a)) as [->|Hq2].
  - rewrite st_ok by lia. simpl. eexists _, _. split; [done|]. split; [done|]. left. unfold len.
    split_and!; [lia|lia|done|].
    replace (Z.to_nat (a_cnt a)) with (length l) by lia.
    rewrite firstn_all, drop_all.
    assert (to_size p (a_cnt a + 1) = len (l ++ [x])) as ->.
    { rewrite to_size_id by lia. unfold len. rewrite app_length; simpl; lia. }
    eapply areps_mk; [done|by rewrite insert_length| |unfold len; rewrite app_length; simpl; lia].
    rewrite app_length; simpl. replace (length l + 1)%nat with (S (length l)) by lia.
    rewrite take_insert_end by lia. f_equal. done.
  - rewrite move_elems_id; [|lia|].
    2:{ unfold size_max in *. assert (0 < ptr_bytes p) by (destruct p; simpl; lia). nia. }
    rewrite (to_size_id p (i + 1)) by lia.
    rewrite memmove_ok by lia. simpl.
    set (k := Z.to_nat i). set (n := length l) in *.
    assert (Hk : i = Z.of_nat k) by lia.
    assert (Hkn : (k < n)%nat) by lia.
    assert (Hns : (n < length (a_store a))%nat) by lia.
    replace (Z.to_nat (i + 1)) with (S k) by lia.
    replace (Z.to_nat (a_cnt a - i)) with (n - k)%nat by lia.
    replace (Z.to_nat (i + 1 + (a_cnt a - i))) with (S n) by lia.
    set (s := a_store a) in *.
    assert (Hlen : length (take (S k) s ++ take (n - k) (drop k s) ++ drop (S n) s) = length s).
    { rewrite !app_length, !take_length, !drop_length. lia. }
    rewrite st_ok by (rewrite Hlen; lia). simpl. fold k.
    eexists _, _. split; [done|]. split; [done|]. left. unfold len. fold n.
    split_and!; [lia|lia|done|].
    assert (Hsl : s = l ++ drop n s) by (rewrite <- Ht at 1; symmetry; apply take_drop).
    assert (Hdrop : take (n - k) (drop k s) = drop k l).
    { rewrite Hsl. rewrite drop_app_le by lia. rewrite take_app_alt; [done|].
      rewrite drop_length. lia. }
    assert (Htake : take k s = take k l).
    { rewrite Hsl. rewrite take_app_le by lia. done. }
    assert (Hlen2 : length (take k l ++ x :: drop k l) = S n).
    { rewrite app_length. simpl. rewrite take_length, drop_length. lia. }
    assert (to_size p (a_cnt a + 1) = len (take k l ++ x :: drop k l)) as ->.
    { rewrite to_size_id by lia. unfold len. rewrite Hlen2. lia. }
    eapply areps_mk; [done|by rewrite insert_length| |unfold len; rewrite Hlen2; lia].
    rewrite Hlen2, Hdrop.
    destruct (lookup_lt_is_Some_2 s k) as [w Hw]; [lia|].
    rewrite (take_S_r s k w Hw).
    rewrite <- app_assoc. simpl.
    assert (Hkl : length (take k s) = k) by (rewrite take_length; lia).
    rewrite insert_app_r_alt by lia. rewrite Hkl, Nat.sub_diag. simpl.
    rewrite Htake. rewrite app_comm_cons, app_assoc.
    rewrite take_app_alt; [done|]. rewrite Hlen2. done.
Qed.

Lemma drop_mid (l1 : list Z) x k : drop (S (length l1)) (l1 ++ x :: k) = k.
Proof. induction l1; simpl; done. Qed.

Lemma take_mid (l : list Z) x k : take (length (l ++ [x])) (l ++ x :: k) = l ++ [x].
Proof. induction l; simpl; [done|]. f_equal. done. Qed.

(** exact effect of mu_array_delete *)
Lemma delete_fail a l i : areps p a l -> len l <= i -> mu_array_delete p a i = Ok (false, None, a).
Proof.
  intros Hr Hi. pose proof (areps_bounds _ _ Hr). unfold mu_array_delete, mu_array_is_empty, len in *.
  destruct (Z.eqb_spec (a_cnt a) 0); [done|]. destruct (Z.leb_spec (a_cnt a) i); [done|lia].
Qed.

Lemma delete_tail a l x : areps p a (l ++ [x]) ->
  exists a', mu_array_delete p a (len l) = Ok (true, Some x, a') /\ areps p a' l /\ a_cap a' = a_cap a.
Proof.
  intros Hr. pose proof (areps_bounds _ _ Hr) as Hb. destruct (areps_snoc_inv _ _ _ Hr) as (Hc & Hx & Hr').
  rewrite app_length in Hb; simpl in Hb.
  unfold mu_array_delete, mu_array_is_empty, len.
  destruct (Z.eqb_spec (a_cnt a) 0) as [Hq1|Hq1]; [lia|]. destruct (Z.leb_spec (a_cnt a) (Z.of_nat (length l))); [lia|]. simpl.
  rewrite to_size_id by lia. replace (a_cnt a - 1) with (Z.of_nat (length l)) by lia.
  rewrite Z.eqb_refl. rewrite (ld_ok _ _ _ Hx). simpl. eexists. split_and!; done.
Qed.

(** interior delete on a full array reads one slot beyond the storage *)
Lemma delete_interior_full a l1 x l2 : areps p a (l1 ++ x :: l2) -> l2 <> [] -> len (l1 ++ x :: l2) = a_cap a ->
  mu_array_delete p a (len l1) = UB.
Proof.
  intros Hr Hne Hfull. pose proof (areps_bounds _ _ Hr) as Hb.
  pose proof Hr as ((Hv1 & Hv2) & _).
  assert (0 < len l2) by (destruct l2; [done|unfold len; simpl; lia]).
  unfold len in *. rewrite app_length in *; simpl in *.
  unfold mu_array_delete, mu_array_is_empty.
  destruct (Z.eqb_spec (a_cnt a) 0) as [Hq1|Hq1]; [lia|]. destruct (Z.leb_spec (a_cnt a) (Z.of_nat (length l1))); [lia|]. simpl.
  rewrite to_size_id by lia. destruct (Z.eqb_spec (Z.of_nat (length l1)) (a_cnt a - 1)) as [Hq2|Hq2]; [lia|].
  rewrite (ld_ok _ _ x).
  2:{ rewrite (areps_lookup _ _ _ Hr) by (rewrite app_length; simpl; lia). rewrite list_lookup_middle; done. }
  simpl. rewrite move_elems_id; [|lia|].
  2:{ unfold size_max in *. assert (0 < ptr_bytes p) by (destruct p; simpl; lia). nia. }
  rewrite (to_size_id p (_ + 1)) by lia.
  rewrite memmove_ub; [done|lia].
Qed.

(** interior delete otherwise: the hole is closed with one item too many and
    the count stays *)
Lemma delete_interior a l1 x l2 junk : areps p a (l1 ++ x :: l2) -> l2 <> [] ->
  a_store a !! length (l1 ++ x :: l2) = Some junk ->
  exists a', mu_array_delete p a (len l1) = Ok (true, Some x, a') /\
    areps p a' (l1 ++ l2 ++ [junk]) /\ a_cap a' = a_cap a /\ mu_array_count a' = mu_array_count a.
Proof.
  intros Hr Hne Hj. pose proof (areps_bounds _ _ Hr) as Hb.
  pose proof Hr as ((Hv1 & Hv2) & _ & _ & _ & _ & Ht).
  assert (0 < len l2) by (destruct l2; [done|unfold len; simpl; lia]).
  pose proof (lookup_lt_Some _ _ _ Hj) as Hjl.
  unfold len in *. rewrite app_length in *; simpl in *.
  unfold mu_array_delete, mu_array_is_empty.
  destruct (Z.eqb_spec (a_cnt a) 0) as [Hq1|Hq1]; [lia|]. destruct (Z.leb_spec (a_cnt a) (Z.of_nat (length l1))); [lia|]. simpl.
  rewrite to_size_id by lia. destruct (Z.eqb_spec (Z.of_nat (length l1)) (a_cnt a - 1)) as [Hq2|Hq2]; [lia|].
  rewrite (ld_ok _ _ x).
  2:{ rewrite (areps_lookup _ _ _ Hr) by (rewrite app_length; simpl; lia). rewrite list_lookup_middle; done. }
  simpl. rewrite move_elems_id; [|lia|].
  2:{ unfold size_max in *. assert (0 < ptr_bytes p) by (destruct p; simpl; lia). nia. }
  rewrite (to_size_id p (_ + 1)) by lia.
  rewrite memmove_ok by lia. simpl. eexists. split; [done|]. split; [|done].
  set (s := a_store a) in *.
  set (n := (length l1 + S (length l2))%nat) in *.
  assert (Hs : s = (l1 ++ x :: l2) ++ junk :: drop (S n) s).
  { rewrite <- Ht at 1. symmetry. apply take_drop_middle. done. }
  assert (a_cnt a = len (l1 ++ l2 ++ [junk])) as ->.
  { unfold len. rewrite !app_length; simpl. lia. }
  eapply areps_mk; [done| | |].
  - unfold len. rewrite !app_length, !take_length, !drop_length. simpl. fold s. lia.
  - rewrite !app_length; simpl.
    replace (Z.to_nat (Z.of_nat (length l1))) with (length l1) by lia.
    replace (Z.to_nat (Z.of_nat (length l1) + 1)) with (S (length l1)) by lia.
    replace (Z.to_nat (len (l1 ++ l2 ++ [junk]) - Z.of_nat (length l1))) with (length (l2 ++ [junk])) by (unfold len; rewrite !app_length; simpl; lia).
    assert (take (length l1) s = l1) as ->.
    { rewrite Hs. rewrite <- !app_assoc. apply take_app. }
    assert (drop (S (length l1)) s = l2 ++ junk :: drop (S n) s) as ->.
    { rewrite Hs at 1. rewrite <- app_assoc. apply (drop_mid l1 x). }
    assert (take (length (l2 ++ [junk])) (l2 ++ junk :: drop (S n) s) = l2 ++ [junk]) as ->.
    { apply take_mid. }
    rewrite (app_assoc l1). rewrite take_app_alt; [done|].
    rewrite !app_length; simpl; lia.
  - unfold len. rewrite !app_length; simpl; lia.
Qed.

Lemma index_ok a l x : areps p a l ->
  (exists i, mu_array_index p a x = Ok (Z.of_nat i) /\ first_index l x i) \/
  (mu_array_index p a x = Ok (MU_ARRAY_NOT_FOUND p) /\ ~ In x l).
Proof.
  intros Hr. pose proof (areps_bounds _ _ Hr) as Hb. unfold mu_array_index.
  assert (G : forall fuel i, (length l - i <= fuel)%nat -> (i <= length l)%nat ->
    (forall j, (j < i)%nat -> l !! j <> Some x) ->
    (exists i', index_loop p fuel (a_store a) (a_cnt a) x (Z.of_nat i) = Ok (Z.of_nat i') /\ first_index l x i') \/
    (index_loop p fuel (a_store a) (a_cnt a) x (Z.of_nat i) = Ok (MU_ARRAY_NOT_FOUND p) /\ ~ In x l)).
  { induction fuel as [|f IH]; intros i Hf Hi Hno.
    - right. simpl. destruct (Z.ltb_spec (Z.of_nat i) (a_cnt a)); [lia|]. split; [done|].
      intros Hin. apply elem_of_list_In, elem_of_list_lookup in Hin as [j Hj].
      apply (Hno j); [|done]. apply lookup_lt_Some in Hj. lia.
    - simpl. destruct (Z.ltb_spec (Z.of_nat i) (a_cnt a)).
      + destruct (lookup_lt_is_Some_2 l i) as [y Hy]; [lia|].
        rewrite (ld_ok _ _ y) by (rewrite (areps_lookup _ _ _ Hr) by lia; done). simpl.
        destruct (Z.eqb_spec y x) as [->|].
        * left. exists i. split; [done|]. split; done.
        * rewrite to_size_id by lia. replace (Z.of_nat i + 1) with (Z.of_nat (S i)) by lia.
          apply IH; [lia|lia|]. intros j Hj. destruct (decide (j = i)) as [->|]; [congruence|].
          apply Hno; lia.
      + right. split; [done|].
        intros Hin. apply elem_of_list_In, elem_of_list_lookup in Hin as [j Hj].
        apply (Hno j); [|done]. apply lookup_lt_Some in Hj. lia. }
  apply (G (Z.to_nat (a_cnt a)) 0%nat); [lia|lia|lia].
Qed.

Lemma rindex_ok a l x : areps p a l ->
  (exists i, mu_array_rindex p a x = Ok (Z.of_nat i) /\ last_index l x i) \/
  (mu_array_rindex p a x = Ok (MU_ARRAY_NOT_FOUND p) /\ ~ In x l).
Proof.
  intros Hr. pose proof (areps_bounds _ _ Hr) as Hb. unfold mu_array_rindex.
  assert (G : forall k, (k <= length l)%nat ->
    (forall j, (k <= j)%nat -> l !! j <> Some x) ->
    (exists i', rindex_loop p k (a_store a) x (to_size p (Z.of_nat k - 1)) = Ok (Z.of_nat i') /\ last_index l x i') \/
    (rindex_loop p k (a_store a) x (to_size p (Z.of_nat k - 1)) = Ok (MU_ARRAY_NOT_FOUND p) /\ ~ In x l)).
  { induction k as [|k IH]; intros Hk Hno.
    - right. change (Z.of_nat 0 - 1) with (-1). rewrite to_size_neg1. simpl. unfold MU_ARRAY_NOT_FOUND.
      rewrite Z.eqb_refl. simpl. split; [done|].
      intros Hin. apply elem_of_list_In, elem_of_list_lookup in Hin as [j Hj].
      apply (Hno j); [lia|done].
    - rewrite to_size_id by lia. replace (Z.of_nat (S k) - 1) with (Z.of_nat k) by lia.
      cbn [rindex_loop]. unfold MU_ARRAY_NOT_FOUND at 1 3. unfold size_max.
      destruct (Z.eqb_spec (Z.of_nat k) (size_mod p - 1)); [lia|]. simpl negb. cbv iota.
      destruct (lookup_lt_is_Some_2 l k) as [y Hy]; [lia|].
      rewrite (ld_ok _ _ y) by (rewrite (areps_lookup _ _ _ Hr) by lia; done). simpl.
      destruct (Z.eqb_spec y x) as [->|].
      + left. exists k. split; [done|]. split; [done|]. intros j Hj. apply Hno; lia.
      + apply IH; [lia|]. intros j Hj. destruct (decide (j = k)) as [->|]; [congruence|].
        apply Hno; lia. }
  replace (to_size p (a_cnt a - 1)) with (to_size p (Z.of_nat (length l) - 1)) by (f_equal; lia).
  replace (Z.to_nat (a_cnt a)) with (length l) by lia.
  apply G; [lia|]. intros j Hj. rewrite lookup_ge_None_2 by done. done.
Qed.

Section cmp.
Context (cmp : Z -> Z -> Z).

(** sort: result is a permutation within the first [count] slots, the slots
    above are unchanged, sorted if [cmp] is a total preorder *)
Lemma sort_ok a l : areps p a l -> p = P64 \/ len l <> 1 ->
  exists a' l', mu_array_sort p cmp a = Ok a' /\ areps p a' l' /\ a_cap a' = a_cap a /\
    Permutation l l' /\ drop (length l) (a_store a') = drop (length l) (a_store a) /\
    (total_preorder cmp -> sorted cmp l').
Proof.
  intros Hr Hsafe. pose proof (areps_bounds _ _ Hr) as Hb. unfold mu_array_sort.
  destruct (Z.ltb_spec 0 (a_cnt a)).
  2:{ assert (l = []) as -> by (destruct l; [done|simpl in *; lia]).
      exists a, []. split_and!; done. }
  assert (a_cnt a = Z.of_nat (length l)) as -> by lia.
  destruct (heapify_ok cmp p (a_store a) (length l)) as (s1 & -> & Hl1 & Hp1 & Hd1 & Hh1); [lia|lia| |].
  { unfold len in Hsafe. destruct (decide (length l = 1%nat)); [right|left; lia]. split; [done|].
    destruct Hsafe; [done|]. exfalso; lia. }
  simpl bind. rewrite to_size_id by lia.
  destruct (sort_loop_ok cmp p (length l - 1) s1 (length l)) as (s2 & HE & Hl2 & Hp2 & Hd2 & Hh2); [lia|lia|lia|].
  replace (Z.of_nat (length l) - 1) with (Z.of_nat (length l - 1)) by lia.
  rewrite Nat2Z.id, HE. simpl.
  pose proof Hr as (_ & _ & _ & _ & _ & Ht).
  assert (Hperm : Permutation l (take (length l) s2)).
  { rewrite Hp2, Hp1, Ht. done. }
  pose proof (Permutation_length Hperm) as HL.
  exists (MkA s2 (a_cap a) (Z.of_nat (length l))), (take (length l) s2). split; [done|].
  split_and!.
  - replace (Z.of_nat (length l)) with (len (take (length l) s2)) by (unfold len; lia).
    eapply areps_mk; [done|lia| |unfold len; lia]. rewrite <- HL. done.
  - done.
  - done.
  - simpl. congruence.
  - intros Htp. apply Hh2; [done|]. split.
    + specialize (Hh1 Htp). replace (S (length l - 1)) with (length l) by lia. done.
    + intros i j x y ? Hj Hjm. lia.
Qed.

Lemma insert_sorted_ok a l x : areps p a l ->
  exists b a', mu_array_insert_sorted p cmp a x = Ok (b, a') /\ a_cap a' = a_cap a /\
   ((len l = a_cap a /\ b = false /\ a' = a) \/
    (len l < a_cap a /\ b = true /\ exists l1 l2, l = l1 ++ l2 /\ areps p a' (l1 ++ x :: l2) /\
      (total_preorder cmp -> sorted cmp l ->
       (forall y, In y l1 -> cmp y x <= 0) /\ (forall y, In y l2 -> 0 < cmp y x)))).
Proof.
  intros Hr. pose proof (areps_bounds _ _ Hr) as Hb. unfold mu_array_insert_sorted, mu_array_count.
  destruct (Z.eqb_spec (a_cnt a) 0) as [E|].
  - destruct (push_ok a l x Hr) as (b & a' & -> & [(H1 & -> & H2 & H3)|(H1 & -> & ->)]).
    + exists true, a'. split; [done|]. split; [done|]. right. split; [done|]. split; [done|].
      assert (l = []) as -> by (destruct l; [done|simpl in *; lia]).
      exists [], []. split; [done|]. split; [done|]. intros _ _. split; intros y [].
    + exists false, a. split; [done|]. split; [done|]. by left.
  - unfold find_insertion_index.
    rewrite to_size_id by lia. rewrite to_int_id by (unfold int_min, int_max; lia).
    destruct (find_loop_ok cmp (a_store a) x (length l)) with (fuel := Z.to_nat (a_cnt a)) (low := 0) (high := a_cnt a - 1)
      as (r & -> & Hrr & Hspec); [lia|lia|lia|lia|lia|lia|].
    simpl. rewrite (to_size_id p r) by lia. rewrite to_int_id by (unfold int_min, int_max; lia).
    rewrite to_size_id by lia.
    destruct (insert_ok a l x r Hr) as (b & a' & -> & Hcap & [(H1 & H2 & -> & H3)|(H1 & -> & ->)]); [lia| |].
    + exists true, a'. split; [done|]. split; [done|]. right. split; [done|]. split; [done|].
      exists (take (Z.to_nat r) l), (drop (Z.to_nat r) l).
      split; [by rewrite take_drop|]. split; [done|].
      intros Htp Hs. destruct Hspec as [Ha Hbb]; [done| |intros; lia|intros; lia|].
      { destruct Hr as (_ & _ & _ & _ & _ & ->). done. }
      split; intros y Hy; apply elem_of_list_In, elem_of_list_lookup in Hy as [j Hj].
      * apply lookup_take_Some in Hj as [Hj ?]. apply (Ha j y); [lia|].
        rewrite (areps_lookup _ _ _ Hr); [done|]. apply lookup_lt_Some in Hj; done.
      * rewrite lookup_drop in Hj. pose proof (lookup_lt_Some _ _ _ Hj).
        apply (Hbb (Z.to_nat r + j)%nat y); [lia|done|].
        rewrite (areps_lookup _ _ _ Hr); done.
    + exists false, a. split; [done|]. split; [done|]. left. unfold len in *.
      destruct H1; [|lia]. done.
Qed.
End cmp.

Lemma arun1_ok a l op : areps p a l -> aop_typed p op -> asafe p l op ->
  exists o a' l', arun1 p a op = Ok (o, a') /\ areps p a' l' /\ a_cap a' = a_cap a /\
    astep (a_cap a) l op o l'.
Proof.
  intros Hr Hty Hs. pose proof (areps_bounds _ _ Hr) as Hb.
  destruct op; simpl in *.
  - destruct (push_ok a l x Hr) as (b & a' & -> & [(H1 & -> & H2 & H3)|(H1 & -> & ->)]); simpl;
    eexists _, _, _; split_and!; try done; by constructor.
  - destruct (pop_ok a l Hr) as [(-> & ->)|(l' & x & a' & -> & -> & H1 & H2)]; simpl;
    eexists _, _, _; split_and!; try done; by econstructor.
  - destruct (peek_ok a l Hr) as [(-> & ->)|(l' & x & -> & ->)]; simpl;
    eexists _, _, _; split_and!; try done; by econstructor.
  - destruct (ref_ok a l i Hr) as [(H1 & ->)|(x & H1 & ->)]; [lia| |]; simpl;
    eexists _, _, _; split_and!; try done; econstructor; try done; lia.
  - destruct (insert_ok a l x i Hr) as (b & a' & -> & Hcap & [(H1 & H2 & -> & H3)|(H1 & -> & ->)]); [lia| |]; simpl;
    eexists _, _, _; split_and!; try done.
    + constructor; [done|by rewrite take_drop|]. unfold len in *. rewrite take_length. lia.
    + by constructor.
  - destruct (Z.le_gt_cases (len l) i).
    + rewrite (delete_fail a l i) by done. simpl. eexists _, _, _; split_and!; try done. by constructor.
    + destruct (list_cases_snoc l) as [->|(l' & x & ->)]; [unfold len in *; simpl in *; lia|].
      destruct (delete_tail a l' x Hr) as (a' & HE & H1 & H2).
      assert (i = len l') as -> by (unfold len in *; rewrite app_length in *; simpl in *; lia).
      rewrite HE. simpl. eexists _, _, _; split_and!; try done.
      pose proof (s_delete (a_cap a) (l' ++ [x]) (len l') l' x [] eq_refl eq_refl) as HD.
      rewrite app_nil_r in HD. done.
  - destruct (index_ok a l x Hr) as [(i & -> & H1)|(-> & H1)]; simpl;
    eexists _, _, _; split_and!; try done; unfold idx_obs, MU_ARRAY_NOT_FOUND, size_max.
    + destruct H1 as [H1 H1']. pose proof (lookup_lt_Some _ _ _ H1).
      destruct (Z.eqb_spec (Z.of_nat i) (size_mod p - 1)); [lia|]. by constructor.
    + rewrite Z.eqb_refl. by constructor.
  - destruct (rindex_ok a l x Hr) as [(i & -> & H1)|(-> & H1)]; simpl;
    eexists _, _, _; split_and!; try done; unfold idx_obs, MU_ARRAY_NOT_FOUND, size_max.
    + destruct H1 as [H1 H1']. pose proof (lookup_lt_Some _ _ _ H1).
      destruct (Z.eqb_spec (Z.of_nat i) (size_mod p - 1)); [lia|]. by constructor.
    + rewrite Z.eqb_refl. by constructor.
  - exists OUnit, (mu_array_reset a), []. split_and!; try done; [|by constructor].
    unfold mu_array_reset. change 0 with (len []). eapply areps_mk; [done|done|done|unfold len; simpl; lia].
  - exists (ONum (len l)), a, l. split_and!; try done; [|by constructor]. unfold mu_array_count. 
    destruct Hr as (_ & _ & _ & -> & _). done.
  - exists (ONum (a_cap a)), a, l. split_and!; try done. by constructor.
  - eexists _, a, l. split_and!; try done. unfold mu_array_is_empty.
    replace (a_cnt a =? 0) with (bool_decide (l = [])); [by constructor|].
    destruct Hb as (_ & _ & _ & -> & _). destruct l; simpl; done.
  - eexists _, a, l. split_and!; try done. unfold mu_array_is_full.
    replace (a_cnt a =? a_cap a) with (bool_decide (len l = a_cap a)); [by constructor|].
    destruct Hr as (_ & _ & _ & -> & _). unfold bool_decide.
    destruct (decide_rel _ _ _), (Z.eqb_spec (len l) (a_cap a)); done.
  - destruct (sort_ok cmp a l Hr) as (a' & l' & -> & H1 & H2 & H3 & H4 & H5); [done|]. simpl.
    eexists _, _, l'. split_and!; try done. by constructor.
  - destruct (insert_sorted_ok cmp a l x Hr) as (b & a' & -> & Hcap & [(H1 & -> & ->)|(H1 & -> & l1 & l2 & -> & H2 & H3)]); simpl;
    eexists _, _, _; split_and!; try done; by constructor.
Qed.

Lemma arun_ok : forall ops a l, areps p a l ->
  (forall op, In op ops -> aop_typed p op) ->
  (forall ops1 op ops2 os l', ops = ops1 ++ op :: ops2 -> asteps (a_cap a) l ops1 os l' -> asafe p l' op) ->
  exists os a' l', arun p a ops = Ok (os, a') /\ areps p a' l' /\ a_cap a' = a_cap a /\ asteps (a_cap a) l ops os l'.
Proof.
  induction ops as [|op ops IH]; intros a l Hr Hty Hs.
  - exists [], a, l. split_and!; [done|done|done|constructor].
  - destruct (arun1_ok a l op Hr) as (o & a1 & l1 & HE & Hr1 & Hc & Hst).
    { apply Hty; left; done. }
    { apply (Hs [] op ops [] l); [done|constructor]. }
    destruct (IH a1 l1 Hr1) as (os & a2 & l2 & HE2 & Hr2 & Hc2 & Hst2).
    { intros op' Hin. apply Hty; right; done. }
    { intros ops1 op' ops2 os' l' -> Hst'. apply (Hs (op :: ops1) op' ops2 (o :: os') l'); [done|].
      rewrite Hc in Hst'. econstructor; done. }
    simpl. rewrite HE. simpl. rewrite HE2. simpl. eexists _, _, _. split_and!; [done|done|congruence|].
    rewrite Hc in Hst2. econstructor; done.
Qed.

Lemma init_reps storage cap : valid_cap p cap -> cap <= 1073741824 -> Z.of_nat (length storage) = cap ->
  areps p (mu_array_init storage cap) [].
Proof.
  intros Hv Hc Hl. unfold mu_array_init, mu_array_reset, areps; simpl. split_and!; try done.
  unfold len; simpl. lia.
Qed.
End refine.
