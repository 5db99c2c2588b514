(** * C64: the exact behaviour of every mu_array call, right or wrong

    The other mu_array theorems say where the code agrees with a bounded list.  Here
    is what it does in every case: which slots hold what after each call, and exactly
    when a history has undefined behaviour. *)
From Verif Require Import CSem ArrayModel ArraySpec ArrayProofs ArrayRefine ArrayProps.

(** ** Specification.  The storage is the items [l] followed by the unused slots [t]. *)

(** a call that is undefined behaviour: deleting an item other than the last of a full
    array, or sorting a single item when size_t has 32 bits *)
Definition dangerous (p : plat) (cap : Z) (l : list Z) (op : aop) : Prop :=
  match op with
  | ADelete i => i < len l - 1 /\ len l = cap
  | ASort _ => p = P32 /\ len l = 1
  | _ => False
  end.

(** [xstep (l, t) op o (l', t')]: effect of one other call on items and unused slots *)
Inductive xstep : list Z * list Z -> aop -> aobs -> list Z * list Z -> Prop :=
| x_push l y t x : xstep (l, y :: t) (APush x) (OBool true) (l ++ [x], t)
| x_push_full l x : xstep (l, []) (APush x) (OBool false) (l, [])
| x_pop l x t : xstep (l ++ [x], t) APop (OItem true (Some x)) (l, x :: t)
| x_pop_empty t : xstep ([], t) APop (OItem false None) ([], t)
| x_peek l x t : xstep (l ++ [x], t) APeek (OItem true (Some x)) (l ++ [x], t)
| x_peek_empty t : xstep ([], t) APeek (OItem false None) ([], t)
| x_ref l1 x l2 t : xstep (l1 ++ x :: l2, t) (ARef (len l1)) (OItem true (Some x)) (l1 ++ x :: l2, t)
| x_ref_out l t i : len l <= i -> xstep (l, t) (ARef i) (OItem false None) (l, t)
| x_insert l1 l2 y t x : xstep (l1 ++ l2, y :: t) (AInsert x (len l1)) (OBool true) (l1 ++ x :: l2, t)
| x_insert_fail l t x i : t = [] \/ len l < i -> xstep (l, t) (AInsert x i) (OBool false) (l, t)
| x_delete_last l x t : xstep (l ++ [x], t) (ADelete (len l)) (OItem true (Some x)) (l, x :: t)
(** the wrong case: the count stays, the first unused slot [j] becomes the last item *)
| x_delete_interior l1 x y l2 j t :
    xstep (l1 ++ x :: y :: l2, j :: t) (ADelete (len l1)) (OItem true (Some x)) (l1 ++ y :: l2 ++ [j], j :: t)
| x_delete_out l t i : len l <= i -> xstep (l, t) (ADelete i) (OItem false None) (l, t)
| x_index l t x i : first_index l x i -> xstep (l, t) (AIndex x) (OIdx (Some (Z.of_nat i))) (l, t)
| x_index_none l t x : ~ In x l -> xstep (l, t) (AIndex x) (OIdx None) (l, t)
| x_rindex l t x i : last_index l x i -> xstep (l, t) (ARindex x) (OIdx (Some (Z.of_nat i))) (l, t)
| x_rindex_none l t x : ~ In x l -> xstep (l, t) (ARindex x) (OIdx None) (l, t)
| x_reset l t : xstep (l, t) AReset OUnit ([], l ++ t)
| x_count l t : xstep (l, t) ACount (ONum (len l)) (l, t)
| x_capacity l t : xstep (l, t) ACapacity (ONum (len (l ++ t))) (l, t)
| x_is_empty l t : xstep (l, t) AIsEmpty (OBool (bool_decide (l = []))) (l, t)
| x_is_full l t : xstep (l, t) AIsFull (OBool (bool_decide (t = []))) (l, t)
| x_sort l l' t cmp : Permutation l l' -> (total_preorder cmp -> sorted cmp l') -> xstep (l, t) (ASort cmp) OUnit (l', t)
| x_insert_sorted cmp x l1 l2 y t :
    (total_preorder cmp -> sorted cmp (l1 ++ l2) ->
       (forall z, In z l1 -> cmp z x <= 0) /\ (forall z, In z l2 -> 0 < cmp z x)) ->
    xstep (l1 ++ l2, y :: t) (AInsertSorted cmp x) (OBool true) (l1 ++ x :: l2, t)
| x_insert_sorted_full l cmp x : xstep (l, []) (AInsertSorted cmp x) (OBool false) (l, []).

Inductive xsteps : list Z * list Z -> list aop -> list aobs -> list Z * list Z -> Prop :=
| xs_nil s : xsteps s [] [] s
| xs_cons s op o s1 ops os s2 : xstep s op o s1 -> xsteps s1 ops os s2 -> xsteps s (op :: ops) (o :: os) s2.

(** ** Proof *)
Definition xreps (p : plat) (a : marray) (l t : list Z) : Prop :=
  valid_cap p (a_cap a) /\ a_cap a <= 1073741824 /\ a_store a = l ++ t /\
  len (l ++ t) = a_cap a /\ a_cnt a = len l.

Section exact.
Context (p : plat).

Lemma xreps_areps a l t : xreps p a l t -> areps p a l.
Proof.
  intros (Hv & Hc & Hs & Hl & Hn). unfold areps. rewrite Hs. unfold len in *. rewrite app_length in *.
  do 5 (split; [done || lia|]). apply take_app.
Qed.
Lemma areps_xreps a l : areps p a l -> xreps p a l (drop (length l) (a_store a)).
Proof.
  intros H. pose proof (areps_bounds _ _ _ H). pose proof (areps_app _ _ _ H) as E.
  destruct H as (Hv & Hc & Hl & Hn & Hle & Ht). unfold xreps. rewrite <- E. split_and!; try done.
Qed.
Lemma xreps_bounds a l t : xreps p a l t ->
  a_cap a <= 1073741824 /\ a_cap a + 2 < size_mod p /\ a_cap a * ptr_bytes p < size_mod p /\
  a_cnt a = Z.of_nat (length l) /\ Z.of_nat (length l) + Z.of_nat (length t) = a_cap a.
Proof.
  intros (Hv & Hc & Hs & Hl & Hn). unfold len in *. rewrite app_length in Hl.
  pose proof (size_mod_big p). destruct Hv as [_ Hv2]. unfold size_max in Hv2.
  assert (0 < ptr_bytes p) by (destruct p; simpl; lia). split_and!; try lia.
Qed.
Lemma xreps_mk a l t l' t' s' n' : xreps p a l t -> s' = l' ++ t' ->
  (length l' + length t' = length l + length t)%nat -> n' = len l' -> xreps p (MkA s' (a_cap a) n') l' t'.
Proof.
  intros (Hv & Hc & Hs & Hl & Hn) -> HL ->. unfold xreps, len in *; simpl. rewrite app_length in *.
  split_and!; try done. lia.
Qed.

Lemma list_snoc_eq (l : list Z) x y t : <[length l := x]> (l ++ y :: t) = (l ++ [x]) ++ t.
Proof. rewrite insert_app_r_alt by lia. rewrite Nat.sub_diag. simpl. by rewrite <- app_assoc. Qed.

Lemma xpush a l t x : xreps p a l t ->
  (exists y t' a', t = y :: t' /\ mu_array_push p a x = Ok (true, a') /\ xreps p a' (l ++ [x]) t' /\ a_cap a' = a_cap a) \/
  (t = [] /\ mu_array_push p a x = Ok (false, a)).
Proof.
  intros Hr. pose proof (xreps_bounds _ _ _ Hr) as (H1 & H2 & _ & H3 & H4). pose proof Hr as (_ & _ & Hs & _).
  unfold mu_array_push, mu_array_is_full. destruct t as [|y t]; simpl in H4.
  - right. split; [done|]. destruct (Z.eqb_spec (a_cnt a) (a_cap a)); [done|lia].
  - left. destruct (Z.eqb_spec (a_cnt a) (a_cap a)) as [?|_]; [lia|]. simpl negb. cbv iota.
    rewrite st_ok by (rewrite Hs, app_length; simpl; lia). simpl bind. eexists _, _, _.
    split; [done|]. split; [done|]. split; [|done].
    eapply xreps_mk; [exact Hr| | |].
    + rewrite Hs, H3, Nat2Z.id. apply list_snoc_eq.
    + rewrite app_length; simpl; lia.
    + rewrite to_size_id by lia. unfold len. rewrite app_length; simpl; lia.
Qed.

Lemma xinsert a l t x i : xreps p a l t -> 0 <= i ->
  (exists l1 l2 y t' a', l = l1 ++ l2 /\ i = len l1 /\ t = y :: t' /\ mu_array_insert p a x i = Ok (true, a') /\
     xreps p a' (l1 ++ x :: l2) t' /\ a_cap a' = a_cap a) \/
  ((t = [] \/ len l < i) /\ mu_array_insert p a x i = Ok (false, a)).
Proof.
  intros Hr Hi. pose proof (xreps_bounds _ _ _ Hr) as (H1 & H2 & Hby & H3 & H4). pose proof Hr as (_ & _ & Hs & _).
  unfold mu_array_insert, mu_array_is_full. destruct t as [|y t]; simpl in H4.
  { right. split; [by left|]. destruct (Z.eqb_spec (a_cnt a) (a_cap a)); [done|lia]. }
  destruct (Z.eqb_spec (a_cnt a) (a_cap a)) as [?|_]; [lia|]. simpl orb.
  destruct (Z.ltb_spec (a_cnt a) i).
  { right. split; [right; unfold len; lia|done]. }
  left. exists (take (Z.to_nat i) l), (drop (Z.to_nat i) l), y, t. cbv iota.
  destruct (Z.eqb_spec i (a_cnt a)) as [E|Hne].
  - rewrite st_ok by (rewrite Hs, app_length; simpl; lia). simpl bind. eexists.
    split; [by rewrite take_drop|]. split; [unfold len; rewrite take_length; lia|].
    split; [done|]. split; [done|]. split; [|done].
    rewrite take_ge, drop_ge by lia.
    eapply xreps_mk; [exact Hr| | |].
    + rewrite Hs, H3, Nat2Z.id. apply list_snoc_eq.
    + rewrite app_length; simpl; lia.
    + rewrite to_size_id by lia. unfold len. rewrite app_length; simpl; lia.
  - assert (0 < ptr_bytes p) by (destruct p; simpl; lia).
    rewrite move_elems_id; [|lia|nia].
    rewrite (to_size_id p (i + 1)) by lia. rewrite Hs.
    rewrite memmove_ok by (rewrite ?app_length; simpl; lia). simpl bind.
    set (k := Z.to_nat i). set (n := length l) in *.
    assert (Hkn : (k < n)%nat) by lia.
    replace (Z.to_nat (i + 1)) with (Datatypes.S k) by lia.
    replace (Z.to_nat (a_cnt a - i)) with (n - k)%nat by lia.
    replace (Z.to_nat (i + 1 + (a_cnt a - i))) with (Datatypes.S n) by lia.
    assert (E1 : take (n - k) (drop k (l ++ y :: t)) = drop k l).
    { rewrite drop_app_le by lia. rewrite take_app_alt; [done|]. rewrite drop_length. lia. }
    assert (E2 : drop (Datatypes.S n) (l ++ y :: t) = t) by apply drop_mid.
    destruct (lookup_lt_is_Some_2 l k) as [w Hw]; [lia|].
    assert (E3 : take (Datatypes.S k) (l ++ y :: t) = take k l ++ [w]).
    { rewrite take_app_le by lia. by apply take_S_r. }
    rewrite E1, E2, E3.
    rewrite st_ok by (rewrite !app_length, take_length, drop_length; simpl; lia). simpl bind. fold k.
    eexists. split; [by rewrite take_drop|]. split; [unfold len; rewrite take_length; lia|].
    split; [done|]. split; [done|]. split; [|done].
    eapply xreps_mk; [exact Hr| | |].
    + rewrite <- app_assoc. rewrite insert_app_r_alt by (rewrite take_length; lia).
      rewrite take_length, Nat.min_l, Nat.sub_diag by lia. simpl. by rewrite <- app_assoc.
    + rewrite app_length; simpl. rewrite take_length, drop_length. lia.
    + rewrite to_size_id by lia. unfold len. rewrite app_length; simpl. rewrite take_length, drop_length. lia.
Qed.

Lemma xdelete_interior a l1 x y l2 j t : xreps p a (l1 ++ x :: y :: l2) (j :: t) ->
  exists a', mu_array_delete p a (len l1) = Ok (true, Some x, a') /\
    xreps p a' (l1 ++ y :: l2 ++ [j]) (j :: t) /\ a_cap a' = a_cap a.
Proof.
  intros Hr. pose proof (xreps_bounds _ _ _ Hr) as (H1 & H2 & Hby & H3 & H4). pose proof Hr as (_ & _ & Hs & _).
  rewrite app_length in *; simpl in *. unfold mu_array_delete, mu_array_is_empty, len.
  destruct (Z.eqb_spec (a_cnt a) 0) as [?|_]; [lia|]. destruct (Z.leb_spec (a_cnt a) (Z.of_nat (length l1))); [lia|]. simpl orb. cbv iota.
  rewrite to_size_id by lia. destruct (Z.eqb_spec (Z.of_nat (length l1)) (a_cnt a - 1)) as [?|_]; [lia|].
  rewrite (ld_ok _ _ x) by (rewrite Hs, <- app_assoc; simpl; by rewrite list_lookup_middle).
  simpl bind. assert (0 < ptr_bytes p) by (destruct p; simpl; lia).
  rewrite move_elems_id; [|lia|nia]. rewrite (to_size_id p (_ + 1)) by lia.
  rewrite Hs. rewrite memmove_ok by (rewrite ?app_length; simpl; lia). simpl bind.
  rewrite !Nat2Z.id. replace (Z.to_nat (Z.of_nat (length l1) + 1)) with (Datatypes.S (length l1)) by lia.
  replace (Z.to_nat (a_cnt a - Z.of_nat (length l1))) with (length ((y :: l2) ++ [j])) by (rewrite app_length; simpl; lia).
  replace (Z.to_nat (Z.of_nat (length l1) + (a_cnt a - Z.of_nat (length l1)))) with (length (l1 ++ x :: y :: l2)) by (rewrite app_length; simpl; lia).
  rewrite drop_app. rewrite <- !app_assoc. cbn [app]. rewrite take_app.
  rewrite (drop_mid l1 x).
  pose proof (take_mid (y :: l2) j t) as TM. cbn [app] in TM. rewrite TM.
  eexists. split; [done|]. split; [|done].
  eapply xreps_mk; [exact Hr| | |].
  - simpl. rewrite <- !app_assoc. simpl. by rewrite <- !app_assoc.
  - rewrite !app_length; simpl. rewrite !app_length; simpl. lia.
  - rewrite H3. unfold len. rewrite !app_length; simpl. rewrite !app_length; simpl. lia.
Qed.

Lemma xinsert_sorted a l t cmp x : xreps p a l t ->
  (exists l1 l2 y t' a', l = l1 ++ l2 /\ t = y :: t' /\ mu_array_insert_sorted p cmp a x = Ok (true, a') /\
     xreps p a' (l1 ++ x :: l2) t' /\ a_cap a' = a_cap a /\
     (total_preorder cmp -> sorted cmp l ->
       (forall z, In z l1 -> cmp z x <= 0) /\ (forall z, In z l2 -> 0 < cmp z x))) \/
  (t = [] /\ mu_array_insert_sorted p cmp a x = Ok (false, a)).
Proof.
  intros Hr. pose proof (xreps_bounds _ _ _ Hr) as (H1 & H2 & _ & H3 & H4). pose proof (xreps_areps _ _ _ Hr) as Ha.
  unfold mu_array_insert_sorted, mu_array_count.
  destruct (Z.eqb_spec (a_cnt a) 0) as [E|Hne].
  - assert (l = []) as -> by (destruct l; [done|simpl in *; lia]).
    destruct (xpush a [] t x Hr) as [(y & t' & a' & -> & HE & Hx & Hc)|(-> & HE)]; [left|by right].
    exists [], [], y, t', a'. split_and!; done.
  - unfold find_insertion_index.
    rewrite to_size_id by lia. rewrite to_int_id by (unfold int_min, int_max; lia).
    pose proof (areps_bounds _ _ _ Ha) as Hb.
    destruct (find_loop_ok cmp (a_store a) x (length l)) with (fuel := Z.to_nat (a_cnt a)) (low := 0) (high := a_cnt a - 1)
      as (r & -> & Hrr & Hspec); [lia|lia|lia|lia|lia|lia|].
    simpl bind. rewrite (to_size_id p r) by lia. rewrite to_int_id by (unfold int_min, int_max; lia).
    rewrite to_size_id by lia.
    destruct (xinsert a l t x r Hr) as [(l1 & l2 & y & t' & a' & El & Er & Et & HE & Hx & Hc)|[Hf HE]]; [lia|left|right].
    + exists l1, l2, y, t', a'. split_and!; try done.
      intros Htp Hs. destruct Hspec as [Ha' Hbb]; [done| |intros; lia|intros; lia|].
      { destruct Ha as (_ & _ & _ & _ & _ & ->). done. }
      subst l. unfold len in Er. split; intros z Hz; apply elem_of_list_In, elem_of_list_lookup in Hz as [j Hj].
      * pose proof (lookup_lt_Some _ _ _ Hj). apply (Ha' j z); [lia|].
        rewrite (areps_lookup _ _ _ _ Ha) by (rewrite app_length; lia). rewrite lookup_app_l by lia. done.
      * pose proof (lookup_lt_Some _ _ _ Hj). rewrite app_length in *. apply (Hbb (length l1 + j)%nat z); [lia|lia|].
        rewrite (areps_lookup _ _ _ _ Ha) by (rewrite app_length; lia). rewrite lookup_app_r by lia.
        replace (length l1 + j - length l1)%nat with j by lia. done.
    + split; [|done]. destruct Hf as [|Hf]; [done|]. unfold len in Hf. lia.
Qed.

Lemma split_at (l : list Z) i x : l !! i = Some x -> exists l1 l2, l = l1 ++ x :: l2 /\ length l1 = i.
Proof.
  intros H. exists (take i l), (drop (Datatypes.S i) l). split; [symmetry; by apply take_drop_middle|].
  rewrite take_length. apply lookup_lt_Some in H. lia.
Qed.

Lemma xrun1 a l t op : xreps p a l t -> aop_typed p op -> ~ dangerous p (a_cap a) l op ->
  exists o a' l' t', arun1 p a op = Ok (o, a') /\ xreps p a' l' t' /\ a_cap a' = a_cap a /\
    xstep (l, t) op o (l', t').
Proof.
  intros Hr Hty Hs. pose proof (xreps_bounds _ _ _ Hr) as Hb. pose proof (xreps_areps _ _ _ Hr) as Ha.
  pose proof Hr as (_ & _ & Hst & _). destruct op; simpl in *.
  - destruct (xpush a l t x Hr) as [(y & t' & a' & -> & -> & Hx & Hc)|(-> & ->)]; simpl;
    eexists _, _, _, _; split_and!; try done; by constructor.
  - destruct (pop_ok p a l Ha) as [(-> & ->)|(l' & x & a' & -> & E & H1 & H2)]; simpl.
    + eexists _, _, _, _. split_and!; try done. constructor.
    + rewrite E. eexists _, a', l', (x :: t). split_and!; try done; [|by constructor].
      revert E. unfold mu_array_pop, mu_array_is_empty. rewrite app_length in Hb; simpl in Hb.
      destruct (Z.eqb_spec (a_cnt a) 0); [lia|]. simpl negb. cbv iota. destruct (ld _ _); simpl; [|done|done].
      intros [= _ <-]. eapply xreps_mk; [exact Hr| | |].
      * rewrite Hst, <- app_assoc. done.
      * rewrite app_length; simpl; lia.
      * rewrite to_size_id by lia. unfold len; lia.
  - destruct (peek_ok p a l Ha) as [(-> & ->)|(l' & x & -> & ->)]; simpl;
    eexists _, _, _, _; split_and!; try done; by econstructor.
  - destruct (ref_ok p a l i Ha) as [(H1 & ->)|(x & H1 & ->)]; [lia| |]; simpl;
    eexists _, _, _, _; split_and!; try done; [by constructor|].
    destruct (split_at _ _ _ H1) as (l1 & l2 & -> & HL). replace i with (len l1) by (unfold len; lia). constructor.
  - destruct (xinsert a l t x i Hr) as [(l1 & l2 & y & t' & a' & -> & -> & -> & -> & Hx & Hc)|[Hf ->]]; [lia| |]; simpl;
    eexists _, _, _, _; split_and!; try done; by constructor.
  - destruct (Z.le_gt_cases (len l) i).
    { rewrite (delete_fail p a l i) by done. simpl. eexists _, _, _, _; split_and!; try done. by constructor. }
    destruct (lookup_lt_is_Some_2 l (Z.to_nat i)) as [x Hx]; [unfold len in *; lia|].
    destruct (split_at _ _ _ Hx) as (l1 & l2 & -> & HL). assert (i = len l1) as -> by (unfold len; lia).
    destruct l2 as [|y l2].
    + destruct (delete_tail p a l1 x Ha) as (a' & E & H1 & H2). rewrite E. simpl.
      eexists _, a', l1, (x :: t). split_and!; try done; [|by constructor].
      revert E. unfold mu_array_delete, mu_array_is_empty, len. rewrite app_length in Hb; simpl in Hb.
      destruct (Z.eqb_spec (a_cnt a) 0); [lia|]. destruct (Z.leb_spec (a_cnt a) (Z.of_nat (length l1))); [lia|]. simpl orb. cbv iota.
      rewrite to_size_id by lia. destruct (Z.eqb_spec (Z.of_nat (length l1)) (a_cnt a - 1)); [|lia].
      destruct (ld _ _); simpl; [|done|done]. intros [= _ <-]. eapply xreps_mk; [exact Hr| | |].
      * rewrite Hst, <- app_assoc. done.
      * rewrite app_length; simpl; lia.
      * unfold len; lia.
    + destruct t as [|j t].
      { exfalso. apply Hs. unfold len in *. rewrite app_length in *. simpl in *. lia. }
      destruct (xdelete_interior a l1 x y l2 j t Hr) as (a' & -> & Hx' & Hc). simpl.
      eexists _, _, _, _. split_and!; try done. constructor.
  - destruct (index_ok p a l x Ha) as [(i & -> & H1)|(-> & H1)]; simpl;
    eexists _, _, _, _; split_and!; try done; unfold idx_obs, MU_ARRAY_NOT_FOUND, size_max.
    + destruct H1 as [H1 H1']. pose proof (lookup_lt_Some _ _ _ H1).
      destruct (Z.eqb_spec (Z.of_nat i) (size_mod p - 1)); [lia|]. by constructor.
    + rewrite Z.eqb_refl. by constructor.
  - destruct (rindex_ok p a l x Ha) as [(i & -> & H1)|(-> & H1)]; simpl;
    eexists _, _, _, _; split_and!; try done; unfold idx_obs, MU_ARRAY_NOT_FOUND, size_max.
    + destruct H1 as [H1 H1']. pose proof (lookup_lt_Some _ _ _ H1).
      destruct (Z.eqb_spec (Z.of_nat i) (size_mod p - 1)); [lia|]. by constructor.
    + rewrite Z.eqb_refl. by constructor.
  - eexists _, _, [], (l ++ t). split_and!; [done| |done|constructor].
    eapply xreps_mk; [exact Hr|by rewrite Hst|rewrite app_length; simpl; lia|done].
  - eexists _, a, l, t. split_and!; try done. unfold mu_array_count. destruct Hr as (_ & _ & _ & _ & ->). constructor.
  - eexists _, a, l, t. split_and!; try done. unfold mu_array_capacity. destruct Hr as (_ & _ & _ & <- & _). constructor.
  - eexists _, a, l, t. split_and!; try done. unfold mu_array_is_empty.
    replace (a_cnt a =? 0) with (bool_decide (l = [])); [by constructor|].
    destruct Hb as (_ & _ & _ & -> & _). destruct l; simpl; done.
  - eexists _, a, l, t. split_and!; try done. unfold mu_array_is_full.
    replace (a_cnt a =? a_cap a) with (bool_decide (t = [])); [by constructor|].
    destruct Hb as (_ & _ & _ & -> & <-). destruct t; simpl length.
    + rewrite bool_decide_true by done. symmetry. apply Z.eqb_eq. lia.
    + rewrite bool_decide_false by done. symmetry. apply Z.eqb_neq. lia.
  - destruct (sort_ok p cmp a l Ha) as (a' & l' & -> & H1 & H2 & H3 & H4 & H5).
    { destruct (decide (len l = 1)); [|by right]. left. destruct p; [|done]. exfalso; apply Hs; done. }
    simpl. eexists _, _, l', t. split_and!; try done; [|by constructor].
    pose proof (areps_xreps _ _ H1) as Hx. rewrite <- (Permutation_length H3), H4, Hst, drop_app in Hx. done.
  - destruct (xinsert_sorted a l t cmp x Hr) as [(l1 & l2 & y & t' & a' & -> & -> & -> & Hx & Hc & Hz)|(-> & ->)]; simpl;
    eexists _, _, _, _; split_and!; try done; by constructor.
Qed.

Lemma xrun1_ub a l t op : xreps p a l t -> aop_typed p op -> dangerous p (a_cap a) l op -> arun1 p a op = UB.
Proof.
  intros Hr Hty Hs. pose proof (xreps_areps _ _ _ Hr) as Ha. destruct op; try done.
  - destruct Hs as [H1 H2]. simpl in Hty. destruct (lookup_lt_is_Some_2 l (Z.to_nat i)) as [x Hx]; [unfold len in *; lia|].
    destruct (split_at _ _ _ Hx) as (l1 & l2 & -> & HL). assert (i = len l1) as -> by (unfold len; lia).
    simpl. rewrite (delete_interior_full p a l1 x l2); try done.
    intros ->. unfold len in *. rewrite app_length in *. simpl in *. lia.
  - destruct Hs as [E H1]. destruct Hr as (_ & _ & _ & _ & Hn). simpl. rewrite E, C04_sort_one_32_refuted; [done|].
    unfold mu_array_count. congruence.
Qed.

Lemma dangerous_dec cap l op : dangerous p cap l op \/ ~ dangerous p cap l op.
Proof.
  destruct op as [| | | | |i| | | | | | | |cmp|]; simpl; try (right; tauto).
  - destruct (Z.lt_ge_cases i (len l - 1)), (decide (len l = cap)); [left|right|right|right]; intuition lia.
  - destruct (decide (len l = 1)); [|right; tauto]. destruct p; [left; done|right; intros [? _]; done].
Qed.

Lemma xrun : forall ops a l t, xreps p a l t -> (forall op, In op ops -> aop_typed p op) ->
  match arun p a ops with
  | Ok (os, a') => exists l' t', xsteps (l, t) ops os (l', t') /\ xreps p a' l' t' /\ a_cap a' = a_cap a
  | UB => exists ops1 op ops2 os1 a1, ops = ops1 ++ op :: ops2 /\ arun p a ops1 = Ok (os1, a1) /\
            dangerous p (a_cap a) (contents a1) op
  | NoFuel => False
  end.
Proof.
  induction ops as [|op ops IH]; intros a l t Hr Hty; simpl.
  { exists l, t. split_and!; try done. constructor. }
  destruct (dangerous_dec (a_cap a) l op) as [Hd|Hd].
  - rewrite (xrun1_ub a l t op) by (try done; apply Hty; by left). simpl.
    exists [], op, ops, [], a. split; [done|]. split; [done|].
    by rewrite (areps_contents _ _ _ (xreps_areps _ _ _ Hr)).
  - destruct (xrun1 a l t op Hr) as (o & a1 & l1 & t1 & HE & Hr1 & Hc1 & Hst); [apply Hty; by left|done|].
    rewrite HE. simpl. specialize (IH a1 l1 t1 Hr1 ltac:(intros; apply Hty; by right)).
    destruct (arun p a1 ops) as [[os a2]| |] eqn:E2; simpl.
    + destruct IH as (l2 & t2 & H1 & H2 & H3). exists l2, t2. split; [econstructor; done|]. split; [done|congruence].
    + destruct IH as (ops1 & op' & ops2 & os1 & a3 & -> & H1 & H2).
      exists (op :: ops1), op', ops2, (o :: os1), a3. split; [done|]. simpl. rewrite HE. simpl. rewrite H1. split; [done|].
      by rewrite <- Hc1.
    + done.
Qed.

Lemma arun_app ops1 ops2 : forall a, arun p a (ops1 ++ ops2) =
  (let* '(os1, a1) := arun p a ops1 in let* '(os2, a2) := arun p a1 ops2 in Ok (os1 ++ os2, a2)).
Proof.
  induction ops1 as [|op ops1 IH]; intros a; simpl.
  { by destruct (arun p a ops2) as [[]| |]. }
  destruct (arun1 p a op) as [[o a1]| |]; simpl; [|done|done]. rewrite IH.
  destruct (arun p a1 ops1) as [[os1 a2]| |]; simpl; [|done|done]. destruct (arun p a2 ops2) as [[]| |]; done.
Qed.
End exact.

(** ** C64 *)
(** Whatever the calls: the run ends (no endless loop); if it is defined, every result and
    every slot is given by [xsteps]. *)
Theorem C64_array_exact : forall p storage cap ops,
  valid_cap p cap -> cap <= 1073741824 -> Z.of_nat (length storage) = cap ->
  (forall op, In op ops -> aop_typed p op) ->
  arun p (mu_array_init storage cap) ops = UB \/
  exists os a' l t, arun p (mu_array_init storage cap) ops = Ok (os, a') /\
    xsteps ([], storage) ops os (l, t) /\
    a_store a' = l ++ t /\ mu_array_count a' = len l /\ mu_array_capacity a' = cap.
Proof.
  intros p storage cap ops Hv Hc Hl Hty.
  assert (Hr : xreps p (mu_array_init storage cap) [] storage).
  { unfold xreps, mu_array_init, mu_array_reset, len; simpl. split_and!; done. }
  pose proof (xrun p ops _ _ _ Hr Hty) as H. destruct (arun _ _ ops) as [[os a']| |]; [right| |done]; [|by left].
  destruct H as (l & t & H1 & H2 & H3). exists os, a', l, t. destruct H2 as (_ & _ & H4 & _ & H5). split_and!; done.
Qed.
Print Assumptions C64_array_exact.

(** ... and it is undefined exactly when some call meets a dangerous state. *)
Theorem C64_array_ub_iff : forall p storage cap ops,
  valid_cap p cap -> cap <= 1073741824 -> Z.of_nat (length storage) = cap ->
  (forall op, In op ops -> aop_typed p op) ->
  arun p (mu_array_init storage cap) ops = UB <->
  exists ops1 op ops2 os1 a1, ops = ops1 ++ op :: ops2 /\
    arun p (mu_array_init storage cap) ops1 = Ok (os1, a1) /\ dangerous p cap (contents a1) op.
Proof.
  intros p storage cap ops Hv Hc Hl Hty.
  assert (Hr : xreps p (mu_array_init storage cap) [] storage).
  { unfold xreps, mu_array_init, mu_array_reset, len; simpl. split_and!; done. }
  split.
  - intros E. pose proof (xrun p ops _ _ _ Hr Hty) as H. rewrite E in H. done.
  - intros (ops1 & op & ops2 & os1 & a1 & -> & H1 & H2). rewrite arun_app, H1. simpl.
    pose proof (xrun p ops1 _ _ _ Hr ltac:(intros; apply Hty; apply in_or_app; by left)) as H. rewrite H1 in H.
    destruct H as (l & t & _ & Hx & Hcap). simpl in Hcap.
    rewrite (areps_contents _ _ _ (xreps_areps _ _ _ _ Hx)) in H2.
    rewrite (xrun1_ub p a1 l t op); [done|done|apply Hty; apply in_or_app; right; by left|]. by rewrite Hcap.
Qed.
Print Assumptions C64_array_ub_iff.

Definition ex_hist64 : list aop := [APush 1; APush 2; APush 3; ADelete 0; ACount; APush 8; AInsert 5 0; ADelete 3].
Example C64_example :
  arun P64 (mu_array_init [90;91;92;93] 4) ex_hist64 =
    Ok ([OBool true; OBool true; OBool true; OItem true (Some 1); ONum 3; OBool true; OBool false; OItem true (Some 8)],
        MkA [2;3;93;8] 4 3) /\
  arun P64 (mu_array_init [90;91;92;93] 4) (ex_hist64 ++ [APush 6; ADelete 1]) = UB /\
  valid_cap P64 4 /\ (forall op, In op (ex_hist64 ++ [APush 6; ADelete 1]) -> aop_typed P64 op).
Proof.
  split; [vm_compute; reflexivity|]. split; [vm_compute; reflexivity|]. split; [vm_compute; split; discriminate|].
  intros op Hin. repeat (destruct Hin as [<-|Hin]; [vm_compute; try done; split; discriminate|]). destruct Hin.
Qed.
