(** * C104: arrays of more than 2^30 items.

    Counts, capacities and indices are [size_t], but insert, delete, sort and
    insert_sorted keep some of them in an [int] and compute with it.  Where [size_t] has
    32 bits an array cannot have that many pointers; where it has 64 bits it can.  What
    each function does there. *)
From Verif Require Import CSem ArrayModel ArraySpec ArrayProofs ArrayRefine ArrayProps ArrayExact.

(** The items [l], then the unused slots [t]; any size the platform can address. *)
Definition arr (p : plat) (a : marray) (l t : list Z) : Prop :=
  valid_cap p (a_cap a) /\ a_store a = l ++ t /\ len (l ++ t) = a_cap a /\ mu_array_count a = len l.

(** calls that are right for every size: all but sort and insert_sorted; insert and delete
    if at most INT_MAX items have to move *)
Definition near (l : list Z) (op : aop) : Prop :=
  match op with
  | AInsert _ i => len l - i <= int_max
  | ADelete i => len l - i <= int_max
  | ASort _ | AInsertSorted _ _ => False
  | _ => True
  end.

(** ** Proofs *)
Section huge.
Context (p : plat).

Lemma arr_bounds a l t : arr p a l t ->
  a_cap a + 2 < size_mod p /\ a_cap a * ptr_bytes p < size_mod p /\
  a_cnt a = Z.of_nat (length l) /\ Z.of_nat (length l) + Z.of_nat (length t) = a_cap a /\
  a_store a = l ++ t /\ Z.of_nat (length (a_store a)) = a_cap a.
Proof.
  intros (Hv & Hs & Hl & Hn). unfold len, mu_array_count in *. rewrite Hs. rewrite app_length in *.
  pose proof (size_mod_big p). destruct Hv as [Hv1 Hv2]. unfold size_max in Hv2.
  assert (4 <= ptr_bytes p) by (destruct p; simpl; lia).
  assert (a_cap a + 2 < size_mod p) by nia. split_and!; try lia; done.
Qed.

Lemma arr_mk a l t l' t' s' n' : arr p a l t -> s' = l' ++ t' ->
  (length l' + length t' = length l + length t)%nat -> n' = len l' -> arr p (MkA s' (a_cap a) n') l' t'.
Proof.
  intros (Hv & Hs & Hl & Hn) -> HL ->. unfold arr, len, mu_array_count in *; simpl. rewrite app_length in *.
  split_and!; try done. lia.
Qed.

Lemma arr_lookup a l t i : arr p a l t -> (i < length l)%nat -> a_store a !! i = l !! i.
Proof. intros (_ & -> & _) Hi. by rewrite lookup_app_l. Qed.

Lemma harr_push a l t x : arr p a l t ->
  (exists y t' a', t = y :: t' /\ mu_array_push p a x = Ok (true, a') /\ arr p a' (l ++ [x]) t') \/
  (t = [] /\ mu_array_push p a x = Ok (false, a)).
Proof.
  intros Hr. pose proof (arr_bounds _ _ _ Hr) as (H1 & H2 & H3 & H4 & Hs & H5).
  unfold mu_array_push, mu_array_is_full. destruct t as [|y t]; simpl in H4.
  - right. split; [done|]. destruct (Z.eqb_spec (a_cnt a) (a_cap a)); [done|lia].
  - left. destruct (Z.eqb_spec (a_cnt a) (a_cap a)) as [?|_]; [lia|]. simpl negb. cbv iota.
    rewrite st_ok by lia. simpl bind. eexists _, _, _.
    split; [done|]. split; [done|].
    eapply arr_mk; [exact Hr| | |].
    + rewrite Hs, H3, Nat2Z.id. apply list_snoc_eq.
    + rewrite app_length; simpl; lia.
    + rewrite to_size_id by lia. unfold len. rewrite app_length; simpl; lia.
Qed.

Lemma harr_snoc a l x t : arr p a (l ++ [x]) t ->
  a_cnt a = Z.of_nat (length l) + 1 /\ ld (a_store a) (Z.of_nat (length l)) = Ok x /\
  arr p (MkA (a_store a) (a_cap a) (Z.of_nat (length l))) l (x :: t).
Proof.
  intros Hr. pose proof (arr_bounds _ _ _ Hr) as (H1 & H2 & H3 & H4 & Hs & H5). rewrite app_length in *; simpl in *.
  split; [lia|]. split.
  - apply ld_ok. rewrite Hs, <- app_assoc. simpl. by rewrite list_lookup_middle.
  - eapply arr_mk; [exact Hr|rewrite Hs, <- app_assoc; done|rewrite app_length; simpl; lia|done].
Qed.

Lemma harr_index a l t x : arr p a l t ->
  (exists i, mu_array_index p a x = Ok (Z.of_nat i) /\ first_index l x i) \/
  (mu_array_index p a x = Ok (MU_ARRAY_NOT_FOUND p) /\ ~ In x l).
Proof.
  intros Hr. pose proof (arr_bounds _ _ _ Hr) as (H1 & H2 & H3 & H4 & Hs & H5). unfold mu_array_index.
  assert (G : forall fuel i, (length l - i <= fuel)%nat -> (i <= length l)%nat ->
    (forall j, (j < i)%nat -> l !! j <> Some x) ->
    (exists i', index_loop p fuel (a_store a) (a_cnt a) x (Z.of_nat i) = Ok (Z.of_nat i') /\ first_index l x i') \/
    (index_loop p fuel (a_store a) (a_cnt a) x (Z.of_nat i) = Ok (MU_ARRAY_NOT_FOUND p) /\ ~ In x l)).
  { induction fuel as [|f IH]; intros i Hf Hi Hno.
    - right. simpl. destruct (Z.ltb_spec (Z.of_nat i) (a_cnt a)); [lia|]. split; [done|].
      intros Hin. apply elem_of_list_In, elem_of_list_lookup in Hin as [j Hj].
      apply (Hno j); [|done]. apply lookup_lt_Some in Hj. lia.
    - simpl. destruct (Z.ltb_spec (Z.of_nat i) (a_cnt a)).
      + destruct (lookup_lt_is_Some_2 l i) as [y Hy]; [lia|].
        rewrite (ld_ok _ _ y) by (rewrite (arr_lookup _ _ _ _ Hr) by lia; done). simpl.
        destruct (Z.eqb_spec y x) as [->|].
        * left. exists i. split; [done|]. split; done.
        * rewrite to_size_id by lia. replace (Z.of_nat i + 1) with (Z.of_nat (S i)) by lia.
          apply IH; [lia|lia|]. intros j Hj. destruct (decide (j = i)) as [->|]; [congruence|].
          apply Hno; lia.
      + right. split; [done|].
        intros Hin. apply elem_of_list_In, elem_of_list_lookup in Hin as [j Hj].
        apply (Hno j); [|done]. apply lookup_lt_Some in Hj. lia. }
  apply (G (Z.to_nat (a_cnt a)) 0%nat); [lia|lia|lia].
Qed.

Lemma harr_rindex a l t x : arr p a l t ->
  (exists i, mu_array_rindex p a x = Ok (Z.of_nat i) /\ last_index l x i) \/
  (mu_array_rindex p a x = Ok (MU_ARRAY_NOT_FOUND p) /\ ~ In x l).
Proof.
  intros Hr. pose proof (arr_bounds _ _ _ Hr) as (H1 & H2 & H3 & H4 & Hs & H5). unfold mu_array_rindex.
  assert (G : forall k, (k <= length l)%nat ->
    (forall j, (k <= j)%nat -> l !! j <> Some x) ->
    (exists i', rindex_loop p k (a_store a) x (to_size p (Z.of_nat k - 1)) = Ok (Z.of_nat i') /\ last_index l x i') \/
    (rindex_loop p k (a_store a) x (to_size p (Z.of_nat k - 1)) = Ok (MU_ARRAY_NOT_FOUND p) /\ ~ In x l)).
  { induction k as [|k IH]; intros Hk Hno.
    - right. change (Z.of_nat 0 - 1) with (-1). rewrite to_size_neg1. simpl. unfold MU_ARRAY_NOT_FOUND.
      rewrite Z.eqb_refl. simpl. split; [done|].
      intros Hin. apply elem_of_list_In, elem_of_list_lookup in Hin as [j Hj].
      apply (Hno j); [lia|done].
    - rewrite to_size_id by lia. replace (Z.of_nat (S k) - 1) with (Z.of_nat k) by lia.
      cbn [rindex_loop]. unfold MU_ARRAY_NOT_FOUND at 1 3. unfold size_max.
      destruct (Z.eqb_spec (Z.of_nat k) (size_mod p - 1)); [lia|]. simpl negb. cbv iota.
      destruct (lookup_lt_is_Some_2 l k) as [y Hy]; [lia|].
      rewrite (ld_ok _ _ y) by (rewrite (arr_lookup _ _ _ _ Hr) by lia; done). simpl.
      destruct (Z.eqb_spec y x) as [->|].
      + left. exists k. split; [done|]. split; [done|]. intros j Hj. apply Hno; lia.
      + apply IH; [lia|]. intros j Hj. destruct (decide (j = k)) as [->|]; [congruence|].
        apply Hno; lia. }
  replace (to_size p (a_cnt a - 1)) with (to_size p (Z.of_nat (length l) - 1)) by (f_equal; lia).
  replace (Z.to_nat (a_cnt a)) with (length l) by lia.
  apply G; [lia|]. intros j Hj. rewrite lookup_ge_None_2 by done. done.
Qed.

(** [int to_move = n; to_move * sizeof(void * )] *)
Lemma move_elems_low n : 0 <= n -> n * ptr_bytes p < size_mod p -> n mod 4294967296 < 2147483648 ->
  move_elems p (to_int (to_size p n)) = n mod 4294967296.
Proof.
  intros Hn Hm Hl. unfold move_elems. pose proof (size_mod_big p).
  assert (0 < ptr_bytes p) by (destruct p; simpl; lia).
  rewrite (to_size_id p n) by nia. unfold to_int, wrap_signed. change (4294967296 / 2) with 2147483648.
  destruct (Z.ltb_spec (n mod 4294967296) 2147483648); [|lia].
  pose proof (Z.mod_pos_bound n 4294967296 ltac:(lia)). pose proof (Z.mod_le n 4294967296 ltac:(lia) ltac:(lia)).
  rewrite (to_size_id p (n mod _)) by nia. rewrite to_size_id by nia.
  apply Z.div_mul. lia.
Qed.

Lemma harr_insert a l1 l2 y t x : arr p a (l1 ++ l2) (y :: t) ->
  len l2 mod 4294967296 < 2147483648 ->
  exists a', mu_array_insert p a x (len l1) = Ok (true, a') /\
    arr p a' (l1 ++ x :: take (Z.to_nat (len l2 mod 4294967296)) l2 ++
                        drop (Z.to_nat (len l2 mod 4294967296) + 1) (l2 ++ [y])) t.
Proof.
  intros Hr Hlow. pose proof (arr_bounds _ _ _ Hr) as (H1 & H2 & H3 & H4 & Hs & H5).
  assert (0 < ptr_bytes p) by (destruct p; simpl; lia).
  unfold len in *. rewrite app_length in *. simpl in *.
  unfold mu_array_insert, mu_array_is_full.
  destruct (Z.eqb_spec (a_cnt a) (a_cap a)) as [?|_]; [lia|].
  destruct (Z.ltb_spec (a_cnt a) (Z.of_nat (length l1))); [lia|]. simpl orb. cbv iota.
  destruct (Z.eqb_spec (Z.of_nat (length l1)) (a_cnt a)) as [E|Hne].
  - assert (l2 = []) as -> by (destruct l2; [done|simpl in *; lia]).
    rewrite st_ok by lia. simpl bind. eexists. split; [done|]. simpl.
    eapply arr_mk; [exact Hr| | |].
    + rewrite Hs, H3, app_nil_r. replace (Z.to_nat (Z.of_nat (length l1 + length (@nil Z)))) with (length l1) by (simpl; lia).
      apply list_snoc_eq.
    + rewrite !app_length; simpl; lia.
    + rewrite to_size_id by lia. unfold len. rewrite app_length; simpl; lia.
  - replace (a_cnt a - Z.of_nat (length l1)) with (Z.of_nat (length l2)) by lia.
    rewrite move_elems_low; [|lia|nia|done].
    pose proof (Z.mod_pos_bound (Z.of_nat (length l2)) 4294967296 ltac:(lia)).
    pose proof (Z.mod_le (Z.of_nat (length l2)) 4294967296 ltac:(lia) ltac:(lia)).
    set (K := Z.of_nat (length l2) mod 4294967296) in *. set (k := Z.to_nat K).
    rewrite (to_size_id p (_ + 1)) by lia.
    rewrite memmove_ok by lia. simpl bind. rewrite Hs.
    replace (Z.to_nat (Z.of_nat (length l1) + 1)) with (Datatypes.S (length l1)) by lia.
    rewrite (Nat2Z.id (length l1)). fold k.
    replace (Z.to_nat (Z.of_nat (length l1) + 1 + K)) with (length l1 + (k + 1))%nat by lia.
    destruct l2 as [|w l2]; [simpl in *; lia|].
    assert (E1 : take (Datatypes.S (length l1)) ((l1 ++ w :: l2) ++ y :: t) = l1 ++ [w]).
    { rewrite <- app_assoc. simpl. pose proof (take_mid l1 w (l2 ++ y :: t)) as TM.
      rewrite app_length in TM. simpl in TM. replace (length l1 + 1)%nat with (Datatypes.S (length l1)) in TM by lia. done. }
    assert (E2 : take k (drop (length l1) ((l1 ++ w :: l2) ++ y :: t)) = take k (w :: l2)).
    { rewrite <- app_assoc, drop_app. rewrite take_app_le; [done|]. lia. }
    assert (E3 : drop (length l1 + (k + 1)) ((l1 ++ w :: l2) ++ y :: t) = drop (k + 1) ((w :: l2) ++ [y]) ++ t).
    { rewrite <- app_assoc, <- drop_drop, drop_app.
      replace ((w :: l2) ++ y :: t) with (((w :: l2) ++ [y]) ++ t) by (by rewrite <- app_assoc).
      rewrite drop_app_le; [done|]. rewrite app_length. simpl in *. lia. }
    rewrite E1, E2, E3.
    assert (EL : length ((l1 ++ [w]) ++ take k (w :: l2) ++ drop (k + 1) ((w :: l2) ++ [y]) ++ t) = length (a_store a)).
    { rewrite Hs, !app_length, take_length, drop_length, app_length. simpl in *. lia. }
    rewrite st_ok by (rewrite EL; lia). simpl bind. rewrite Nat2Z.id.
    eexists. split; [done|].
    eapply arr_mk; [exact Hr| | |].
    + rewrite <- app_assoc. rewrite insert_app_r_alt by lia. rewrite Nat.sub_diag. simpl.
      rewrite <- (app_assoc l1). cbn [app]. by rewrite <- app_assoc.
    + rewrite !app_length. cbn [length]. rewrite !app_length, take_length, drop_length, app_length. simpl in *. lia.
    + rewrite to_size_id by lia. unfold len. rewrite app_length. cbn [length].
      rewrite app_length, take_length, drop_length, app_length. simpl in *. lia.
Qed.

Lemma harr_insert_fail a l t x i : arr p a l t -> t = [] \/ len l < i -> mu_array_insert p a x i = Ok (false, a).
Proof.
  intros Hr Hf. pose proof (arr_bounds _ _ _ Hr) as (H1 & H2 & H3 & H4 & Hs & H5).
  unfold mu_array_insert, mu_array_is_full, len in *.
  destruct (Z.eqb_spec (a_cnt a) (a_cap a)) as [?|Hne]; [done|]. simpl.
  destruct Hf as [->|Hf]; [simpl in *; lia|]. destruct (Z.ltb_spec (a_cnt a) i); [done|lia].
Qed.

Lemma harr_delete a l1 x l2 t : arr p a (l1 ++ x :: l2) t -> l2 <> [] ->
  (len l2 + 1) mod 4294967296 < 2147483648 ->
  len (l1 ++ x :: l2) < a_cap a \/ 4294967296 <= len l2 + 1 ->
  exists a', mu_array_delete p a (len l1) = Ok (true, Some x, a') /\
    a_store a' = l1 ++ take (Z.to_nat ((len l2 + 1) mod 4294967296)) (l2 ++ t) ++
                       drop (Z.to_nat ((len l2 + 1) mod 4294967296)) (x :: l2 ++ t) /\
    mu_array_count a' = mu_array_count a /\ mu_array_capacity a' = mu_array_capacity a.
Proof.
  intros Hr Hne Hlow Hroom. pose proof (arr_bounds _ _ _ Hr) as (H1 & H2 & H3 & H4 & Hs & H5).
  assert (0 < ptr_bytes p) by (destruct p; simpl; lia).
  assert (0 < len l2) by (destruct l2; [done|unfold len; simpl; lia]).
  unfold len in *. rewrite app_length in *. simpl in *.
  unfold mu_array_delete, mu_array_is_empty.
  destruct (Z.eqb_spec (a_cnt a) 0) as [?|_]; [lia|]. destruct (Z.leb_spec (a_cnt a) (Z.of_nat (length l1))); [lia|]. simpl orb. cbv iota.
  rewrite (to_size_id p (_ - 1)) by lia. destruct (Z.eqb_spec (Z.of_nat (length l1)) (a_cnt a - 1)) as [?|_]; [lia|].
  rewrite (ld_ok _ _ x) by (rewrite Hs, <- app_assoc; simpl; by rewrite list_lookup_middle). simpl bind.
  replace (a_cnt a - Z.of_nat (length l1)) with (Z.of_nat (length l2) + 1) by lia.
  rewrite move_elems_low; [|lia|nia|done].
  pose proof (Z.mod_pos_bound (Z.of_nat (length l2) + 1) 4294967296 ltac:(lia)).
  pose proof (Z.mod_le (Z.of_nat (length l2) + 1) 4294967296 ltac:(lia) ltac:(lia)).
  assert (HK : Z.of_nat (length l1) + 1 + (Z.of_nat (length l2) + 1) mod 4294967296 <= a_cap a).
  { destruct Hroom as [?|?]; [lia|].
    pose proof (Z.mod_pos_bound (Z.of_nat (length l2) + 1) 4294967296 ltac:(lia)). lia. }
  set (K := (Z.of_nat (length l2) + 1) mod 4294967296) in *. set (k := Z.to_nat K).
  rewrite (to_size_id p (_ + 1)) by lia.
  rewrite memmove_ok by lia. simpl bind. rewrite Hs.
  eexists. split; [done|]. split; [|done]. cbn [a_store]. rewrite !Nat2Z.id.
  replace (Z.to_nat (Z.of_nat (length l1) + 1)) with (Datatypes.S (length l1)) by lia.
  replace (Z.to_nat (Z.of_nat (length l1) + K)) with (length l1 + k)%nat by lia. fold k.
  rewrite <- app_assoc. rewrite take_app. f_equal. cbn [app]. rewrite drop_mid. f_equal.
  rewrite <- drop_drop, drop_app. done.
Qed.

Lemma harr_delete_tail a l x t : arr p a (l ++ [x]) t ->
  exists a', mu_array_delete p a (len l) = Ok (true, Some x, a') /\ arr p a' l (x :: t).
Proof.
  intros Hr. pose proof (arr_bounds _ _ _ Hr) as (H1 & H2 & H3 & H4 & Hs & H5).
  destruct (harr_snoc _ _ _ _ Hr) as (Hc & Hx & Hr').
  unfold mu_array_delete, mu_array_is_empty, len.
  destruct (Z.eqb_spec (a_cnt a) 0) as [Hq1|Hq1]; [lia|]. destruct (Z.leb_spec (a_cnt a) (Z.of_nat (length l))); [lia|]. simpl.
  rewrite to_size_id by lia. replace (a_cnt a - 1) with (Z.of_nat (length l)) by lia.
  rewrite Z.eqb_refl, Hx. simpl. eexists. split; done.
Qed.

Lemma harr_delete_fail a l t i : arr p a l t -> len l <= i -> mu_array_delete p a i = Ok (false, None, a).
Proof.
  intros Hr Hi. pose proof (arr_bounds _ _ _ Hr). unfold mu_array_delete, mu_array_is_empty, len in *.
  destruct (Z.eqb_spec (a_cnt a) 0); [done|]. destruct (Z.leb_spec (a_cnt a) i); [done|lia].
Qed.
End huge.

(** ** Theorems *)
(** As long as no more than INT_MAX items have to move, every call except sort and
    insert_sorted does for any size what C64 says ([dangerous] and [xstep] are those of C64:
    the calls that are undefined behaviour, the effect of the others). *)
Theorem C104_near : forall p a l t op, arr p a l t -> aop_typed p op -> near l op ->
  ~ dangerous p (a_cap a) l op ->
  exists o a' l' t', arun1 p a op = Ok (o, a') /\ xstep (l, t) op o (l', t') /\ arr p a' l' t'.
Proof.
  intros p a l t op Hr Hty Hn Hs. pose proof (arr_bounds _ _ _ _ Hr) as (H1 & H2 & H3 & H4 & Hst & H5).
  destruct op; simpl in *; try done.
  - destruct (harr_push p a l t x Hr) as [(y & t' & a' & -> & -> & Hx)|(-> & ->)]; simpl;
    eexists _, _, _, _; split_and!; try done; by constructor.
  - unfold mu_array_pop, mu_array_is_empty. destruct (list_cases_snoc l) as [->|(l' & x & ->)].
    + simpl in H3. rewrite H3. simpl. eexists _, _, _, _. split_and!; [done|constructor|done].
    + destruct (harr_snoc _ _ _ _ _ Hr) as (Hc & Hx & Hr').
      destruct (Z.eqb_spec (a_cnt a) 0); [lia|]. simpl negb. cbv iota. rewrite to_size_id by lia.
      replace (a_cnt a - 1) with (Z.of_nat (length l')) by lia. rewrite Hx. simpl.
      eexists _, _, _, _. split_and!; [done|constructor|done].
  - unfold mu_array_peek, mu_array_is_empty. destruct (list_cases_snoc l) as [->|(l' & x & ->)].
    + simpl in H3. rewrite H3. simpl. eexists _, _, _, _. split_and!; [done|constructor|done].
    + destruct (harr_snoc _ _ _ _ _ Hr) as (Hc & Hx & Hr').
      destruct (Z.eqb_spec (a_cnt a) 0); [lia|]. simpl negb. cbv iota. rewrite to_size_id by lia.
      replace (a_cnt a - 1) with (Z.of_nat (length l')) by lia. rewrite Hx. simpl.
      eexists _, _, _, _. split_and!; [done|constructor|done].
  - unfold mu_array_ref. destruct (Z.ltb_spec i (a_cnt a)).
    + destruct (lookup_lt_is_Some_2 l (Z.to_nat i)) as [x Hx]; [lia|].
      rewrite (ld_okZ _ _ x); [|lia|by rewrite (arr_lookup _ _ _ _ _ Hr) by lia]. simpl.
      destruct (split_at _ _ _ Hx) as (l1 & l2 & -> & HL). assert (i = len l1) as -> by (unfold len; lia).
      eexists _, _, _, _. split_and!; [done|constructor|done].
    + simpl. eexists _, _, _, _. split_and!; [done|constructor; unfold len; lia|done].
  - destruct (decide (t = [] \/ len l < i)) as [Hf|Hf].
    { rewrite (harr_insert_fail p a l t) by done. simpl. eexists _, _, _, _. split_and!; [done|by constructor|done]. }
    destruct t as [|y t]; [tauto|]. assert (Hle : i <= len l) by lia. unfold len in Hle.
    assert (exists l1 l2, l = l1 ++ l2 /\ i = len l1) as (l1 & l2 & -> & ->).
    { exists (take (Z.to_nat i) l), (drop (Z.to_nat i) l). split; [by rewrite take_drop|].
      unfold len. rewrite take_length. lia. }
    clear Hle.
    assert (E2 : len l2 mod 4294967296 = len l2).
    { unfold len, int_max in *. rewrite app_length in *. apply Z.mod_small. lia. }
    destruct (harr_insert p a l1 l2 y t x Hr) as (a' & HE & Ha').
    { rewrite E2. unfold len, int_max in *. rewrite app_length in *. lia. }
    rewrite HE. simpl. eexists _, a', (l1 ++ x :: l2), t. split_and!; [done|constructor|].
    rewrite E2 in Ha'. unfold len in Ha'. rewrite Nat2Z.id, take_ge in Ha' by lia.
    rewrite (drop_ge (l2 ++ [y])) in Ha' by (rewrite app_length; simpl; lia). by rewrite app_nil_r in Ha'.
  - destruct (Z.le_gt_cases (len l) i).
    { rewrite (harr_delete_fail p a l t) by done. simpl. eexists _, _, _, _. split_and!; [done|by constructor|done]. }
    destruct (lookup_lt_is_Some_2 l (Z.to_nat i)) as [x Hx]; [unfold len in *; lia|].
    destruct (split_at _ _ _ Hx) as (l1 & l2 & -> & HL). assert (i = len l1) as -> by (unfold len; lia).
    destruct l2 as [|y l2].
    { destruct (harr_delete_tail p a l1 x t Hr) as (a' & -> & Ha'). simpl.
      eexists _, _, _, _. split_and!; [done|constructor|done]. }
    assert (E2 : (len (y :: l2) + 1) mod 4294967296 = len (y :: l2) + 1).
    { unfold len, int_max in *. rewrite app_length in *. simpl in *. apply Z.mod_small. lia. }
    destruct t as [|j t].
    { exfalso. apply Hs. unfold len in *. rewrite app_length in *. simpl in *. lia. }
    destruct (harr_delete p a l1 x (y :: l2) (j :: t) Hr) as (a' & HE & HS & HC & HK); [done| | |].
    { rewrite E2. unfold len, int_max in *. rewrite app_length in *. simpl in *. lia. }
    { left. unfold len in *. rewrite app_length in *. simpl in *. lia. }
    rewrite HE. simpl. eexists _, a', (l1 ++ y :: l2 ++ [j]), (j :: t). split_and!; [done|constructor|].
    rewrite E2 in HS. unfold len in HS. replace (Z.to_nat (Z.of_nat (length (y :: l2)) + 1)) with (length ((y :: l2) ++ [j])) in HS by (rewrite app_length; simpl; lia).
    rewrite (take_mid (y :: l2) j t) in HS.
    replace (x :: (y :: l2) ++ j :: t) with ((x :: y :: l2) ++ j :: t) in HS by done.
    rewrite drop_app_alt in HS by (rewrite app_length; simpl; lia).
    unfold mu_array_count, mu_array_capacity in *. destruct a' as [s' c' n']; simpl in HS, HC, HK. subst s' c' n'.
    eapply arr_mk; [exact Hr| | |].
    + simpl. rewrite <- !app_assoc. simpl. by rewrite <- !app_assoc.
    + rewrite !app_length; simpl. rewrite !app_length; simpl. lia.
    + rewrite H3. unfold len. rewrite !app_length; simpl. rewrite !app_length; simpl. lia.
  - destruct (harr_index p a l t x Hr) as [(i & -> & Hi)|(-> & Hi)]; simpl;
    eexists _, _, _, _; (split; [done|]); (split; [|done]); unfold idx_obs, MU_ARRAY_NOT_FOUND, size_max.
    + destruct Hi as [Hi Hi']. pose proof (lookup_lt_Some _ _ _ Hi).
      destruct (Z.eqb_spec (Z.of_nat i) (size_mod p - 1)); [lia|]. by constructor.
    + rewrite Z.eqb_refl. by constructor.
  - destruct (harr_rindex p a l t x Hr) as [(i & -> & Hi)|(-> & Hi)]; simpl;
    eexists _, _, _, _; (split; [done|]); (split; [|done]); unfold idx_obs, MU_ARRAY_NOT_FOUND, size_max.
    + destruct Hi as [Hi Hi']. pose proof (lookup_lt_Some _ _ _ Hi).
      destruct (Z.eqb_spec (Z.of_nat i) (size_mod p - 1)); [lia|]. by constructor.
    + rewrite Z.eqb_refl. by constructor.
  - eexists _, _, [], (l ++ t). split_and!; [done|constructor|].
    eapply arr_mk; [exact Hr|by rewrite Hst|rewrite app_length; simpl; lia|done].
  - eexists _, a, l, t. split_and!; try done. unfold mu_array_count. rewrite H3. constructor.
  - eexists _, a, l, t. split_and!; try done. unfold mu_array_capacity. destruct Hr as (_ & _ & <- & _). constructor.
  - eexists _, a, l, t. split_and!; try done. unfold mu_array_is_empty.
    replace (a_cnt a =? 0) with (bool_decide (l = [])); [by constructor|].
    rewrite H3. destruct l; simpl; done.
  - eexists _, a, l, t. split_and!; try done. unfold mu_array_is_full.
    replace (a_cnt a =? a_cap a) with (bool_decide (t = [])); [by constructor|].
    rewrite H3, <- H4. destruct t; simpl length.
    + rewrite bool_decide_true by done. symmetry. apply Z.eqb_eq. lia.
    + rewrite bool_decide_false by done. symmetry. apply Z.eqb_neq. lia.
Qed.
Print Assumptions C104_near.

(** Inserting before any number of items: with [k] the low 32 bits of that number, if [k]
    is at most INT_MAX the first [k] of them move up and the next one is overwritten. *)
Theorem C104_insert : forall p a l1 l2 y t x, arr p a (l1 ++ l2) (y :: t) ->
  len l2 mod 2 ^ 32 <= int_max ->
  exists a', mu_array_insert p a x (len l1) = Ok (true, a') /\
    arr p a' (l1 ++ x :: take (Z.to_nat (len l2 mod 2 ^ 32)) l2 ++ drop (Z.to_nat (len l2 mod 2 ^ 32) + 1) (l2 ++ [y])) t.
Proof. intros p a l1 l2 y t x Hr Hk. apply harr_insert; [done|]. unfold int_max in Hk. change (2 ^ 32) with 4294967296 in Hk. lia. Qed.
Print Assumptions C104_insert.

(** the array object is at most PTRDIFF_MAX bytes *)
Definition below_ptrdiff_max (a : marray) : Prop := mu_array_capacity a * 8 < 2 ^ 63.

Lemma move_elems_high n : 0 <= n < 2 ^ 60 -> 2147483648 <= n mod 4294967296 ->
  2 ^ 60 <= move_elems P64 (to_int (to_size P64 n)).
Proof.
  intros Hn Hk. unfold move_elems. change (size_mod P64) with (2 ^ 64) in *.
  rewrite (to_size_id P64 n) by (change (size_mod P64) with (2 ^ 64); lia).
  unfold to_int, wrap_signed. change (4294967296 / 2) with 2147483648.
  destruct (Z.ltb_spec (n mod 4294967296) 2147483648); [lia|].
  pose proof (Z.mod_pos_bound n 4294967296 ltac:(lia)). set (k := n mod 4294967296) in *.
  assert (E : to_size P64 (k - 4294967296) = 2 ^ 64 + (k - 4294967296)).
  { unfold to_size. change (size_mod P64) with (2 ^ 64). symmetry. apply Z.mod_unique with (q := -1); lia. }
  rewrite E. change (ptr_bytes P64) with 8.
  assert (E2 : to_size P64 ((2 ^ 64 + (k - 4294967296)) * 8) = 2 ^ 64 + 8 * (k - 4294967296)).
  { unfold to_size. change (size_mod P64) with (2 ^ 64). symmetry. apply Z.mod_unique with (q := 7); lia. }
  rewrite E2. apply Z.div_le_lower_bound; lia.
Qed.

(** If [k] is greater than INT_MAX the call is undefined behaviour (a memmove of 2^61 - 2^32
    + [k] slots). *)
Theorem C104_insert_ub : forall a l1 l2 y t x, arr P64 a (l1 ++ l2) (y :: t) -> below_ptrdiff_max a ->
  int_max < len l2 mod 2 ^ 32 ->
  mu_array_insert P64 a x (len l1) = UB.
Proof.
  intros a l1 l2 y t x Hr Hb Hk. pose proof (arr_bounds _ _ _ _ Hr) as (H1 & H2 & H3 & H4 & Hs & H5).
  unfold below_ptrdiff_max, mu_array_capacity, int_max in *. change (2 ^ 32) with 4294967296 in Hk.
  assert (0 < len l2) by (destruct l2; [by vm_compute in Hk|unfold len; simpl; lia]).
  unfold len in *. rewrite app_length in *. simpl length in *.
  unfold mu_array_insert, mu_array_is_full.
  destruct (Z.eqb_spec (a_cnt a) (a_cap a)) as [?|_]; [lia|].
  destruct (Z.ltb_spec (a_cnt a) (Z.of_nat (length l1))); [lia|]. simpl orb. cbv iota.
  destruct (Z.eqb_spec (Z.of_nat (length l1)) (a_cnt a)) as [?|_]; [lia|].
  replace (a_cnt a - Z.of_nat (length l1)) with (Z.of_nat (length l2)) by lia.
  pose proof (move_elems_high (Z.of_nat (length l2)) ltac:(lia) ltac:(lia)).
  rewrite memmove_ub; [done|]. right; left. lia.
Qed.
Print Assumptions C104_insert_ub.

(** Deleting an item followed by [l2], [k] the low 32 bits of the number of items from it
    on: [k] slots move down, the count stays. *)
Theorem C104_delete : forall p a l1 x l2 t, arr p a (l1 ++ x :: l2) t -> l2 <> [] ->
  (len l2 + 1) mod 2 ^ 32 <= int_max ->
  t <> [] \/ 2 ^ 32 <= len l2 + 1 ->
  exists a', mu_array_delete p a (len l1) = Ok (true, Some x, a') /\
    a_store a' = l1 ++ take (Z.to_nat ((len l2 + 1) mod 2 ^ 32)) (l2 ++ t) ++
                       drop (Z.to_nat ((len l2 + 1) mod 2 ^ 32)) (x :: l2 ++ t) /\
    mu_array_count a' = mu_array_count a /\ mu_array_capacity a' = mu_array_capacity a.
Proof.
  intros p a l1 x l2 t Hr Hne Hk Hroom. change (2 ^ 32) with 4294967296 in *. unfold int_max in Hk.
  apply harr_delete; [done|done|lia|]. destruct Hroom as [Ht|?]; [left|by right].
  pose proof (arr_bounds _ _ _ _ Hr) as (H1 & H2 & H3 & H4 & Hs & H5). unfold len.
  assert (0 < length t)%nat by (destruct t; [done|simpl; lia]). lia.
Qed.
Print Assumptions C104_delete.

Theorem C104_delete_ub : forall a l1 x l2 t, arr P64 a (l1 ++ x :: l2) t -> below_ptrdiff_max a ->
  int_max < (len l2 + 1) mod 2 ^ 32 ->
  mu_array_delete P64 a (len l1) = UB.
Proof.
  intros a l1 x l2 t Hr Hb Hk. pose proof (arr_bounds _ _ _ _ Hr) as (H1 & H2 & H3 & H4 & Hs & H5).
  unfold below_ptrdiff_max, mu_array_capacity, int_max in *. change (2 ^ 32) with 4294967296 in Hk.
  assert (0 < len l2) by (destruct l2; [by vm_compute in Hk|unfold len; simpl; lia]).
  unfold len in *. rewrite app_length in *. simpl length in *.
  unfold mu_array_delete, mu_array_is_empty.
  destruct (Z.eqb_spec (a_cnt a) 0) as [?|_]; [lia|]. destruct (Z.leb_spec (a_cnt a) (Z.of_nat (length l1))); [lia|]. simpl orb. cbv iota.
  rewrite (to_size_id P64 (_ - 1)) by lia. destruct (Z.eqb_spec (Z.of_nat (length l1)) (a_cnt a - 1)) as [?|_]; [lia|].
  rewrite (ld_ok _ _ x) by (rewrite Hs, <- app_assoc; simpl; by rewrite list_lookup_middle). simpl bind.
  replace (a_cnt a - Z.of_nat (length l1)) with (Z.of_nat (length l2) + 1) by lia.
  pose proof (move_elems_high (Z.of_nat (length l2) + 1) ltac:(lia) ltac:(lia)).
  rewrite memmove_ub; [done|]. right; right. lia.
Qed.
Print Assumptions C104_delete_ub.

(** In a full array, if at most INT_MAX items would have to move: undefined behaviour, as in C02. *)
Theorem C104_delete_full : forall p a l1 x l2, arr p a (l1 ++ x :: l2) [] -> l2 <> [] ->
  len l2 + 1 <= int_max ->
  mu_array_delete p a (len l1) = UB.
Proof.
  intros p a l1 x l2 Hr Hne Hk. pose proof (arr_bounds _ _ _ _ Hr) as (H1 & H2 & H3 & H4 & Hs & H5).
  assert (0 < ptr_bytes p) by (destruct p; simpl; lia).
  assert (0 < len l2) by (destruct l2; [done|unfold len; simpl; lia]).
  unfold len, int_max in *. rewrite app_length in *. simpl length in *.
  unfold mu_array_delete, mu_array_is_empty.
  destruct (Z.eqb_spec (a_cnt a) 0) as [?|_]; [lia|]. destruct (Z.leb_spec (a_cnt a) (Z.of_nat (length l1))); [lia|]. simpl orb. cbv iota.
  rewrite (to_size_id p (_ - 1)) by lia. destruct (Z.eqb_spec (Z.of_nat (length l1)) (a_cnt a - 1)) as [?|_]; [lia|].
  rewrite (ld_ok _ _ x) by (rewrite Hs, <- app_assoc; simpl; by rewrite list_lookup_middle). simpl bind.
  replace (a_cnt a - Z.of_nat (length l1)) with (Z.of_nat (length l2) + 1) by lia.
  assert (E : (Z.of_nat (length l2) + 1) mod 4294967296 = Z.of_nat (length l2) + 1) by (apply Z.mod_small; lia).
  rewrite move_elems_low; [|lia|nia|rewrite E; lia]. rewrite E, (to_size_id p (_ + 1)) by lia.
  rewrite memmove_ub; [done|]. right; left. lia.
Qed.
Print Assumptions C104_delete_full.

(** *** insert_sorted *)
Lemma find_loop_overflow cmp s x : forall fuel low high,
  0 <= low <= high -> 1073741824 <= high <= int_max -> high < Z.of_nat (length s) ->
  high - low < Z.of_nat fuel ->
  (forall i y, low <= Z.of_nat i <= high -> s !! i = Some y -> cmp y x <= 0) ->
  find_loop cmp fuel s x low high = UB.
Proof.
  induction fuel as [|f IH]; intros low high Hl Hh Hs Hf Hc; [lia|].
  cbn [find_loop]. destruct (Z.leb_spec low high); [|lia]. unfold int_max in Hh.
  unfold iadd at 1. destruct (Z.le_gt_cases (low + high) int_max) as [Ho|Ho].
  2:{ rewrite ichk_ub by (right; lia). done. }
  unfold int_max in Ho. rewrite ichk_ok by (unfold int_min, int_max; lia). cbn [bind].
  assert (Em : Z.quot (low + high) 2 = (low + high) / 2) by (apply Z.quot_div_nonneg; lia). rewrite Em.
  pose proof (Z.div_mod (low + high) 2 ltac:(lia)). pose proof (Z.mod_pos_bound (low + high) 2 ltac:(lia)).
  set (mid := (low + high) / 2) in *. assert (low <= mid < high) by lia.
  destruct (ld_ex s mid) as (y & Hy & ->); [lia|]. cbn [bind].
  assert (cmp y x <= 0) by (apply (Hc (Z.to_nat mid)); [lia|done]).
  destruct (Z.ltb_spec 0 (cmp y x)); [lia|]. unfold iadd. rewrite ichk_ok by (unfold int_min, int_max; lia). cbn [bind].
  apply IH; [lia|unfold int_max; lia|lia|lia|]. intros i z Hi. apply Hc. lia.
Qed.

(** An item that belongs at the end, between 2^30 + 1 and 2^31 items: [low + high] overflows
    (even if the array is full). *)
Theorem C104_insert_sorted_overflow : forall p a l t cmp x, arr p a l t ->
  2 ^ 30 < len l <= 2 ^ 31 -> (forall y, In y l -> cmp y x <= 0) ->
  mu_array_insert_sorted p cmp a x = UB.
Proof.
  intros p a l t cmp x Hr Hl Hc. pose proof (arr_bounds _ _ _ _ Hr) as (H1 & H2 & H3 & H4 & Hs & H5).
  unfold len in Hl. unfold mu_array_insert_sorted, mu_array_count.
  destruct (Z.eqb_spec (a_cnt a) 0) as [?|_]; [lia|]. unfold find_insertion_index.
  rewrite to_size_id by lia. rewrite to_int_id by (unfold int_min, int_max; lia).
  rewrite find_loop_overflow; [done|lia|unfold int_max; lia|lia|lia|].
  intros i y Hi Hy. apply Hc. rewrite (arr_lookup _ _ _ _ _ Hr) in Hy by lia. by eapply elem_of_list_In, elem_of_list_lookup_2.
Qed.
Print Assumptions C104_insert_sorted_overflow.

(** Between 2^31 + 1 and 2^32 items: nothing is compared, the item goes to the front. *)
Theorem C104_insert_sorted_front : forall p a l t cmp x, arr p a l t ->
  2 ^ 31 < len l <= 2 ^ 32 ->
  mu_array_insert_sorted p cmp a x = mu_array_insert p a x 0.
Proof.
  intros p a l t cmp x Hr Hl. pose proof (arr_bounds _ _ _ _ Hr) as (H1 & H2 & H3 & H4 & Hs & H5).
  unfold len in Hl. unfold mu_array_insert_sorted, mu_array_count.
  destruct (Z.eqb_spec (a_cnt a) 0) as [?|_]; [lia|]. unfold find_insertion_index.
  rewrite to_size_id by lia.
  assert (E : to_int (a_cnt a - 1) = a_cnt a - 1 - 4294967296).
  { unfold to_int, wrap_signed. change (4294967296 / 2) with 2147483648. rewrite Z.mod_small by lia. zb; lia. }
  rewrite E. destruct (Z.to_nat (a_cnt a)); cbn [find_loop]; (destruct (Z.leb_spec 0 (a_cnt a - 1 - 4294967296)); [lia|]);
  cbn [bind]; rewrite (to_size_id p 0), to_int_id, (to_size_id p 0); try done; try (unfold int_min, int_max; lia);
  pose proof (size_mod_pos p); lia.
Qed.
Print Assumptions C104_insert_sorted_front.

(** *** sort *)
(** Between 2^30 + 1 and 2^31 items of which the last is the greatest - such as an array
    already in order: [root * 2] (or [child + 1]) overflows. *)
Theorem C104_sort_overflow : forall p a l z t cmp, arr p a (l ++ [z]) t ->
  2 ^ 30 < len (l ++ [z]) <= 2 ^ 31 -> (forall y, In y l -> cmp y z < 0) ->
  mu_array_sort p cmp a = UB.
Proof.
  intros p a l z t cmp Hr Hl Hc. pose proof (arr_bounds _ _ _ _ Hr) as (H1 & H2 & H3 & H4 & Hs & H5).
  unfold len in Hl. rewrite app_length in *. simpl length in *.
  unfold mu_array_sort. destruct (Z.ltb_spec 0 (a_cnt a)); [|lia].
  assert (E : heapify p cmp (a_store a) (a_cnt a) = UB); [|by rewrite E].
  unfold heapify. rewrite !to_size_id by lia.
  set (n := a_cnt a) in *. assert (Hn : Z.of_nat (length l) = n - 1) by lia.
  pose proof (Z.div_mod (n - 2) 2 ltac:(lia)). pose proof (Z.mod_pos_bound (n - 2) 2 ltac:(lia)).
  set (s := (n - 2) / 2) in *. rewrite !to_int_id by (unfold int_min, int_max; lia).
  destruct (Z.to_nat (s + 1)) as [|f] eqn:Ef; [lia|]. cbn [heapify_loop].
  destruct (Z.leb_spec 0 s); [|lia].
  assert (EE : sift_down cmp (a_store a) s (n - 1) = UB); [|by rewrite EE].
  unfold sift_down. destruct (Z.to_nat (n - 1 - s)) as [|g] eqn:Eg; [lia|]. cbn [sift_loop].
  unfold imul at 1. rewrite ichk_ok by (unfold int_min, int_max; lia). cbn [bind].
  unfold iadd at 1. rewrite ichk_ok by (unfold int_min, int_max; lia). cbn [bind].
  destruct (Z.leb_spec (s * 2 + 1) (n - 1)); [|lia].
  unfold iadd at 1. destruct (Z.le_gt_cases (s * 2 + 1 + 1) int_max) as [Ho|Ho].
  2:{ rewrite ichk_ub by (right; lia). done. }
  rewrite ichk_ok by (unfold int_min, int_max in *; lia). cbn [bind].
  assert (Hlk : forall i, 0 <= i < n - 1 -> exists y, ld (a_store a) i = Ok y /\ In y l).
  { intros i Hi. destruct (lookup_lt_is_Some_2 l (Z.to_nat i)) as [y Hy]; [lia|]. exists y.
    split; [|by eapply elem_of_list_In, elem_of_list_lookup_2]. apply ld_okZ; [lia|].
    rewrite (arr_lookup _ _ _ _ _ Hr) by (rewrite app_length; simpl; lia). by rewrite lookup_app_l by lia. }
  assert (Hz : ld (a_store a) (n - 1) = Ok z).
  { apply ld_okZ; [lia|]. rewrite (arr_lookup _ _ _ _ _ Hr) by (rewrite app_length; simpl; lia).
    replace (Z.to_nat (n - 1)) with (length l) by lia. by rewrite list_lookup_middle. }
  (* the child chosen is the last item *)
  match goal with |- context [bind (if ?c then ?m else ?m') ?k] =>
    assert (HB : (if c then m else m') = Ok (n - 1)) end.
  { destruct (Z.leb_spec (s * 2 + 1 + 1) (n - 1)).
    - destruct (Hlk (s * 2 + 1)) as (y & -> & Hy); [lia|]. cbn [bind].
      replace (s * 2 + 1 + 1) with (n - 1) by lia. rewrite Hz. cbn [bind].
      specialize (Hc y Hy). destruct (Z.ltb_spec (cmp y z) 0); [|lia].
      unfold iadd. rewrite ichk_ok by (unfold int_min, int_max in *; lia). f_equal. lia.
    - f_equal. lia. }
  rewrite HB. cbn [bind]. destruct (Hlk s) as (y & Hld & Hy); [lia|]. rewrite Hld. cbn [bind]. rewrite Hz. cbn [bind].
  specialize (Hc y Hy). destruct (Z.ltb_spec (cmp y z) 0); [|lia].
  unfold swap. rewrite Hld, Hz. cbn [bind]. rewrite st_ok by lia. cbn [bind]. rewrite st_ok by (rewrite insert_length; lia).
  cbn [bind]. destruct g; cbn [sift_loop]; unfold imul; rewrite ichk_ub by (right; unfold int_max; lia); done.
Qed.
Print Assumptions C104_sort_overflow.

Lemma sift_no_nofuel cmp : forall fuel s root e, 0 <= root -> e - root <= Z.of_nat fuel ->
  sift_loop cmp fuel s root e <> NoFuel.
Proof.
  assert (Hich : forall x, ichk x = UB \/ ichk x = Ok x).
  { intros x. unfold ichk, chk. destruct (in_range _ _ x); auto. }
  assert (Hld : forall (s : list Z) i, ld s i = UB \/ exists x, ld s i = Ok x).
  { intros s i. unfold ld. destruct (i <? 0); [auto|]. destruct (s !! _); eauto. }
  assert (Hsw : forall s i j, swap s i j = UB \/ exists x, swap s i j = Ok x).
  { intros s i j. unfold swap. destruct (Hld s i) as [->|[x ->]]; simpl; [auto|].
    destruct (Hld s j) as [->|[y ->]]; simpl; [auto|]. unfold st.
    destruct ((0 <=? i) && _); simpl; [|auto]. destruct ((0 <=? j) && _); simpl; eauto. }
  induction fuel as [|f IH]; intros s root e Hr Hf.
  - cbn [sift_loop]. unfold imul, iadd. destruct (Hich (root * 2)) as [->| ->]; simpl; [done|].
    destruct (Hich (root * 2 + 1)) as [->| ->]; simpl; [done|]. destruct (Z.leb_spec (root * 2 + 1) e); [lia|done].
  - cbn [sift_loop]. unfold imul, iadd. destruct (Hich (root * 2)) as [->| ->]; cbn [bind]; [done|].
    destruct (Hich (root * 2 + 1)) as [->| ->]; cbn [bind]; [done|]. destruct (Z.leb_spec (root * 2 + 1) e); [|done].
    destruct (Hich (root * 2 + 1 + 1)) as [->|E1]; [done|]. rewrite E1. cbn [bind].
    match goal with |- bind ?m ?k <> NoFuel => assert (HB : m = UB \/ m = Ok (root * 2 + 1) \/ m = Ok (root * 2 + 1 + 1)) end.
    { destruct (_ <=? e); [|auto]. destruct (Hld s (root * 2 + 1)) as [->|[x ->]]; cbn [bind]; [auto|].
      destruct (Hld s (root * 2 + 1 + 1)) as [->|[y ->]]; cbn [bind]; [auto|]. destruct (_ <? 0); auto. }
    assert (G : forall c, root < c ->
      (let* x := ld s root in let* y := ld s c in
       if cmp x y <? 0 then let* items := swap s root c in sift_loop cmp f items c e else Ok s) <> NoFuel).
    { intros c Hc. destruct (Hld s root) as [->|[x ->]]; cbn [bind]; [done|].
      destruct (Hld s c) as [->|[y ->]]; cbn [bind]; [done|]. destruct (_ <? 0); [|done].
      destruct (Hsw s root c) as [->|[s' ->]]; cbn [bind]; [done|]. apply IH; lia. }
    destruct HB as [->|[->| ->]]; cbn [bind]; [done|apply G; lia|apply G; lia].
Qed.

Lemma heapify_no_nofuel cmp : forall fuel s start e, start + 1 <= Z.of_nat fuel -> start <= int_max ->
  heapify_loop cmp fuel s start e <> NoFuel.
Proof.
  induction fuel as [|f IH]; intros s start e Hf Hm; cbn [heapify_loop]; (destruct (Z.leb_spec 0 start); [|done]); [lia|].
  pose proof (sift_no_nofuel cmp (Z.to_nat (e - start)) s start e ltac:(lia) ltac:(lia)) as H1. fold (sift_down cmp s start e) in H1.
  destruct (sift_down cmp s start e) as [s1| |]; cbn [bind]; [|done|done].
  unfold isub. rewrite ichk_ok by (unfold int_min, int_max in *; lia). cbn [bind]. apply IH; lia.
Qed.

Lemma sort_loop_ub p cmp : forall fuel s e, 2147483648 <= e < size_mod p -> e < 2147483648 + Z.of_nat fuel ->
  sort_loop p cmp fuel s e = UB.
Proof.
  induction fuel as [|f IH]; intros s e He Hf; [lia|]. cbn [sort_loop]. destruct (Z.ltb_spec 0 e); [|lia].
  destruct (Z.eq_dec e 2147483648) as [->|Hne].
  { unfold swap. rewrite ld_ub; [done|]. left. vm_compute. reflexivity. }
  destruct (swap s (to_int e) 0) as [s1| |] eqn:E; cbn [bind]; [|done|].
  2:{ exfalso. revert E. unfold swap, ld, st. destruct (to_int e <? 0); simpl; [done|]. destruct (s !! _); simpl; [|done].
      destruct (s !! _); simpl; [|done]. destruct ((0 <=? to_int e) && _); simpl; [|done]. destruct (_ <? _); done. }
  rewrite to_size_id by lia.
  pose proof (sift_no_nofuel cmp (Z.to_nat (to_int (e - 1) - 0)) s1 0 (to_int (e - 1)) ltac:(lia) ltac:(lia)) as H1.
  fold (sift_down cmp s1 0 (to_int (e - 1))) in H1.
  destruct (sift_down cmp s1 0 (to_int (e - 1))) as [s2| |]; cbn [bind]; [|done|done]. apply IH; lia.
Qed.

(** More than 2^31 items: sorting is undefined behaviour whatever the items and the
    comparison. *)
Theorem C104_sort_ub : forall p a l t cmp, arr p a l t -> 2 ^ 31 < len l ->
  mu_array_sort p cmp a = UB.
Proof.
  intros p a l t cmp Hr Hl. pose proof (arr_bounds _ _ _ _ Hr) as (H1 & H2 & H3 & H4 & Hs & H5).
  unfold len in Hl. unfold mu_array_sort. destruct (Z.ltb_spec 0 (a_cnt a)); [|lia].
  assert (Hh : heapify p cmp (a_store a) (a_cnt a) <> NoFuel).
  { unfold heapify. pose proof (wrap_signed_range 4294967296 (to_size p (a_cnt a - 2) / 2) ltac:(lia) eq_refl) as Hw.
    change (4294967296 / 2) with 2147483648 in Hw. fold (to_int (to_size p (a_cnt a - 2) / 2)) in Hw.
    apply heapify_no_nofuel; [lia|unfold int_max; lia]. }
  destruct (heapify _ _ _ _) as [s1| |]; cbn [bind]; [|done|done].
  rewrite to_size_id by lia. rewrite sort_loop_ub; [done|lia|lia].
Qed.
Print Assumptions C104_sort_ub.

(** The limits are exact: up to 2^30 items sort and insert_sorted are right (C03, C05), and
    a platform whose size_t has 32 bits never gets beyond. *)
Theorem C104_limit_32 : forall a l t, arr P32 a l t -> len (l ++ t) < 2 ^ 30.
Proof.
  intros a l t ((H1 & H2) & Hs & Hl & Hn). rewrite Hl.
  change (ptr_bytes P32) with 4 in H2. change (size_max P32) with 4294967295 in H2. lia.
Qed.
Print Assumptions C104_limit_32.

(** ** Non-vacuity: such arrays exist for every number of items and of unused slots *)
Lemma ex_arr (n m : nat) : (Z.of_nat n + Z.of_nat m) * 8 < 2 ^ 63 ->
  let a := MkA (replicate n 0 ++ replicate m 0) (Z.of_nat n + Z.of_nat m) (Z.of_nat n) in
  arr P64 a (replicate n 0) (replicate m 0) /\ below_ptrdiff_max a.
Proof.
  intros H a. split; [|done]. subst a. unfold arr, valid_cap, mu_array_count, len. cbn [a_cap a_store a_cnt].
  rewrite app_length, !replicate_length. change (ptr_bytes P64) with 8. change (size_max P64) with (2 ^ 64 - 1).
  split_and!; try lia; done.
Qed.

Example C104_example : forall n, Z.of_nat n = 2 ^ 30 + 1 ->
  exists a t, arr P64 a (replicate (n - 1) 0 ++ [1]) t /\ 2 ^ 30 < len (replicate (n - 1) 0 ++ [1]) <= 2 ^ 31 /\
    (forall y, In y (replicate (n - 1) 0) -> (fun a b => a - b) y 1 < 0).
Proof.
  intros n Hn. exists (MkA ((replicate (n - 1) 0 ++ [1]) ++ []) (Z.of_nat n) (Z.of_nat n)), [].
  assert (HL : Z.of_nat (length (replicate (n - 1) 0 ++ [1])) = Z.of_nat n).
  { rewrite app_length, replicate_length. simpl length. lia. }
  unfold arr, valid_cap, mu_array_count, len. cbn [a_cap a_store a_cnt]. rewrite app_length. simpl (length []).
  change (ptr_bytes P64) with 8. change (size_max P64) with (2 ^ 64 - 1).
  split; [split_and!; try done; lia|]. split; [lia|]. intros y Hy. apply repeat_spec in Hy || (apply elem_of_list_In, elem_of_replicate in Hy as [-> _]; lia).
Qed.
