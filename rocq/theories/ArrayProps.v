(** * Properties C01-C07 (mu_array) *)
From Verif Require Import CSem ArrayModel ArraySpec ArrayProofs ArrayRefine.

(** The list a caller sees: the first [count] slots of the storage. *)
Definition contents (a : marray) : list Z := take (Z.to_nat (mu_array_count a)) (a_store a).

Lemma areps_contents p a l : areps p a l -> contents a = l.
Proof.
  intros Hr. unfold contents, mu_array_count. pose proof (areps_bounds _ _ _ Hr) as Hb.
  destruct Hr as (_ & _ & _ & Hn & _ & Ht). replace (Z.to_nat (a_cnt a)) with (length l) by lia. done.
Qed.

(** ** C01 *)
(** Every history of calls, over every storage area, in which no interior item is
    deleted (and, with 32-bit size_t, no one-item array is sorted) runs without
    undefined behaviour and the results and final contents are those of a list
    bounded by the capacity. *)
Theorem C01_array_history_partial : forall p storage cap ops,
  valid_cap p cap -> cap <= 1073741824 -> Z.of_nat (length storage) = cap ->
  (forall op, In op ops -> aop_typed p op) ->
  (forall ops1 op ops2 os l, ops = ops1 ++ op :: ops2 -> asteps cap [] ops1 os l -> asafe p l op) ->
  exists os a', arun p (mu_array_init storage cap) ops = Ok (os, a') /\
    asteps cap [] ops os (contents a') /\ Z.of_nat (length (a_store a')) = cap /\ mu_array_capacity a' = cap.
Proof.
  intros p storage cap ops Hv Hc Hl Hty Hs.
  destruct (arun_ok p ops (mu_array_init storage cap) []) as (os & a' & l' & HE & Hr & Hcap & Hst).
  - by apply init_reps.
  - done.
  - intros. eapply Hs; eauto.
  - exists os, a'. split; [done|]. rewrite (areps_contents _ _ _ Hr). split; [exact Hst|].
    split; [|exact Hcap]. destruct Hr as (_ & _ & Hlen & _). simpl in Hcap. lia.
Qed.
Print Assumptions C01_array_history_partial.

Definition ex_hist : list aop :=
  [APush 5; APush 3; AInsert 9 1; AInsertSorted Z.sub 4; ASort Z.sub; APush 7; AIndex 9; ARindex 1;
   ADelete 3; APop; ACount; ARef 1].
Example C01_example : arun P32 (mu_array_init [0;0;0;0] 4) ex_hist =
  Ok ([OBool true; OBool true; OBool true; OBool true; OUnit; OBool false; OIdx (Some 3); OIdx None;
       OItem true (Some 9); OItem true (Some 5); ONum 2; OItem true (Some 4)], MkA [3;4;5;9] 4 2).
Proof. vm_compute. reflexivity. Qed.
(* the hypotheses of the theorem hold for this history *)
Example C01_example_hyps : valid_cap P32 4 /\ (forall op, In op ex_hist -> aop_typed P32 op).
Proof.
  split; [vm_compute; split; discriminate|].
  intros op Hin. repeat (destruct Hin as [<-|Hin]; [vm_compute; try done; split; discriminate|]). destruct Hin.
Qed.

(** The unrestricted statement is false: after an interior delete, the results
    agree with no bounded list. *)
Theorem C01_array_history_refuted : exists p storage cap ops os a',
  valid_cap p cap /\ Z.of_nat (length storage) = cap /\ (forall op, In op ops -> aop_typed p op) /\
  arun p (mu_array_init storage cap) ops = Ok (os, a') /\ ~ exists l, asteps cap [] ops os l.
Proof.
  exists P64, [0;0;0;0], 4, [APush 1; APush 2; APush 3; ADelete 0; ACount].
  exists [OBool true; OBool true; OBool true; OItem true (Some 1); ONum 3], (MkA [2;3;0;0] 4 3).
  split; [vm_compute; split; discriminate|]. split; [done|]. split.
  { intros op Hin. repeat (destruct Hin as [<-|Hin]; [vm_compute; try done; split; discriminate|]). destruct Hin. }
  split; [vm_compute; reflexivity|].
  intros [l H].
  repeat match goal with
  | H : asteps _ _ (_ :: _) _ _ |- _ => inversion H; clear H; subst
  | H : astep _ _ _ _ _ |- _ => inversion H; clear H; subst
  end;
  repeat match goal with H : @eq (list Z) _ _ |- _ => apply (f_equal length) in H end;
  unfold len in *; repeat rewrite app_length in *; simpl in *; repeat rewrite app_length in *; simpl in *; lia.
Qed.
Print Assumptions C01_array_history_refuted.

(** Beyond the stated size limit: on a 64-bit platform, moving 2^31 or more items
    in mu_array_insert is undefined behaviour ([int to_move]). *)
Theorem C01_insert_huge_refuted : forall a item index,
  Z.of_nat (length (a_store a)) = a_cap a -> a_cap a * 8 < 2 ^ 64 - 2 ^ 36 ->
  0 <= index < a_cnt a -> a_cnt a < a_cap a ->
  2 ^ 31 <= a_cnt a - index < 2 ^ 32 -> mu_array_insert P64 a item index = UB.
Proof.
  intros a item index Hl Hc Hi Hn Hd.
  change (2^31) with 2147483648 in Hd. change (2^32) with 4294967296 in Hd.
  change (2^64 - 2^36) with 18446744004990074880 in Hc.
  unfold mu_array_insert, mu_array_is_full.
  destruct (Z.eqb_spec (a_cnt a) (a_cap a)) as [?|_]; [lia|]. destruct (Z.ltb_spec (a_cnt a) index) as [?|_]; [lia|]. simpl orb.
  destruct (Z.eqb_spec index (a_cnt a)) as [?|_]; [lia|]. cbv iota zeta.
  assert (to_int (to_size P64 (a_cnt a - index)) = a_cnt a - index - 4294967296) as ->.
  { rewrite to_size_id by (simpl; lia). unfold to_int, wrap_signed. rewrite Z.mod_small by lia.
    change (4294967296 / 2) with 2147483648. destruct (Z.ltb_spec (a_cnt a - index) 2147483648); lia. }
  unfold move_elems. set (t := a_cnt a - index - 4294967296).
  assert (to_size P64 t = t + 18446744073709551616) as ->.
  { unfold to_size. symmetry. apply Z.mod_unique with (q := -1); simpl; lia. }
  assert (to_size P64 ((t + 18446744073709551616) * ptr_bytes P64) = t * 8 + 18446744073709551616) as ->.
  { unfold to_size. symmetry. apply Z.mod_unique with (q := 7); simpl; lia. }
  change (ptr_bytes P64) with 8.
  assert ((t * 8 + 18446744073709551616) / 8 = t + 2305843009213693952) as ->.
  { replace (t * 8 + 18446744073709551616) with ((t + 2305843009213693952) * 8) by ring. apply Z.div_mul. lia. }
  rewrite memmove_ub; [done|]. rewrite to_size_id by (simpl; lia). lia.
Qed.
Print Assumptions C01_insert_huge_refuted.

(** ** C02 *)
Theorem C02_delete_tail_partial : forall p a l x, areps p a (l ++ [x]) ->
  exists a', mu_array_delete p a (len l) = Ok (true, Some x, a') /\ contents a' = l /\
    mu_array_count a' = mu_array_count a - 1.
Proof.
  intros p a l x Hr. destruct (delete_tail p a l x Hr) as (a' & HE & Hr' & Hc).
  exists a'. split; [done|]. split; [eapply areps_contents; done|].
  pose proof (areps_bounds _ _ _ Hr) as H1. pose proof (areps_bounds _ _ _ Hr') as H2.
  rewrite app_length in H1; simpl in H1. unfold mu_array_count. lia.
Qed.
Print Assumptions C02_delete_tail_partial.

Theorem C02_delete_out_of_range : forall p a l i, areps p a l -> len l <= i ->
  mu_array_delete p a i = Ok (false, None, a).
Proof. exact delete_fail. Qed.
Print Assumptions C02_delete_out_of_range.

(** What the code does for an interior item of an array that is not full: the
    count is NOT reduced and the slot above the count is appended. *)
Theorem C02_delete_interior_refuted : forall p a l1 x l2 junk,
  areps p a (l1 ++ x :: l2) -> l2 <> [] -> a_store a !! length (l1 ++ x :: l2) = Some junk ->
  exists a', mu_array_delete p a (len l1) = Ok (true, Some x, a') /\
    contents a' = l1 ++ l2 ++ [junk] /\ mu_array_count a' = mu_array_count a.
Proof.
  intros p a l1 x l2 junk Hr Hne Hj.
  destruct (delete_interior p a l1 x l2 junk Hr Hne Hj) as (a' & HE & Hr' & _ & Hc).
  exists a'. split; [done|]. split; [eapply areps_contents; done|done].
Qed.
Print Assumptions C02_delete_interior_refuted.

(** ... and of a full array: one slot beyond the storage is read. *)
Theorem C02_delete_interior_full_refuted : forall p a l1 x l2,
  areps p a (l1 ++ x :: l2) -> l2 <> [] -> mu_array_is_full a = true ->
  mu_array_delete p a (len l1) = UB.
Proof.
  intros p a l1 x l2 Hr Hne Hf. eapply delete_interior_full; [done|done|].
  unfold mu_array_is_full in Hf. apply Z.eqb_eq in Hf. destruct Hr as (_ & _ & _ & Hn & _). congruence.
Qed.
Print Assumptions C02_delete_interior_full_refuted.

Example C02_example : areps P64 (MkA [1;2;3;9] 4 3) [1;2;3] /\
  mu_array_delete P64 (MkA [1;2;3;9] 4 3) 0 = Ok (true, Some 1, MkA [2;3;9;9] 4 3) /\
  mu_array_delete P64 (MkA [1;2;3] 3 3) 0 = UB /\
  mu_array_delete P64 (MkA [1;2;3] 3 3) 2 = Ok (true, Some 3, MkA [1;2;3] 3 2).
Proof. vm_compute. repeat split; discriminate. Qed.

(** ** C03 *)
Theorem C03_sort_partial : forall p cmp a l,
  areps p a l -> total_preorder cmp -> p = P64 \/ len l <> 1 ->
  exists a', mu_array_sort p cmp a = Ok a' /\
    Permutation (contents a') l /\ sorted cmp (contents a') /\
    mu_array_count a' = mu_array_count a /\ mu_array_capacity a' = mu_array_capacity a /\
    length (a_store a') = length (a_store a) /\
    drop (length l) (a_store a') = drop (length l) (a_store a).
Proof.
  intros p cmp a l Hr Htp Hs.
  destruct (sort_ok p cmp a l Hr Hs) as (a' & l' & HE & Hr' & Hc & Hp & Hd & Hsort).
  exists a'. rewrite (areps_contents _ _ _ Hr'). split_and!; try done.
  - by apply Hsort.
  - unfold mu_array_count. pose proof (areps_bounds _ _ _ Hr). pose proof (areps_bounds _ _ _ Hr').
    pose proof (Permutation_length Hp). lia.
  - pose proof (areps_bounds _ _ _ Hr). pose proof (areps_bounds _ _ _ Hr'). lia.
Qed.
Print Assumptions C03_sort_partial.

Example C03_example : mu_array_sort P32 Z.sub (MkA [5;3;9;1;3;8;77] 7 6) = Ok (MkA [1;3;3;5;8;9;77] 7 6).
Proof. vm_compute. reflexivity. Qed.
Example C03_example_cmp : total_preorder Z.sub.
Proof. constructor; intros; lia. Qed.

(** ** C04 *)
Theorem C04_sort_tiny_64 : forall cmp a l, areps P64 a l -> len l <= 1 ->
  exists a', mu_array_sort P64 cmp a = Ok a' /\ a_store a' = a_store a /\
    mu_array_count a' = mu_array_count a /\ mu_array_capacity a' = mu_array_capacity a.
Proof.
  intros cmp a l Hr Hl.
  destruct (sort_ok P64 cmp a l Hr) as (a' & l' & HE & Hr' & Hc & Hp & Hd & _); [by left|].
  pose proof (areps_bounds _ _ _ Hr). pose proof (areps_bounds _ _ _ Hr').
  pose proof (Permutation_length Hp).
  exists a'. split_and!; try done; [|unfold mu_array_count; lia].
  assert (l = l') as <-.
  { unfold len in Hl. destruct l as [|x [|y l]]; simpl in *.
    - destruct l'; [done|simpl in *; lia].
    - symmetry. apply Permutation_length_1_inv. done.
    - lia. }
  destruct Hr as (_ & _ & _ & _ & _ & Ht). destruct Hr' as (_ & _ & _ & _ & _ & Ht').
  rewrite <- (take_drop (length l) (a_store a')), Hd, Ht'.
  rewrite <- (take_drop (length l) (a_store a)) at 2. rewrite Ht. done.
Qed.
Print Assumptions C04_sort_tiny_64.

Theorem C04_sort_empty_32 : forall cmp a, mu_array_count a = 0 -> mu_array_sort P32 cmp a = Ok a.
Proof. intros cmp a H. unfold mu_array_sort, mu_array_count in *. rewrite H. done. Qed.
Print Assumptions C04_sort_empty_32.

(** With 32-bit size_t, sorting ANY one-item array is undefined behaviour (signed
    overflow of root*2 with root = INT_MAX). *)
Theorem C04_sort_one_32_refuted : forall cmp a, mu_array_count a = 1 -> mu_array_sort P32 cmp a = UB.
Proof.
  intros cmp a H. unfold mu_array_sort, mu_array_count in *. rewrite H. cbv beta zeta iota delta [Z.ltb Z.compare].
  assert (G : forall n m items start, int_max / 2 < start -> heapify_loop cmp (S n) items start m = UB).
  { intros n m items start Hs. change (int_max / 2) with 1073741823 in Hs. cbn [heapify_loop].
    destruct (Z.leb_spec 0 start); [|lia]. unfold sift_down.
    destruct (Z.to_nat (m - start)); cbn [sift_loop]; unfold imul; rewrite ichk_ub by (unfold int_max; lia); done. }
  assert (Hh : heapify P32 cmp (a_store a) 1 = UB).
  { unfold heapify. change (to_int (to_size P32 (1 - 2) / 2)) with 2147483647.
    change (2147483647 + 1) with (Z.succ 2147483647).
    rewrite Z2Nat.inj_succ by discriminate. apply G. reflexivity. }
  rewrite Hh. reflexivity.
Qed.
Print Assumptions C04_sort_one_32_refuted.
Example C04_example : areps P32 (MkA [7;0] 2 1) [7].
Proof. vm_compute. repeat split; discriminate. Qed.

(** ** C05 *)
Theorem C05_insert_sorted : forall p cmp a l x,
  areps p a l -> total_preorder cmp -> sorted cmp l ->
  exists b a', mu_array_insert_sorted p cmp a x = Ok (b, a') /\
   ((len l = mu_array_capacity a /\ b = false /\ a' = a) \/
    (len l < mu_array_capacity a /\ b = true /\ sorted cmp (contents a') /\
     exists l1 l2, l = l1 ++ l2 /\ contents a' = l1 ++ x :: l2 /\
      (forall y, In y l1 -> cmp y x <= 0) /\ (forall y, In y l2 -> 0 < cmp y x))).
Proof.
  intros p cmp a l x Hr Htp Hs.
  destruct (insert_sorted_ok p cmp a l x Hr) as (b & a' & HE & Hc & [(H1 & -> & ->)|(H1 & -> & l1 & l2 & -> & H2 & H3)]).
  - exists false, a. split; [done|]. left. done.
  - exists true, a'. split; [done|]. right. destruct (H3 Htp Hs) as [Ha Hb].
    rewrite (areps_contents _ _ _ H2). split_and!; try done; [|by exists l1, l2].
    assert (Hxx : forall z, cmp z z <= 0) by (intros z; destruct (tp_total _ Htp z z); done).
    intros i j u v Hij Hu Hv.
    assert (Hb' : forall y, In y l2 -> cmp x y <= 0).
    { intros y Hy. apply Hb in Hy. apply (tp_sign _ Htp) in Hy. lia. }
    rewrite lookup_app_Some in Hu. rewrite lookup_app_Some in Hv.
    rewrite !lookup_cons_Some in Hu, Hv.
    destruct Hu as [Hu|[Hu1 [[Hu2 <-]|[Hu2 Hu]]]], Hv as [Hv|[Hv1 [[Hv2 <-]|[Hv2 Hv]]]]; try lia.
    + apply (Hs i j); [done| |]; rewrite lookup_app_l by (eapply lookup_lt_Some; done); done.
    + apply Ha. apply elem_of_list_In, elem_of_list_lookup. eauto.
    + apply (Hs i (j - 1)%nat); [pose proof (lookup_lt_Some _ _ _ Hu); lia| |].
      * rewrite lookup_app_l by (eapply lookup_lt_Some; done); done.
      * rewrite lookup_app_r by lia. replace (j - 1 - length l1)%nat with (j - length l1 - 1)%nat by lia. done.
    + pose proof (lookup_lt_Some _ _ _ Hv). lia.
    + apply Hb'. apply elem_of_list_In, elem_of_list_lookup. eauto.
    + pose proof (lookup_lt_Some _ _ _ Hv). lia.
    + apply (Hs (i - 1)%nat (j - 1)%nat); [lia| |]; rewrite lookup_app_r by lia.
      * replace (i - 1 - length l1)%nat with (i - length l1 - 1)%nat by lia. done.
      * replace (j - 1 - length l1)%nat with (j - length l1 - 1)%nat by lia. done.
Qed.
Print Assumptions C05_insert_sorted.
(* stability shown with a comparison that ignores the last decimal digit *)
Example C05_example : mu_array_insert_sorted P64 (fun x y => x / 10 - y / 10) (MkA [10;20;21;30;0] 5 4) 22
  = Ok (true, MkA [10;20;21;22;30] 5 5).
Proof. vm_compute. reflexivity. Qed.

(** ** C06 *)
Theorem C06_index : forall p a l x, areps p a l ->
  (exists i, mu_array_index p a x = Ok (Z.of_nat i) /\ first_index l x i /\ Z.of_nat i <> MU_ARRAY_NOT_FOUND p) \/
  (mu_array_index p a x = Ok (MU_ARRAY_NOT_FOUND p) /\ ~ In x l).
Proof.
  intros p a l x Hr. destruct (index_ok p a l x Hr) as [(i & HE & Hi)|?]; [left|by right].
  exists i. split; [done|]. split; [done|]. destruct Hi as [Hi _]. pose proof (lookup_lt_Some _ _ _ Hi).
  pose proof (areps_bounds _ _ _ Hr). unfold MU_ARRAY_NOT_FOUND, size_max. lia.
Qed.
Print Assumptions C06_index.
Theorem C06_rindex : forall p a l x, areps p a l ->
  (exists i, mu_array_rindex p a x = Ok (Z.of_nat i) /\ last_index l x i /\ Z.of_nat i <> MU_ARRAY_NOT_FOUND p) \/
  (mu_array_rindex p a x = Ok (MU_ARRAY_NOT_FOUND p) /\ ~ In x l).
Proof.
  intros p a l x Hr. destruct (rindex_ok p a l x Hr) as [(i & HE & Hi)|?]; [left|by right].
  exists i. split; [done|]. split; [done|]. destruct Hi as [Hi _]. pose proof (lookup_lt_Some _ _ _ Hi).
  pose proof (areps_bounds _ _ _ Hr). unfold MU_ARRAY_NOT_FOUND, size_max. lia.
Qed.
Print Assumptions C06_rindex.
Example C06_example : mu_array_index P32 (MkA [4;5;4;5] 4 4) 5 = Ok 1 /\ mu_array_rindex P32 (MkA [4;5;4;5] 4 4) 5 = Ok 3
  /\ mu_array_rindex P32 (MkA [4;5] 2 0) 5 = Ok (MU_ARRAY_NOT_FOUND P32).
Proof. vm_compute. done. Qed.

(** ** C07: [cmp] is any function at all *)
Theorem C07_sort_any_cmp_partial : forall p cmp a l, areps p a l -> p = P64 \/ len l <> 1 ->
  exists a', mu_array_sort p cmp a = Ok a' /\ Permutation (contents a') l /\
    mu_array_count a' = mu_array_count a /\
    drop (length l) (a_store a') = drop (length l) (a_store a) /\ length (a_store a') = length (a_store a).
Proof.
  intros p cmp a l Hr Hs.
  destruct (sort_ok p cmp a l Hr Hs) as (a' & l' & HE & Hr' & Hc & Hp & Hd & _).
  exists a'. rewrite (areps_contents _ _ _ Hr').
  pose proof (areps_bounds _ _ _ Hr). pose proof (areps_bounds _ _ _ Hr').
  pose proof (Permutation_length Hp). unfold mu_array_count. split_and!; try done; lia.
Qed.
Print Assumptions C07_sort_any_cmp_partial.
Theorem C07_insert_sorted_any_cmp : forall p cmp a l x, areps p a l ->
  exists b a', mu_array_insert_sorted p cmp a x = Ok (b, a') /\
   ((b = false /\ a' = a /\ len l = mu_array_capacity a) \/
    (b = true /\ len l < mu_array_capacity a /\ exists l1 l2, l = l1 ++ l2 /\ contents a' = l1 ++ x :: l2)).
Proof.
  intros p cmp a l x Hr.
  destruct (insert_sorted_ok p cmp a l x Hr) as (b & a' & HE & Hc & [(H1 & -> & ->)|(H1 & -> & l1 & l2 & -> & H2 & H3)]).
  - exists false, a. split; [done|]. left. done.
  - exists true, a'. split; [done|]. right. split_and!; try done. exists l1, l2. split; [done|].
    eapply areps_contents; done.
Qed.
Print Assumptions C07_insert_sorted_any_cmp.
(* an inconsistent comparison: everything is less than everything *)
Example C07_example : mu_array_sort P32 (fun _ _ => -1) (MkA [5;3;9;1] 4 4) = Ok (MkA [3;1;5;9] 4 4).
Proof. vm_compute. reflexivity. Qed.
