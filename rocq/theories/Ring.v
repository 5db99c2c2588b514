(** * Ring buffer lemmas shared by the mu_queue and mu_mqueue proofs *)
From Verif Require Import CSem FifoSpec.

(** [l] is stored in the ring, oldest first, ending just before [index]. *)
Definition ringrep (p : plat) (s : list Z) (cap cnt index : Z) (l : list Z) : Prop :=
  valid_cap p cap /\ Z.of_nat (length s) = cap /\ cnt = Z.of_nat (length l) /\ cnt <= cap /\
  (0 <= index < cap \/ (cap = 0 /\ index = 0)) /\
  forall k x, l !! k = Some x -> s !! Z.to_nat ((index - cnt + Z.of_nat k) mod cap) = Some x.

Section ring.
Context (p : plat).

Lemma ring_init s cap : valid_cap p cap -> Z.of_nat (length s) = cap -> ringrep p s cap 0 0 [].
Proof.
  intros Hv Hl. destruct Hv as [H1 H2]. unfold ringrep. split_and!; try done; try lia.
Qed.

Lemma ring_reset s cap cnt index l : ringrep p s cap cnt index l -> ringrep p s cap 0 0 [].
Proof. intros (Hv & Hl & _). by apply ring_init. Qed.

Lemma ring_bounds s cap cnt index l : ringrep p s cap cnt index l ->
  0 <= cnt <= cap /\ 0 <= index <= cap /\ 4 * cap < size_mod p /\ cnt = Z.of_nat (length l) /\
  Z.of_nat (length s) = cap /\ (0 < cap -> index < cap).
Proof.
  intros (Hv & Hl & Hc & Hle & Hi & _). destruct (valid_cap_size _ _ Hv). lia.
Qed.

Lemma ring_put s cap cnt index l x : ringrep p s cap cnt index l -> cnt < cap ->
  exists s', st s index x = Ok s' /\ ringrep p s' cap (cnt + 1) ((index + 1) mod cap) (l ++ [x]).
Proof.
  intros Hr Hlt. pose proof (ring_bounds _ _ _ _ _ Hr) as Hb.
  destruct Hr as (Hv & Hl & Hc & Hle & Hi & Hk).
  rewrite st_ok by lia. eexists. split; [done|].
  unfold ringrep. rewrite insert_length, app_length. simpl.
  split_and!; [done|done|lia|lia| |].
  - left. apply Z.mod_pos_bound. lia.
  - intros k y Hy.
    assert (Hmod : ((index + 1) mod cap - (cnt + 1) + Z.of_nat k) mod cap = (index - cnt + Z.of_nat k) mod cap).
    { replace ((index + 1) mod cap - (cnt + 1) + Z.of_nat k) with ((index + 1) mod cap + (Z.of_nat k - cnt - 1)) by lia.
      rewrite Zplus_mod_idemp_l. f_equal. lia. }
    rewrite Hmod.
    apply lookup_app_Some in Hy as [Hy|[Hge Hy]].
    + specialize (Hk k y Hy). pose proof (lookup_lt_Some _ _ _ Hy).
      rewrite list_lookup_insert_ne; [done|].
      intros Heq. apply Z2Nat.inj in Heq; [|lia|apply Z.mod_pos_bound; lia].
      (* index = (index - cnt + k) mod cap with 0 < cnt - k <= cap - ... *)
      assert (Hz : (index - (cnt - Z.of_nat k)) mod cap = index).
      { rewrite Heq at 2. f_equal. lia. }
      destruct (Z.le_gt_cases 0 (index - (cnt - Z.of_nat k))).
      * rewrite Z.mod_small in Hz by lia. lia.
      * rewrite <- (Z.mod_add _ 1), Z.mod_small in Hz by lia. lia.
    + apply list_lookup_singleton_Some in Hy as [Hk0 <-].
      replace (index - cnt + Z.of_nat k) with index by lia.
      rewrite Z.mod_small by lia. apply list_lookup_insert. lia.
Qed.

Definition ring_idx (cap cnt index : Z) : Z :=
  let idx := to_size p (to_size p (cap + index) - cnt) in
  if cap <=? idx then to_size p (idx - cap) else idx.

Lemma ring_oldest s cap cnt index x l : ringrep p s cap cnt index (x :: l) ->
  ld s (ring_idx cap cnt index) = Ok x.
Proof.
  intros Hr. pose proof (ring_bounds _ _ _ _ _ Hr) as Hb.
  destruct Hr as (Hv & Hl & Hc & Hle & Hi & Hk). simpl in *.
  unfold ring_idx. rewrite (to_size_id p (cap + index)) by lia. rewrite (to_size_id p (cap + index - cnt)) by lia.
  specialize (Hk 0%nat x eq_refl). change (Z.of_nat 0) with 0 in Hk. rewrite Z.add_0_r in Hk.
  destruct (Z.leb_spec cap (cap + index - cnt)).
  - rewrite to_size_id by lia. replace (cap + index - cnt - cap) with (index - cnt) by lia.
    rewrite Z.mod_small in Hk by lia. apply ld_okZ; [lia|done].
  - rewrite <- (Z.mod_add _ 1), Z.mod_small in Hk by lia. apply ld_okZ; [lia|].
    replace (cap + index - cnt) with (index - cnt + 1 * cap) by lia. done.
Qed.

Lemma ring_get s cap cnt index x l : ringrep p s cap cnt index (x :: l) ->
  ringrep p s cap (cnt - 1) index l.
Proof.
  intros (Hv & Hl & Hc & Hle & Hi & Hk). simpl in *. unfold ringrep. split_and!; try done; try lia.
  intros k y Hy. specialize (Hk (S k) y Hy). replace (index - (cnt - 1) + Z.of_nat k) with (index - cnt + Z.of_nat (S k)) by lia. done.
Qed.
End ring.
