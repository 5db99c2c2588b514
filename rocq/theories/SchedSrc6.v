(** * mu_sched: the invariant that the run of the source needs: numbers in the range of their C types, and every
    task pointer in the scheduler NULL or a live task *)
From Verif Require Import CSym FifoSpec QueueModel SpscModel TaskModel SchedModel SchedSrc SchedSrc2 SchedSrc3 SchedSrc4.
Open Scope Z_scope.
Notation length := List.length.
Lemma st_Forall {A} (Q : A -> Prop) l l' i v : st l i v = Ok l' -> Forall Q l -> Q v -> Forall Q l'.
Proof. unfold st. destruct (_ && _); [|done]. intros [= <-] H Hv. by apply Forall_insert. Qed.
Lemma st_length {A} (l l' : list A) i v : st l i v = Ok l' -> length l' = length l.
Proof. unfold st. destruct (_ && _); [|done]. intros [= <-]. apply insert_length. Qed.
Lemma ld_Forall {A} (Q : A -> Prop) l i v : ld l i = Ok v -> Forall Q l -> Q v.
Proof. unfold ld. destruct (_ <? _); [done|]. destruct (l !! Z.to_nat i) eqn:E; [|done]. intros [= <-] H. eapply Forall_lookup_1 in H; done. Qed.
Lemma memmove_Forall {A} (Q : A -> Prop) l l' a b k : memmove l a b k = Ok l' -> Forall Q l -> Forall Q l'.
Proof.
  unfold memmove. destruct (_ && _); [|done]. intros [= <-] H.
  rewrite !Forall_app. split; [by apply Forall_take|]. split; [by apply Forall_take, Forall_drop|]. by apply Forall_drop.
Qed.

Section inv.
Context (cf : config) (live : Z -> Prop) (L0 : live 0).
Notation p := (plat_ cf).
Record inv (s : sched) : Prop := {
  i_ok : sched_ok cf s;
  i_irq : Forall live (s_store (sc_irq s)); i_immed : Forall live (q_store (sc_immed s));
  i_def : Forall (fun e => live (snd e)) (sc_deferred s);
  i_curr : live (sc_curr s); i_idle : live (sc_idle s) }.
Lemma inv_curr s t : inv s -> live t -> inv (with_curr s t).
Proof. intros [[] ? ? ? ? ?] Ht. split; [split|..]; done. Qed.
Lemma inv_idle s t : inv s -> live t -> inv (with_idle s t).
Proof. intros [[] ? ? ? ? ?] Ht. split; [split|..]; done. Qed.
Lemma inv_reset s : inv s -> inv (mu_sched_reset s).
Proof. intros [[] ? ? ? ? ?]. split; [split|..]; cbn; try done; lia. Qed.
Lemma inv_from_isr s t e s' : inv s -> live t -> mu_sched_from_isr t s = Ok (e, s') -> inv s'.
Proof.
  intros Hi Ht H. unfold mu_sched_from_isr, mu_spsc_put in H. destruct (_ =? _).
  - cbn [bind] in H. injection H as <- <-. destruct Hi as [[] ? ? ? ? ?]. split; [split|..]; done.
  - destruct (st _ _ _) as [l| |] eqn:E; cbn [bind] in H; try done. injection H as <- <-.
    destruct Hi as [[] ? ? ? ? ?]. split; [split|..]; cbn; try done.
    + apply Z.mod_pos_bound. lia.
    + eapply st_Forall; done.
Qed.
Lemma inv_immed s t e s' : inv s -> live t -> mu_sched_immed cf t s = Ok (e, s') -> inv s'.
Proof.
  intros Hi Ht H. unfold mu_sched_immed, mu_queue_put in H. destruct (negb _).
  - destruct (st _ _ _) as [l| |] eqn:E; cbn [bind] in H; try done. unfold umod in H. destruct (Z.eqb_spec (q_cap (sc_immed s)) 0) as [E0|E0]; cbn [bind] in H; try done.
    cbn [negb] in H. injection H as <- <-.
    destruct Hi as [[] ? ? ? ? ?]. pose proof (Z.mod_pos_bound (to_size p (q_index (sc_immed s) + 1)) (q_cap (sc_immed s)) ltac:(lia)).
    split; [split|..]; cbn; try done.
    + apply to_size_range.
    + lia.
    + eapply st_Forall; done.
  - cbn [bind negb] in H. injection H as <- <-. destruct Hi as [[] ? ? ? ? ?]. split; [split|..]; done.
Qed.
Lemma inv_step now s s' : inv s -> step_choose cf now s = Ok s' -> inv s'.
Proof.
  intros Hi H. unfold step_choose in H. destruct (mu_spsc_get (sc_irq s)) as [[[e x] q]| |] eqn:Eg; cbn [bind] in H; try done.
  assert (H1 : inv (with_curr (with_irq s q) x)).
  { pose proof (spsc_get_ok cf s e x q (i_ok _ Hi) Eg) as Hok. destruct Hi as [_ ? ? ? ? ?].
    assert (live x /\ s_store q = s_store (sc_irq s)) as [Hx Eq].
    { unfold mu_spsc_get in Eg. destruct (_ =? _).
      - injection Eg as <- <- <-. done.
      - destruct (ld _ _) as [v| |] eqn:El; cbn [bind] in Eg; try done. injection Eg as <- <- <-. split; [|done]. eapply ld_Forall; done. }
    split; [done|..]; cbn; try done. by rewrite Eq. }
  set (s1 := with_curr (with_irq s q) x) in *. clearbody s1. clear Eg Hi.
  assert (Hn : forall s1, inv s1 -> (let* '(t, s) := fetch_runnable_deferred_task cf now s1 in
      let s := with_curr s t in
      if negb (t =? NULL) then Ok s
      else let* '(ok, v, q) := mu_queue_get p (sc_immed s) in
        let s := with_curr (with_immed s q) v in if ok then Ok s else Ok (with_curr s (sc_idle s))) = Ok s' -> inv s').
  { clear - L0. intros s1 H1 H. destruct (fetch_runnable_deferred_task cf now s1) as [[t s2]| |] eqn:Ef; cbn [bind] in H; try done.
    assert (H2 : inv (with_curr s2 t)).
    { pose proof (fetch_ok cf s1 now t s2 (i_ok _ H1) Ef) as Hok. destruct H1 as [_ ? ? ? ? ?].
      unfold fetch_runnable_deferred_task, next_deferred_task in Ef. destruct (0 <? sc_dcount s1).
      - destruct (ld (sc_deferred s1) _) as [e0| |] eqn:El; cbn [bind] in Ef; try done. destruct (negb _).
        + cbn [sc_deferred with_deferred] in Ef. rewrite ?El in Ef. cbn [bind] in Ef. injection Ef as <- <-.
          split; cbn; try done. apply (ld_Forall (fun e => live (snd e)) _ _ _ El). done.
        + injection Ef as <- <-. split; done.
      - injection Ef as <- <-. split; done. }
    destruct (negb _); [injection H as <-; done|]. set (s3 := with_curr s2 t) in *. clearbody s3.
    destruct (mu_queue_get p (sc_immed s3)) as [[[b y] q']| |] eqn:Eq; cbn [bind] in H; try done.
    assert (H3 : inv (with_curr (with_immed s3 q') y)).
    { pose proof (queue_get_ok cf s3 b y q' (i_ok _ H2) Eq) as Hok. destruct H2 as [_ ? ? ? ? ?].
      unfold mu_queue_get, access_queue in Eq. destruct (negb _).
      - destruct (ld _ _) as [v| |] eqn:El; cbn [bind] in Eq; try done. injection Eq as <- <- <-. split; cbn; try done. eapply ld_Forall; done.
      - injection Eq as <- <- <-. split; done. }
    destruct b; injection H as <-; [done|]. apply inv_curr; [done|]. apply H3. }
  destruct e; cbn [step_rest] in H; [injection H as <-; done|..]; eapply Hn; done.
Qed.
Lemma inv_defer s t at_ e s' : inv s -> live t -> defer_aux cf t at_ s = Ok (e, s') -> inv s'.
Proof.
  intros Hi Ht H. unfold defer_aux in H. destruct (Z.eqb_spec (sc_dcount s) (MAX_DEFERRED cf)) as [E|E].
  - injection H as <- <-. done.
  - destruct (defer_search _ _ _ _) as [i| |]; cbn [bind] in H; try done.
    destruct (if 0 <? _ then _ else _) as [d| |] eqn:Em; cbn [bind] in H; try done.
    destruct (st d i _) as [d'| |] eqn:Es; cbn [bind] in H; try done. injection H as <- <-.
    destruct Hi as [[] ? ? ? ? ?].
    assert (length d = length (sc_deferred s) /\ Forall (fun e => live (snd e)) d) as [Hl Hd].
    { destruct (0 <? _); [|injection Em as <-; done]. split; [by eapply memmove_length|by eapply memmove_Forall]. }
    split; [split|..]; cbn; try done.
    + apply to_size_range.
    + erewrite st_length by done. rewrite Hl. done.
    + unfold to_size. pose proof (Z.mod_le (sc_dcount s + 1) (size_mod p) ltac:(lia) (size_mod_pos p)). lia.
    + eapply st_Forall; done.
Qed.
Lemma remove_inv t : forall k d n e d' n' e', remove_loop cf k t d n e = Ok (d', n', e') -> Z.of_nat k <= n < size_mod p ->
  length d' = length d /\ 0 <= n' <= n /\ (Forall (fun e => live (snd e)) d -> Forall (fun e => live (snd e)) d').
Proof.
  induction k as [|k IH]; intros d n e d' n' e' H Hk; cbn [remove_loop] in H.
  - injection H as <- <- <-. split; [done|]. split; [lia|done].
  - destruct (ld d _) as [x| |]; cbn [bind] in H; try done. destruct (_ =? _).
    + destruct (if 0 <? _ then _ else _) as [d1| |] eqn:Em; cbn [bind] in H; try done.
      rewrite (to_size_id p (n - 1)) in H by lia. apply IH in H as (H1 & H2 & H3); [|lia].
      assert (length d1 = length d /\ (Forall (fun e => live (snd e)) d -> Forall (fun e => live (snd e)) d1)) as [Hl Hd].
      { destruct (0 <? _); [|injection Em as <-; done]. split; [by eapply memmove_length|by eapply memmove_Forall]. }
      split; [congruence|]. split; [lia|auto].
    + apply IH in H; [done|lia].
Qed.
Lemma inv_remove s t e s' : inv s -> mu_sched_remove_deferred_task cf t s = Ok (e, s') -> inv s'.
Proof.
  intros Hi H. unfold mu_sched_remove_deferred_task in H.
  destruct (remove_loop _ _ _ _ _ _) as [[[d n] e']| |] eqn:E; cbn [bind] in H; try done. injection H as <- <-.
  destruct Hi as [[] ? ? ? ? ?]. apply remove_inv in E as (H1 & H2 & H3); [|lia].
  split; [split|..]; cbn; try done; [lia|rewrite H1; done|lia|auto].
Qed.
Lemma inv_init : sched_ok cf (mu_sched_init cf (sched_static cf)) -> inv (mu_sched_init cf (sched_static cf)).
Proof.
  intros H. split; [done|..].
  - unfold mu_sched_init, mu_spsc_init. destruct (_ || _); cbn; [constructor|]. by apply Forall_replicate.
  - unfold mu_sched_init. destruct (mu_spsc_init _ _ _). cbn. by apply Forall_replicate.
  - unfold mu_sched_init. destruct (mu_spsc_init _ _ _). cbn. by apply Forall_replicate.
  - unfold mu_sched_init. destruct (mu_spsc_init _ _ _). done.
  - unfold mu_sched_init. destruct (mu_spsc_init _ _ _). done.
Qed.
End inv.
