(** * C74: messages framed by mu_bisync_encode, sent byte by byte through a mu_spsc between
    two threads, and taken apart by mu_bisync_decode *)
From Verif Require Import CSem FifoSpec SpscModel SpscProofs SpscProps SpscTso BisyncModel BisyncSpec BisyncProofs BisyncProps.

(** What the receiver can do with the bytes [got] it has taken from the queue so far, when
    [ms] are the messages sent and [outs] their encodings. *)
Definition received (p : plat) (ms outs : list (list Z)) (got : list Z) : Prop :=
  (* it has the first k encodings and a proper part of the next one *)
  (exists k part, (k <= length ms)%nat /\ got = concat (take k outs) ++ part /\
     (k = length ms -> part = []) /\
     (forall o, outs !! k = Some o -> exists b o', o = part ++ b :: o') /\
     (* decoding at the start of each of these gives that message (after one SOH, see C18) *)
     forall i m dst cap, (i < k)%nat -> ms !! i = Some m ->
       0 <= cap <= int_max -> cap <= Z.of_nat (length dst) -> Z.of_nat (length m) + 1 <= cap ->
       let e := drop (length (concat (take i outs))) got in Z.of_nat (length e) <= int_max ->
       exists dst', mu_bisync_decode p dst cap e (Z.of_nat (length e)) = Ok (Z.of_nat (length m) + 1, dst') /\
         take (length m) (drop 1 dst') = m) /\
  (* however it divides the bytes into encodings, the messages are the first ones sent *)
  (forall ms' outs' part, Forall2 (encodes p) ms' outs' -> got = concat outs' ++ part -> exists more, ms = ms' ++ more).

Lemma encodes_frames p ms outs : Forall2 (encodes p) ms outs -> outs = map frame ms.
Proof. induction 1; simpl; [done|]. f_equal; [by eapply encodes_frame|done]. Qed.

Lemma prefix_split : forall (ms : list (list Z)) got rest, got ++ rest = concat (map frame ms) ->
  exists k part, (k <= length ms)%nat /\ got = concat (take k (map frame ms)) ++ part /\
     (k = length ms -> part = []) /\ (forall o, map frame ms !! k = Some o -> exists b o', o = part ++ b :: o').
Proof.
  induction ms as [|m ms IH]; intros got rest H.
  - simpl in H. apply app_eq_nil in H as [-> ->]. exists 0%nat, []. simpl. done.
  - cbn [map concat] in H. destruct (decide (length (frame m) <= length got)%nat) as [Hle|Hlt].
    + assert (E : got = frame m ++ drop (length (frame m)) got).
      { rewrite <- (take_drop (length (frame m)) got) at 1. f_equal.
        pose proof (f_equal (take (length (frame m))) H) as H1. rewrite take_app_le, take_app in H1 by done. done. }
      rewrite E, <- app_assoc in H. apply app_inv_head in H.
      destruct (IH _ _ H) as (k & part & H1 & H2 & H3 & H4). exists (S k), part. split; [simpl; lia|].
      split; [rewrite E, H2; cbn [map take concat]; by rewrite app_assoc|]. split; [intros; apply H3; simpl in *; lia|]. exact H4.
    + exists 0%nat, got. split; [simpl; lia|]. split; [done|]. split; [simpl; lia|].
      intros o Ho. simpl in Ho. injection Ho as <-.
      pose proof (f_equal (take (length (frame m))) H) as H1. rewrite take_app in H1.
      rewrite take_app_ge in H1 by lia. destruct (take _ rest) as [|b o'] eqn:E.
      * rewrite app_nil_r in H1. rewrite H1 in Hlt. lia.
      * exists b, o'. done.
Qed.
Lemma frames_prefix : forall ms' ms part rest, concat (map frame ms') ++ part ++ rest = concat (map frame ms) -> exists more, ms = ms' ++ more.
Proof.
  induction ms' as [|m' ms' IH]; intros ms part rest H; [by exists ms|]. destruct ms as [|m ms]; [simpl in H; discriminate|].
  cbn [map concat] in H. rewrite <- app_assoc in H. apply (frame_prefix_inj m' m) in H as [-> H].
  destruct (IH _ _ _ H) as [more ->]. by exists more.
Qed.

Lemma receive p ms outs got rest : Forall2 (encodes p) ms outs -> got ++ rest = concat outs -> received p ms outs got.
Proof.
  intros He H. rewrite (encodes_frames _ _ _ He) in H |- *. clear outs He. split.
  - destruct (prefix_split ms got rest H) as (k & part & H1 & H2 & H3 & H4). exists k, part.
    do 4 (split; [done|]). intros i m dst cap Hi Hm Hc1 Hc2 Hc3 e He.
    assert (Ee : exists r, e = frame m ++ r).
    { unfold e. rewrite H2. rewrite <- (take_drop i (take k (map frame ms))), concat_app, take_take, Nat.min_l by lia.
      rewrite <- app_assoc, drop_app. rewrite (drop_S _ (frame m) i); [simpl; rewrite <- app_assoc; eauto|].
      rewrite lookup_take by lia. by rewrite list_lookup_fmap, Hm. }
    rewrite (decode_frame p dst cap m e) by done. eexists. split; [done|]. unfold overwrite. change (drop 1 ((SOH :: m) ++ drop (length (SOH :: m)) dst)) with (m ++ drop (length (SOH :: m)) dst). by rewrite take_app.
  - intros ms' outs' part He Hg. rewrite (encodes_frames _ _ _ He) in Hg. eapply (frames_prefix ms' ms part rest).
    by rewrite app_assoc, <- Hg.
Qed.

(** Any interleaving of the two threads' memory accesses; the producer retries full puts,
    so that its successful puts are a prefix of the encoded stream. *)
Theorem C74_link : forall p q store size q0 schedule ms outs unsent,
  0 <= size <= 65535 -> Z.of_nat (length store) = size -> mu_spsc_init q store size = (SPSC_NONE, q0) ->
  Forall2 (encodes p) ms outs ->
  exists s evs, crun (MkC q0 PIdle CIdle) schedule = Ok (s, evs) /\
    (put_items evs ++ unsent = concat outs -> received p ms outs (got_items evs)).
Proof.
  intros p q store size q0 sch ms outs unsent Hs Hl Hi He.
  destruct (C14_spsc_in_order q store size q0 sch Hs Hl Hi) as (s & evs & rest & HE & H1 & _).
  exists s, evs. split; [done|]. intros Hp. apply (receive p ms outs _ (rest ++ unsent) He). by rewrite app_assoc, <- H1.
Qed.
Print Assumptions C74_link.
(** The same when each thread's writes reach memory late (store buffers, C61). *)
Theorem C74_link_tso : forall p q store size q0 schedule ms outs unsent,
  0 <= size <= 65535 -> Z.of_nat (length store) = size -> mu_spsc_init q store size = (SPSC_NONE, q0) ->
  Forall tso schedule -> Forall2 (encodes p) ms outs ->
  exists s evs, trun (MkT q0 [] [] PIdle CIdle) schedule = Ok (s, evs) /\
    (put_items evs ++ unsent = concat outs -> received p ms outs (got_items evs)).
Proof.
  intros p q store size q0 sch ms outs unsent Hs Hl Hi Ht He.
  destruct (C61_spsc_tso_in_order q store size q0 sch Hs Hl Hi Ht) as (s & evs & rest & HE & H1 & _).
  exists s, evs. split; [done|]. intros Hp. apply (receive p ms outs _ (rest ++ unsent) He). by rewrite app_assoc, <- H1.
Qed.
Print Assumptions C74_link_tso.

(** two messages, a queue of three; the consumer has taken the first frame and one byte more *)
Definition ex_put (x : Z) : list label := LPut x :: repeat LP 5.
Definition ex_get : list label := LGet :: repeat LC 6.
Definition ex74 : list label := ex_put 1 ++ ex_put 65 ++ [LPut 16; LP; LGet; LC; LP; LC; LP; LC; LP; LP; LC; LC; LC] ++ ex_get ++ ex_put 4 ++ ex_put 4 ++ ex_get ++ ex_get ++ ex_get ++ ex_put 1 ++ ex_put 66 ++ ex_get.
Example C74_example : Forall2 (encodes P64) [[65;4]; [66]] [[1;65;16;4;4]; [1;66;4]] /\
  exists s evs, crun (MkC (snd (mu_spsc_init (MkS [] 0 0 0) [0;0;0;0] 4)) PIdle CIdle) ex74 = Ok (s, evs) /\
    put_items evs ++ [4] = concat [[1;65;16;4;4]; [1;66;4]] /\ got_items evs = [1;65;16;4;4;1].
Proof.
  split.
  - constructor; [apply C17_example|]. constructor; [|constructor].
    exists [0;0;0;0;0], 5, [1;66;4;0;0]. vm_compute. repeat split; discriminate.
  - eexists _, _. split; [vm_compute; reflexivity|]. vm_compute. done.
Qed.
