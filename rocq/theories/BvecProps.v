(** * mu_bvec: property C36. *)
From Verif Require Import CSem BbufModel BbufSpec BbufProofs BbufProofs3 BvecModel BvecSpec.

(** [b] is a buffer of any addressable size with contents [l], between [pre] and [post] *)
Definition bytes_at (p : plat) (m : memory) (b : bbuf) (pre l post : list Z) : Prop :=
  m !! blk (bytes b) = Some (pre ++ l ++ post) /\
  off (bytes b) = Z.of_nat (length pre) /\
  capacity b = Z.of_nat (length l) /\ Z.of_nat (length l) <= size_max p.

(** the API calls of the model, as a history *)
Definition vstep (p : plat) (m : memory) (v : bvec) (op : vop) : res (vobs * memory * bvec) :=
  match op with
  | VRead => let* '(ok, o, v) := mu_bvec_read_byte p m v in Ok (VByte ok o, m, v)
  | VWrite x => let* '(ok, v, m) := mu_bvec_write_byte p m v x in Ok (VBool ok, m, v)
  | VReset => Ok (VUnit, m, mu_bvec_reset v)
  | VSetCount n => Ok (VUnit, m, mu_bvec_set_count v n)
  | VCount => Ok (VNum (mu_bvec_get_count v), m, v)
  | VCapacity => Ok (VNum (mu_bvec_get_capacity v), m, v)
  | VAvailable => Ok (VNum (mu_bvec_get_available p v), m, v)
  end.
Fixpoint vrun (p : plat) (m : memory) (v : bvec) (ops : list vop) : res (list vobs * memory * bvec) :=
  match ops with
  | [] => Ok ([], m, v)
  | op :: ops =>
    let* '(o, m, v) := vstep p m v op in
    let* '(os, m, v) := vrun p m v ops in Ok (o :: os, m, v)
  end.

Lemma vref_ok p m b c c' pre l post : bytes_at p m b pre l post -> 0 <= c ->
  (exists x q, l !! Z.to_nat c = Some x /\ c < Z.of_nat (length l) /\ mu_bvec_ref m (MkBvec b c') c = Ok (Some q) /\
     blk q = blk (bytes b) /\
     at_ m q (pre ++ take (Z.to_nat c) l) (x :: drop (S (Z.to_nat c)) l ++ post)) \/
  (l !! Z.to_nat c = None /\ Z.of_nat (length l) <= c /\ mu_bvec_ref m (MkBvec b c') c = Ok None).
Proof.
  intros (H1 & H2 & H3 & H4) Hc. unfold mu_bvec_ref, mu_bbuf_ref. simpl vbuf. rewrite H3.
  destruct (Z.ltb_spec c (Z.of_nat (length l))) as [Hlt|Hge].
  - left. destruct (lookup_lt_is_Some_2 l (Z.to_nat c)) as [x Hx]; [lia|].
    assert (Ha : at_ m (bytes b) pre (take (Z.to_nat c) l ++ (x :: drop (S (Z.to_nat c)) l ++ post))).
    { split; [|done]. rewrite H1. f_equal. f_equal. rewrite <- (take_drop (Z.to_nat c) l) at 1.
      rewrite (drop_S _ _ _ Hx). by rewrite <- app_assoc. }
    destruct (at_padd _ _ _ _ _ c Ha) as (q & -> & Ha' & Hb & _); [rewrite take_length; lia|].
    exists x, q. repeat split; try done; by destruct Ha'.
  - right. split; [|done]. apply lookup_ge_None. lia.
Qed.

Lemma vstep_ok p m b pre l post c op o l' c' : bytes_at p m b pre l post -> 0 <= c <= size_max p ->
  vop_ok (size_mod p) op -> stream_step (size_mod p) l c op = (o, l', c') ->
  vstep p m (MkBvec b c) op = Ok (o, with_contents m b pre l' post, MkBvec b c') /\
  bytes_at p (with_contents m b pre l' post) b pre l' post /\ 0 <= c' <= size_max p.
Proof.
  intros Hb Hc Hop E. pose proof Hb as (H1 & H2 & H3 & H4).
  assert (Hid : with_contents m b pre l post = m) by (unfold with_contents; by rewrite list_insert_id).
  assert (HW : 0 < size_mod p) by (by destruct p).
  pose proof (Z.mod_pos_bound (c + 1) _ HW) as Hm. unfold size_max in *.
  destruct op; simpl in E; simpl in Hop; cbn [vstep].
  - injection E as <- <- <-. rewrite Hid. split; [|split; [done|lia]]. unfold mu_bvec_read_byte, count_post_inc. simpl.
    destruct (vref_ok p m b c (to_size p (c + 1)) pre l post Hb) as [(x & q & Hx & _ & -> & Hq & Ha)|(Hx & _ & ->)]; [lia| |];
      rewrite Hx; cbn [bind]; [|done]. by rewrite (at_rd _ _ _ _ _ Ha).
  - unfold mu_bvec_write_byte, count_post_inc. simpl.
    destruct (vref_ok p m b c (to_size p (c + 1)) pre l post Hb) as [(y & q & Hx & Hlt & -> & Hq & Ha)|(Hx & Hge & ->)]; [lia| |]; cbn [bind].
    + destruct (Z.ltb_spec c (Z.of_nat (length l))); [|lia]. injection E as <- <- <-.
      rewrite (at_wr _ _ _ _ _ _ Ha). cbn [bind].
      assert (Hm' : <[blk q := (pre ++ take (Z.to_nat c) l) ++ x :: drop (S (Z.to_nat c)) l ++ post]> m =
                    with_contents m b pre (<[Z.to_nat c := x]> l) post).
      { unfold with_contents. rewrite Hq. f_equal. rewrite <- app_assoc. f_equal.
        rewrite insert_take_drop by lia. rewrite <- app_assoc. done. }
      rewrite Hm'. split; [done|]. split; [|lia].
      repeat split; rewrite ?insert_length; try done. apply list_lookup_insert. by eapply lookup_lt_Some.
    + destruct (Z.ltb_spec c (Z.of_nat (length l))); [lia|]. injection E as <- <- <-. rewrite Hid. split; [done|]. split; [done|lia].
  - injection E as <- <- <-. rewrite Hid. split; [done|]. split; [done|lia].
  - injection E as <- <- <-. rewrite Hid. split; [done|]. split; [done|lia].
  - injection E as <- <- <-. rewrite Hid. split; [done|]. split; [done|lia].
  - injection E as <- <- <-. rewrite Hid. split; [|split; [done|lia]]. unfold mu_bvec_get_capacity, mu_bbuf_capacity. simpl. by rewrite H3.
  - injection E as <- <- <-. rewrite Hid. split; [|split; [done|lia]]. unfold mu_bvec_get_available, mu_bbuf_capacity. simpl. rewrite H3.
    destruct (Z.ltb_spec (Z.of_nat (length l)) c).
    + do 4 f_equal. lia.
    + rewrite to_size_id by lia. do 4 f_equal. lia.
Qed.

(** Every history of calls behaves like the byte stream: same results, same contents and
    cursor, no undefined behaviour, and no byte outside the buffer changes. *)
Theorem C36_bvec_history : forall p m b pre l post c ops os l' c',
  bytes_at p m b pre l post -> 0 <= c <= size_max p -> Forall (vop_ok (size_mod p)) ops ->
  stream_run (size_mod p) l c ops = (os, l', c') ->
  vrun p m (MkBvec b c) ops = Ok (os, with_contents m b pre l' post, MkBvec b c').
Proof.
  intros p m b pre l post c ops. revert m l c.
  induction ops as [|op ops IH]; intros m l c os l' c' Hb Hc Hops E; cbn [vrun stream_run] in *.
  - injection E as <- <- <-. destruct Hb as (H1 & _). unfold with_contents. by rewrite list_insert_id.
  - inversion Hops as [|?? Hop Hops']; subst.
    destruct (stream_step (size_mod p) l c op) as [[o l1] c1] eqn:E1.
    destruct (stream_run (size_mod p) l1 c1 ops) as [[os1 l2] c2] eqn:E2. injection E as <- <- <-.
    destruct (vstep_ok p m b pre l post c op o l1 c1 Hb Hc Hop E1) as (-> & Hb1 & Hc1). cbn [bind].
    rewrite (IH _ _ _ _ _ _ Hb1 Hc1 Hops' E2). cbn [bind]. do 3 f_equal.
    unfold with_contents. by rewrite list_insert_insert.
Qed.
Print Assumptions C36_bvec_history.

(** The three initialisers give a stream over the given buffer with count 0. *)
Theorem C36_init : forall v b, mu_bvec_init v b = MkBvec b 0 /\
  mu_bvec_init_ro v (bytes b) (capacity b) = MkBvec b 0 /\ mu_bvec_init_rw v (bytes b) (capacity b) = MkBvec b 0.
Proof. intros v [q n]. done. Qed.
Print Assumptions C36_init.

(** stream-level facts *)
Lemma stream_writes W (ws : list Z) : forall (done_ l : list Z) c, Z.of_nat (length done_) = c ->
  c + Z.of_nat (length ws) < W -> 
  stream_run W (done_ ++ l) c (VWrite <$> ws) =
    (VBool <$> (replicate (Nat.min (length ws) (length l)) true ++ replicate (length ws - length l) false),
     done_ ++ take (length l) ws ++ drop (length ws) l, c + Z.of_nat (length ws)).
Proof.
  induction ws as [|w ws IH]; intros D l c HD HW.
  - cbn [fmap list_fmap stream_run]. simpl. rewrite take_nil, drop_0. do 2 f_equal. lia.
  - cbn [fmap list_fmap stream_run stream_step]. simpl length in *. rewrite Z.mod_small by lia.
    destruct l as [|x l].
    + rewrite app_nil_r. destruct (Z.ltb_spec c (Z.of_nat (length D))); [lia|].
      assert (Hgen : forall us c, Z.of_nat (length D) <= c -> c + Z.of_nat (length us) < W ->
        stream_run W D c (VWrite <$> us) = (VBool <$> replicate (length us) false, D, c + Z.of_nat (length us))).
      { clear -W. induction us as [|u us IH]; intros c Hc H; cbn [fmap list_fmap stream_run stream_step].
        - simpl. f_equal. lia.
        - simpl length in *. destruct (Z.ltb_spec c (Z.of_nat (length D))); [lia|]. rewrite Z.mod_small by lia.
          rewrite IH by lia. simpl. f_equal. lia. }
      rewrite Hgen by lia. simpl. rewrite app_nil_r. f_equal. lia.
    + destruct (Z.ltb_spec c (Z.of_nat (length (D ++ x :: l)))) as [_|Hn]; [|rewrite app_length in Hn; simpl in Hn; lia].
      replace (<[Z.to_nat c:=w]> (D ++ x :: l)) with ((D ++ [w]) ++ l).
      2:{ subst c. rewrite Nat2Z.id. rewrite insert_app_r_alt, Nat.sub_diag by lia. simpl. by rewrite <- app_assoc. }
      rewrite (IH (D ++ [w]) l (c + 1)); [|rewrite app_length; simpl; lia|lia].
      simpl. rewrite <- app_assoc. simpl. f_equal. lia.
Qed.

Lemma stream_reads W (n : nat) : forall (l : list Z) c, 0 <= c -> c + Z.of_nat n < W ->
  stream_run W l c (replicate n VRead) =
    ((fun i => match l !! i with Some x => VByte true (Some x) | None => VByte false None end) <$> seq (Z.to_nat c) n,
     l, c + Z.of_nat n).
Proof.
  induction n as [|n IH]; intros l c Hc HW.
  - simpl. f_equal. lia.
  - cbn [replicate stream_run stream_step]. rewrite Z.mod_small by lia. rewrite IH by lia.
    cbn [seq fmap list_fmap]. replace (S (Z.to_nat c)) with (Z.to_nat (c + 1)) by lia. f_equal. lia.
Qed.

Lemma stream_run_app W ops1 : forall l c ops2,
  stream_run W l c (ops1 ++ ops2) =
    let '(o1, l1, c1) := stream_run W l c ops1 in
    let '(o2, l2, c2) := stream_run W l1 c1 ops2 in (o1 ++ o2, l2, c2).
Proof.
  induction ops1 as [|op ops1 IH]; intros l c ops2; cbn [app stream_run].
  - destruct (stream_run W l c ops2) as [[??]?]; done.
  - destruct (stream_step W l c op) as [[o l1] c1]. rewrite IH.
    destruct (stream_run W l1 c1 ops1) as [[o1 l2] c2]. destruct (stream_run W l2 c2 ops2) as [[o2 l3] c3]. done.
Qed.

(** Write [ws], reset, then read [n] times: the first [capacity] writes succeed and are
    stored consecutively, the others return false; the reads return the contents in order
    and then false; the count is the number of attempts since the reset. *)
Theorem C36_write_reset_read : forall p m b pre l post ws n,
  bytes_at p m b pre l post -> Z.of_nat (length ws) <= size_max p -> Z.of_nat n <= size_max p ->
  let cap := length l in
  let l' := take cap ws ++ drop (length ws) l in
  vrun p m (MkBvec b 0) ((VWrite <$> ws) ++ [VCount; VReset] ++ replicate n VRead ++ [VCount]) =
    Ok ((VBool <$> (replicate (Nat.min (length ws) cap) true ++ replicate (length ws - cap) false)) ++
        [VNum (Z.of_nat (length ws)); VUnit] ++
        (((fun x => VByte true (Some x)) <$> take n l') ++ replicate (n - cap) (VByte false None)) ++
        [VNum (Z.of_nat n)],
        with_contents m b pre l' post, MkBvec b (Z.of_nat n)).
Proof.
  intros p m b pre l post ws n Hb Hws Hn cap l'.
  apply C36_bvec_history with (l := l); try done.
  - unfold size_max; destruct p; simpl; lia.
  - repeat (apply Forall_app; split).
    + apply Forall_fmap, Forall_true. done.
    + repeat constructor.
    + apply Forall_replicate. done.
    + repeat constructor.
  - assert (HW : size_max p = size_mod p - 1) by done.
    rewrite stream_run_app, (stream_writes _ ws [] l 0); [|done|lia]. rewrite app_nil_l.
    fold cap. fold l'. rewrite stream_run_app. cbn [stream_run stream_step].
    rewrite stream_run_app, stream_reads by lia. cbn [stream_run stream_step].
    rewrite !Z.add_0_l. do 2 f_equal. f_equal. f_equal. f_equal. f_equal.
    assert (Hl' : length l' = cap). { subst l' cap. rewrite app_length, take_length, drop_length. lia. }
    clear -Hl'. revert Hl'. simpl Z.to_nat. generalize l'. clear l'. intros l' <-. clear.
    assert (G : forall n (k l : list Z), (fun i => match (k ++ l) !! i with Some x => VByte true (Some x) | None => VByte false None end) <$> seq (length k) n
       = ((fun x => VByte true (Some x)) <$> take n l) ++ replicate (n - length l) (VByte false None)).
    { clear. induction n as [|n IH]; intros k l; [done|]. cbn [seq fmap list_fmap]. destruct l as [|x l].
      - rewrite app_nil_r. rewrite lookup_ge_None_2 by lia. simpl. f_equal.
        specialize (IH k []). rewrite app_nil_r in IH. simpl in IH. rewrite Nat.sub_0_r, take_nil in IH. simpl in IH.
        rewrite <- IH. clear IH. assert (G : forall a, (length k <= a)%nat ->
          (fun i => match k !! i with Some x => VByte true (Some x) | None => VByte false None end) <$> seq (S a) n =
          (fun i => match k !! i with Some x => VByte true (Some x) | None => VByte false None end) <$> seq a n).
        { induction n as [|n IH]; intros a Ha; [done|]. cbn [seq fmap list_fmap]. rewrite !lookup_ge_None_2 by lia. f_equal. apply IH. lia. }
        by apply G.
      - rewrite list_lookup_middle by done. simpl. f_equal.
        specialize (IH (k ++ [x]) l). rewrite app_length in IH. simpl in IH. rewrite Nat.add_1_r, <- app_assoc in IH. exact IH. }
    exact (G n [] l').
Qed.
Print Assumptions C36_write_reset_read.

Example C36_example :
  let b := MkBbuf (Ptr 0 1) 3 in
  bytes_at P64 [[9;1;2;3;9]] b [9] [1;2;3] [9] /\
  vrun P64 [[9;1;2;3;9]] (MkBvec b 0) [VWrite 7; VAvailable; VWrite 8; VSetCount 2; VRead; VRead; VAvailable; VReset; VRead; VCount] =
    Ok ([VBool true; VNum 2; VBool true; VUnit; VByte true (Some 3); VByte false None; VNum 0; VUnit; VByte true (Some 7); VNum 1],
        [[9;7;8;3;9]], MkBvec b 1).
Proof. split; [by repeat split|]. vm_compute. done. Qed.
(** the cursor wraps: 2^width attempts later the stream starts again *)
Example C36_wrap : forall p, vrun p [[5]] (MkBvec (MkBbuf (Ptr 0 0) 1) (size_max p)) [VRead; VRead] =
  Ok ([VByte false None; VByte true (Some 5)], [[5]], MkBvec (MkBbuf (Ptr 0 0) 1) 1).
Proof. intros []; vm_compute; done. Qed.
