(** * mu_bvec: the text against the model *)
From Verif Require Import BbufModel BvecModel.
From Verif Require Import CSym SrcBvec BbufSrc BbufSrc2 BbufSrc3 BbufSrc4 BbufSrc5 BbufSrc7.
Open Scope string_scope. Open Scope Z_scope.
Notation length := List.length.
Section bbuf.
Context (p : plat) (fuel : nat) (base : nat) (pr : val -> val -> Z -> bool).
Notation call d := (CLang.call p bvec_prog fuel (libc p) (user_pred pr) d).
Notation pv := (ptrval base).
Notation mrep := (mrep base).
Notation isb := (isb base).
Notation fits := (fits p fuel).
Notation T := (Tptr (Tstruct "mu_bbuf_t")).
Notation U8 := (Tint false W8).
Implicit Types (M : mem) (m : memory).
Notation lp d n c st bd := (loop n (CLang.test p bvec_prog (call d) (user_pred pr) c) (CLang.exec p bvec_prog (call d) (user_pred pr) fuel bd) (CLang.exec p bvec_prog (call d) (user_pred pr) fuel st)).
Notation sset := (sset base).
Notation frame := (frame base).
Notation bput := (bput base).
Ltac csw := repeat first [rewrite st_1 | rewrite st_2 | hstep | cti | cstep | progress change (Z.opp 1) with (-1) | progress change (0 + 0) with 0].
Ltac call_hook ::= first [erewrite src_capacity by eassumption | erewrite src_bytes_ro by eassumption | erewrite src_bytes_rw by eassumption | erewrite src_is_decimal by eassumption].

(** A mu_bvec_t: the buffer is the first field of the object, then the count. *)
Definition isv M (s : nat) (v : bvec) : Prop := exists rest, heap M !! s = Some (pv (bytes (vbuf v)) :: VI (capacity (vbuf v)) :: VI (vcount v) :: rest).
Definition vslot M (s : nat) : Prop := exists x y z rest, heap M !! s = Some (x :: y :: z :: rest).
Definition vput M (s : nat) (v : bvec) : mem :=
  MkMem (match heap M !! s with Some (_ :: _ :: _ :: rest) => <[s := pv (bytes (vbuf v)) :: VI (capacity (vbuf v)) :: VI (vcount v) :: rest]> (heap M) | _ => heap M end) (next M).
Lemma isv_isb M s v : isv M s v -> isb M s (vbuf v).
Proof. intros [rest H]. eexists. exact H. Qed.
Lemma isv_vslot M s v : isv M s v -> vslot M s.
Proof. intros [rest H]. do 4 eexists. exact H. Qed.
Lemma vslot_slot M s : vslot M s -> slot M s.
Proof. intros (x & y & z & rest & H). do 3 eexists. exact H. Qed.
Lemma vput_isv M s v : vslot M s -> isv (vput M s v) s v.
Proof. intros (x & y & z & rest & H). unfold vput, isv. rewrite H. exists rest. cbn [heap]. by rewrite lookup_insert. Qed.
Lemma vput_ne M s v k : k <> s -> heap (vput M s v) !! k = heap M !! k.
Proof. intros Hn. unfold vput. cbn [heap]. destruct (heap M !! s) as [[|?[|?[|??]]]|]; try done. by rewrite lookup_insert_ne by done. Qed.
Lemma vput_mrep M m s v : (forall k, (k < length m)%nat -> s <> (base + k)%nat) -> mrep M m -> mrep (vput M s v) m.
Proof. intros Hn Hm k d Hk. rewrite vput_ne; [by apply Hm|]. intros E. eapply Hn; [eapply lookup_lt_Some; exact Hk|done]. Qed.
Notation TV := (Tptr (Tstruct "mu_bvec_t")).
Lemma src_bvec_reset d M s v : isv M s v -> call (S d) "mu_bvec_reset" [VP s 0] M = Ok (VP s 0, TV, vput M s (mu_bvec_reset v)).
Proof. intros [rest H]. unfold vput, mu_bvec_reset. cbn [vbuf vcount]. rewrite H. unfold ptrval in *. erewrite call_S by reflexivity. csw. reflexivity. Qed.
Lemma src_bvec_reset_raw d M s b z rest : heap M !! s = Some (pv (bytes b) :: VI (capacity b) :: z :: rest) -> call (S d) "mu_bvec_reset" [VP s 0] M = Ok (VP s 0, TV, vput M s (MkBvec b 0)).
Proof. intros H. unfold vput. cbn [vbuf vcount]. rewrite H. unfold ptrval in *. erewrite call_S by reflexivity. csw. reflexivity. Qed.
Lemma sset_vput M s b v : vslot M s -> vput (sset M s b) s v = vput M s v.
Proof. intros (x & y & z & rest & H). unfold BbufSrc4.sset, vput. rewrite H. cbn [heap next]. rewrite lookup_insert, insert_insert. reflexivity. Qed.
Lemma src_bvec_init d M s s2 v b : vslot M s -> isb M s2 b -> 0 <= capacity b < size_mod p ->
  call (S (S d)) "mu_bvec_init" [VP s 0; VP s2 0] M = Ok (VP s 0, TV, vput M s (mu_bvec_init v b)).
Proof.
  intros Hs Hb Hc. pose proof (src_copy p fuel base pr d M s s2 b (vslot_slot _ _ Hs) Hb Hc) as Hcp.
  assert (Hr : call (S d) "mu_bvec_reset" [VP s 0] (sset M s b) = Ok (VP s 0, TV, vput M s (mu_bvec_init v b))).
  { rewrite <- (sset_vput M s b) by done. destruct b as [q c]. destruct Hs as (x & y & z & rest & H). eapply (src_bvec_reset_raw d _ s (MkBbuf q c) z rest). unfold BbufSrc4.sset. rewrite H. cbn [heap]. apply lookup_insert. }
  erewrite call_S by reflexivity. csw. reflexivity.
Qed.
Lemma src_bvec_init_ro d M s v q c : vslot M s -> 0 <= c < size_mod p ->
  call (S (S d)) "mu_bvec_init_ro" [VP s 0; pv q; VI c] M = Ok (VP s 0, TV, vput M s (mu_bvec_init_ro v q c)) /\
  call (S (S d)) "mu_bvec_init_rw" [VP s 0; pv q; VI c] M = Ok (VP s 0, TV, vput M s (mu_bvec_init_rw v q c)).
Proof.
  intros Hs Hc. pose proof (src_init_ro p fuel base pr d M s q c (vslot_slot _ _ Hs) Hc) as Hro. pose proof (src_init_rw p fuel base pr d M s q c (vslot_slot _ _ Hs) Hc) as Hrw.
  assert (Hr : call (S d) "mu_bvec_reset" [VP s 0] (sset M s (MkBbuf q c)) = Ok (VP s 0, TV, vput M s (MkBvec (MkBbuf q c) 0))).
  { rewrite <- (sset_vput M s (MkBbuf q c)) by done. destruct Hs as (x & y & z & rest & H). eapply (src_bvec_reset_raw d _ s (MkBbuf q c) z rest). unfold BbufSrc4.sset. rewrite H. cbn [heap]. apply lookup_insert. }
  unfold ptrval in *. split; erewrite call_S by reflexivity; csw; reflexivity.
Qed.
Lemma src_bvec_get d M s v : isv M s v -> 0 <= capacity (vbuf v) < size_mod p -> 0 <= vcount v < size_mod p ->
  call (S (S d)) "mu_bvec_get_bbuf" [VP s 0] M = Ok (VP s 0, T, M) /\
  call (S (S d)) "mu_bvec_get_capacity" [VP s 0] M = Ok (VI (mu_bvec_get_capacity v), Tsize, M) /\
  call (S (S d)) "mu_bvec_get_count" [VP s 0] M = Ok (VI (mu_bvec_get_count v), Tsize, M) /\
  call (S (S d)) "mu_bvec_get_available" [VP s 0] M = Ok (VI (mu_bvec_get_available p v), Tsize, M).
Proof.
  intros Hv Hc Hn. pose proof (src_capacity p fuel base pr d M s (vbuf v) (isv_isb _ _ _ Hv) Hc) as Hcap. destruct Hv as [rest H]. unfold ptrval in H. pose proof (to_size_range p (capacity (vbuf v) - vcount v)) as Hts.
  unfold mu_bvec_get_capacity, mu_bvec_get_count, mu_bvec_get_available, mu_bbuf_capacity.
  split; [|split; [|split]].
  1-3: erewrite call_S by reflexivity; csw; reflexivity.
  destruct (capacity (vbuf v) <? vcount v) eqn:E; erewrite call_S by reflexivity; csw; reflexivity.
Qed.
Lemma src_bvec_set_count d M s v n : isv M s v -> 0 <= n < size_mod p ->
  call (S d) "mu_bvec_set_count" [VP s 0; VI n] M = Ok (VI 0, Tvoid, vput M s (mu_bvec_set_count v n)).
Proof. intros [rest H] Hn. unfold vput, mu_bvec_set_count. cbn [vbuf vcount]. rewrite H. unfold ptrval in *. erewrite call_S by reflexivity. csw. reflexivity. Qed.
Lemma src_bvec_ref d M m s v i r : mrep M m -> isv M s v -> 0 <= capacity (vbuf v) < size_mod p -> 0 <= i < size_mod p -> mu_bvec_ref m v i = Ok r ->
  call (S (S d)) "mu_bvec_ref_ro" [VP s 0; VI i] M = Ok (match r with Some q => pv q | None => VI 0 end, Tptr U8, M) /\
  call (S (S d)) "mu_bvec_ref_rw" [VP s 0; VI i] M = Ok (match r with Some q => pv q | None => VI 0 end, Tptr U8, M).
Proof.
  intros Hm Hv Hc Hi Hr. destruct (src_ref p fuel base pr d M m s (vbuf v) i r Hm (isv_isb _ _ _ Hv) Hc Hi Hr) as [H1 H2].
  destruct r as [q|]; unfold ptrval in *; split; erewrite call_S by reflexivity; csw; reflexivity.
Qed.
(** the out-pointer of read_byte: cell 0 of an object o which is not the struct *)
Definition oset0 M (o : nat) (x : val) : mem := MkMem (match heap M !! o with Some (_ :: r) => <[o := x :: r]> (heap M) | _ => heap M end) (next M).
Lemma src_bvec_read_byte d M m s v o f x v' : mrep M m -> isv M s v -> 0 <= capacity (vbuf v) < size_mod p -> 0 <= vcount v < size_mod p -> (forall k, (k < length m)%nat -> s <> (base + k)%nat) ->
  o <> s -> (exists y r, heap M !! o = Some (y :: r)) -> mu_bvec_read_byte p m v = Ok (f, x, v') ->
  call (S (S (S d))) "mu_bvec_read_byte" [VP s 0; VP o 0] M = Ok (truth f, Tbool, match x with Some b => oset0 (vput M s v') o (VI b) | None => vput M s v' end).
Proof.
  intros Hm Hv Hc Hn Hne Ho (y & r & Hor) Hr. unfold mu_bvec_read_byte, count_post_inc in Hr. cbv beta iota zeta in Hr. set (v1 := MkBvec (vbuf v) (to_size p (vcount v + 1))) in *.
  destruct (mu_bvec_ref m v1 (vcount v)) as [q| |] eqn:Eq; try discriminate Hr. cbn [bind] in Hr.
  pose proof (vput_mrep M m s v1 Hne Hm) as Hm1. pose proof (vput_isv M s v1 (isv_vslot _ _ _ Hv)) as Hv1.
  destruct (src_bvec_ref d _ m s v1 (vcount v) q Hm1 Hv1 Hc Hn Eq) as [Hro _].
  assert (Hor1 : heap (vput M s v1) !! o = Some (y :: r)) by (rewrite vput_ne by done; exact Hor).
  assert (Hvp : vput M s v1 = MkMem (heap (vput M s v1)) (next M)) by done.
  destruct Hv as [rest H]. unfold ptrval in H. pose proof (to_size_range p (vcount v + 1)) as Hts.
  assert (Hp1 : vput M s v1 = MkMem (<[s := VP (base + blk (bytes (vbuf v))) (off (bytes (vbuf v))) :: VI (capacity (vbuf v)) :: VI (to_size p (vcount v + 1)) :: rest]> (heap M)) (next M)) by (unfold vput; rewrite H; reflexivity).
  rewrite Hp1 in Hro.
  destruct q as [q|].
  - destruct (rd m q 0) as [b| |] eqn:Eb; try discriminate Hr. cbn [bind] in Hr. injection Hr as <- <- <-. destruct (rd_inv base _ _ _ _ _ Hm1 Eb) as (c & Hc1 & Hc2 & Hc3 & Hc4). rewrite Z.add_0_r in Hc2, Hc3. unfold oset0. rewrite Hor1. rewrite Hp1 in *. cbn [heap next] in *. unfold ptrval in *.
    erewrite call_S by reflexivity. csw. reflexivity.
  - injection Hr as <- <- <-. rewrite Hp1. erewrite call_S by reflexivity. csw. reflexivity.
Qed.
Lemma src_bvec_write_byte d M m s v b f v' m' : mrep M m -> isv M s v -> 0 <= capacity (vbuf v) < size_mod p -> 0 <= vcount v < size_mod p -> (forall k, (k < length m)%nat -> s <> (base + k)%nat) ->
  0 <= b < 256 -> mu_bvec_write_byte p m v b = Ok (f, v', m') ->
  exists M', call (S (S (S d))) "mu_bvec_write_byte" [VP s 0; VI b] M = Ok (truth f, Tbool, M') /\ mrep M' m' /\ isv M' s v' /\ frame (vput M s v') M' m.
Proof.
  intros Hm Hv Hc Hn Hne Hb Hr. unfold mu_bvec_write_byte, count_post_inc in Hr. cbv beta iota zeta in Hr. set (v1 := MkBvec (vbuf v) (to_size p (vcount v + 1))) in *.
  destruct (mu_bvec_ref m v1 (vcount v)) as [q| |] eqn:Eq; try discriminate Hr. cbn [bind] in Hr.
  pose proof (vput_mrep M m s v1 Hne Hm) as Hm1. pose proof (vput_isv M s v1 (isv_vslot _ _ _ Hv)) as Hv1.
  destruct (src_bvec_ref d _ m s v1 (vcount v) q Hm1 Hv1 Hc Hn Eq) as [_ Hrw].
  destruct Hv as [rest H]. unfold ptrval in H. pose proof (to_size_range p (vcount v + 1)) as Hts.
  assert (Hp1 : vput M s v1 = MkMem (<[s := VP (base + blk (bytes (vbuf v))) (off (bytes (vbuf v))) :: VI (capacity (vbuf v)) :: VI (to_size p (vcount v + 1)) :: rest]> (heap M)) (next M)) by (unfold vput; rewrite H; reflexivity).
  rewrite Hp1 in Hrw.
  destruct q as [q|].
  - destruct (wr m q 0 b) as [m1| |] eqn:Ew; try discriminate Hr. cbn [bind] in Hr. injection Hr as <- <- <-. pose proof (wr_len _ _ _ _ _ Ew) as [Hlt _]. destruct (wr_inv base (vput M s v1) m q 0 b m1 Hm1 Ew Hb) as (dd & d' & H1 & H2 & H3 & -> & H5). rewrite Z.add_0_r in H2, H3.
    exists (bput (vput M s v1) (blk q) d'). split; [|split; [exact H5|split; [|by apply bput_frame]]].
    + unfold BbufSrc5.bput. rewrite Hp1 in *. cbn [heap next] in *. unfold ptrval in *. erewrite call_S by reflexivity. csw. reflexivity.
    + destruct Hv1 as [r2 Hr2]. exists r2. unfold BbufSrc5.bput. cbn [heap]. rewrite lookup_insert_ne; [exact Hr2|]. intros E. by apply (Hne (blk q)).
  - injection Hr as <- <- <-. exists (vput M s v1). split; [|split; [exact Hm1|split; [exact Hv1|apply frame_refl]]]. rewrite Hp1. erewrite call_S by reflexivity. csw. reflexivity.
Qed.
End bbuf.
