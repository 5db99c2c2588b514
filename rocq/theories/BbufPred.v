(** * Property C89 (mu_bbuf): predicates with state *)
From Verif Require Import CSem BbufModel BbufSpec BbufProofs BbufProofs2 BbufProofs3 BbufProps.

(** The predicate gets a void* argument, so it may keep state (a bracket counter, a parser
    state) and its answer for a byte may depend on all earlier calls.  [pred s x] is a call
    in state [s].  The definitions are those of BbufModel.v with the state passed through;
    C89_stateless shows that they agree when the answers do not depend on the state.
    Simplification: the predicate does not change the buffer. *)
Section pred.
Context {St : Type} (pred : St -> Z -> St * bool).

(** mu_bbuf.c:230-240 *)
Fixpoint find_predicate_loop_s (fuel : nat) (s : St) (m : memory) (bytes : ptr) (idx cap : Z) : res (St * Z) :=
  if idx <? cap then
    match fuel with
    | O => NoFuel
    | S f =>
      let* x := rd m bytes 0 in
      let* bytes := padd m bytes 1 in
      let '(s, r) := pred s x in
      if negb r then Ok (s, idx)
      else let* idx := iadd idx 1 in find_predicate_loop_s f s m bytes idx cap
    end
  else Ok (s, MU_BBUF_NOT_FOUND).
Definition mu_bbuf_find_predicate_s (s : St) (m : memory) (b : bbuf) : res (St * Z) :=
  let cap := to_int (mu_bbuf_capacity b) in
  find_predicate_loop_s (Z.to_nat cap) s m (mu_bbuf_bytes_ro b) 0 cap.
(** mu_bbuf.c:242-252 *)
Fixpoint rfind_predicate_loop_s (fuel : nat) (s : St) (m : memory) (bytes : ptr) (idx : Z) : res (St * Z) :=
  if 0 <? idx then
    match fuel with
    | O => NoFuel
    | S f =>
      let* bytes := padd m bytes (-1) in
      let* x := rd m bytes 0 in
      let '(s, r) := pred s x in
      if negb r then let* i := isub idx 1 in Ok (s, i)
      else let* idx := isub idx 1 in rfind_predicate_loop_s f s m bytes idx
    end
  else Ok (s, MU_BBUF_NOT_FOUND).
Definition mu_bbuf_rfind_predicate_s (s : St) (m : memory) (b : bbuf) : res (St * Z) :=
  let cap := to_int (mu_bbuf_capacity b) in
  let* bytes := padd m (mu_bbuf_bytes_ro b) cap in
  rfind_predicate_loop_s (Z.to_nat cap) s m bytes cap.
(** mu_bbuf.c:260-269 *)
Definition mu_bbuf_ltrim_s (p : plat) (s : St) (m : memory) (e : senv) (dst b : nat) : res (St * senv) :=
  let* v := sget e b in
  let* '(s, idx) := mu_bbuf_find_predicate_s s m v in
  let* e := (if idx =? MU_BBUF_NOT_FOUND then mu_bbuf_copy e dst b
             else mu_bbuf_slice p m e dst b idx MU_BBUF_END) in Ok (s, e).
(** mu_bbuf.c:271-280 *)
Definition mu_bbuf_rtrim_s (p : plat) (s : St) (m : memory) (e : senv) (dst b : nat) : res (St * senv) :=
  let* v := sget e b in
  let* '(s, idx) := mu_bbuf_rfind_predicate_s s m v in
  let* e := (if idx =? MU_BBUF_NOT_FOUND then mu_bbuf_copy e dst b
             else mu_bbuf_slice p m e dst b 0 idx) in Ok (s, e).
(** mu_bbuf.c:254-258 *)
Definition mu_bbuf_trim_s (p : plat) (s : St) (m : memory) (e : senv) (dst b : nat) : res (St * senv) :=
  let* '(s, e) := mu_bbuf_ltrim_s p s m e dst b in
  mu_bbuf_rtrim_s p s m e dst dst.

(** ** Specification: the calls made on the bytes [l], in this order, up to and including the
    first rejected one; the state after them and how many bytes were accepted before the
    rejection ([None]: no byte was rejected). *)
Fixpoint scan (s : St) (l : list Z) : St * option nat :=
  match l with
  | [] => (s, None)
  | x :: l => match pred s x with
              | (s, false) => (s, Some O)
              | (s, true) => match scan s l with (s, Some n) => (s, Some (S n)) | (s, None) => (s, None) end
              end
  end.
Lemma scan_lt s l s' n : scan s l = (s', Some n) -> (n < length l)%nat.
Proof.
  revert s s' n. induction l as [|x l IH]; intros s s' n H; simpl in H; [done|].
  destruct (pred s x) as [s1 []]; [|injection H as _ <-; simpl; lia].
  destruct (scan s1 l) as [s2 [k|]] eqn:E; [|done]. injection H as _ <-. apply IH in E. simpl. lia.
Qed.

Lemma find_loop_s_ok m l post : forall k d q pre fuel s,
  Z.of_nat (length l) <= int_max ->
  at_ m q pre (k ++ post) -> l = d ++ k -> (length k <= fuel)%nat ->
  find_predicate_loop_s fuel s m q (Z.of_nat (length d)) (Z.of_nat (length l)) =
  Ok (fst (scan s k), match snd (scan s k) with Some n => Z.of_nat (length d + n) | None => MU_BBUF_NOT_FOUND end).
Proof.
  induction k as [|x k IH]; intros d q pre fuel s Hm Ha Hl Hf.
  - rewrite app_nil_r in Hl. subst d. destruct fuel; cbn [find_predicate_loop_s]; zb; try lia; done.
  - assert (Hlen : length l = (length d + S (length k))%nat) by (rewrite Hl, app_length; done).
    destruct fuel as [|fuel]; simpl in Hf; [lia|]. cbn [find_predicate_loop_s scan].
    destruct (Z.ltb_spec (Z.of_nat (length d)) (Z.of_nat (length l))); [|lia].
    rewrite (at_rd _ _ _ _ _ Ha). cbn [bind].
    destruct (at_next _ _ _ _ _ Ha) as (q' & -> & Ha' & _). cbn [bind].
    destruct (pred s x) as [s1 []]; cbn [negb].
    + unfold iadd. rewrite ichk_ok by (unfold int_min, int_max in *; lia). cbn [bind].
      replace (Z.of_nat (length d) + 1) with (Z.of_nat (length (d ++ [x]))) by (rewrite app_length; simpl; lia).
      rewrite (IH (d ++ [x]) q' (pre ++ [x])); [|done|done|by rewrite <- app_assoc|lia].
      destruct (scan s1 k) as [s2 [n|]]; cbn [fst snd]; [|done]. rewrite app_length. simpl. do 2 f_equal. lia.
    + cbn [fst snd]. do 2 f_equal. lia.
Qed.
Lemma rfind_loop_s_ok m l : forall k d q pre post fuel s,
  Z.of_nat (length l) <= int_max ->
  at_ m q (pre ++ k) post -> l = k ++ d -> (length k <= fuel)%nat ->
  rfind_predicate_loop_s fuel s m q (Z.of_nat (length k)) =
  Ok (fst (scan s (reverse k)), match snd (scan s (reverse k)) with Some n => Z.of_nat (length k) - 1 - Z.of_nat n | None => MU_BBUF_NOT_FOUND end).
Proof.
  induction k as [|x k IH] using rev_ind; intros d q pre post fuel s Hm Ha Hl Hf.
  - destruct fuel; done.
  - assert (Hlen : length l = (length k + S (length d))%nat) by (rewrite Hl, !app_length; simpl; lia).
    rewrite reverse_snoc. rewrite app_length in *. simpl in Hf. destruct fuel as [|fuel]; [lia|]. cbn [rfind_predicate_loop_s scan].
    destruct (Z.ltb_spec 0 (Z.of_nat (length k + length [x]))); [|simpl in *; lia].
    rewrite app_assoc in Ha.
    destruct (at_prev _ _ _ _ _ Ha) as (q' & -> & Ha' & _). cbn [bind].
    rewrite (at_rd _ _ _ _ _ Ha'). cbn [bind].
    unfold isub. rewrite ichk_ok by (unfold int_min, int_max in *; simpl; lia).
    replace (Z.of_nat (length k + length [x]) - 1) with (Z.of_nat (length k)) by (simpl; lia).
    destruct (pred s x) as [s1 []]; cbn [negb bind].
    + rewrite (IH ([x] ++ d) q' pre (x :: post)); [|done|done|by rewrite Hl, <- app_assoc|lia].
      destruct (scan s1 (reverse k)) as [s2 [n|]]; cbn [fst snd]; [|done]. do 2 f_equal. lia.
    + cbn [fst snd]. do 2 f_equal. lia.
Qed.
Lemma find_s_ok s m b pre l post : buf_at m b pre l post ->
  mu_bbuf_find_predicate_s s m b = Ok (fst (scan s l), match snd (scan s l) with Some n => Z.of_nat n | None => MU_BBUF_NOT_FOUND end).
Proof.
  intros Hb. unfold mu_bbuf_find_predicate_s, mu_bbuf_capacity, mu_bbuf_bytes_ro.
  pose proof (buf_at_cap _ _ _ _ _ Hb) as [-> Hc]. apply buf_at_at in Hb.
  apply (find_loop_s_ok m l post l [] (bytes b) pre); try done; lia.
Qed.
Lemma rfind_s_ok s m b pre l post : buf_at m b pre l post ->
  mu_bbuf_rfind_predicate_s s m b = Ok (fst (scan s (reverse l)),
    match snd (scan s (reverse l)) with Some n => Z.of_nat (length l) - 1 - Z.of_nat n | None => MU_BBUF_NOT_FOUND end).
Proof.
  intros Hb. unfold mu_bbuf_rfind_predicate_s, mu_bbuf_capacity, mu_bbuf_bytes_ro.
  pose proof (buf_at_cap _ _ _ _ _ Hb) as [-> Hc]. apply buf_at_at in Hb.
  destruct (at_padd _ _ _ _ _ _ Hb eq_refl) as (q & -> & Ha & _). cbn [bind].
  apply (rfind_loop_s_ok m l l [] q pre post); try done; try lia. by rewrite app_nil_r.
Qed.

(** what ltrim removes: the accepted bytes, unless all are accepted; what rtrim keeps: the
    bytes before the last rejected one, unless all are accepted *)
Definition lcut (n : option nat) : nat := match n with Some k => k | None => 0 end.
Definition rkeep (l : list Z) (n : option nat) : nat := match n with Some k => (length l - 1 - k)%nat | None => length l end.

Lemma slice_of_nat (l : list Z) a b : slice_of l (Z.of_nat a) (Z.of_nat b) = take (b - a) (drop a l).
Proof. unfold slice_of. rewrite Nat2Z.id. f_equal. lia. Qed.
Lemma ltrim_s_ok p s m e dst src b pre l post :
  e !! src = Some b -> is_Some (e !! dst) -> buf_at m b pre l post ->
  let n := lcut (snd (scan s l)) in
  exists b', mu_bbuf_ltrim_s p s m e dst src = Ok (fst (scan s l), <[dst := b']> e) /\
    part_of m b pre post b' (take n l) (drop n l) [].
Proof.
  intros Hs [d Hd] Hb n. unfold mu_bbuf_ltrim_s, sget. rewrite Hs. cbn [bind]. rewrite (find_s_ok s m b pre l post Hb). cbn [bind].
  pose proof (buf_at_cap _ _ _ _ _ Hb) as [_ Hc].
  destruct (scan s l) as [s1 [k|]] eqn:E; cbn [fst snd lcut] in *.
  - pose proof (scan_lt _ _ _ _ E) as Hk. subst n.
    destruct (Z.eqb_spec (Z.of_nat k) MU_BBUF_NOT_FOUND) as [H|_]; [unfold MU_BBUF_NOT_FOUND in H; lia|].
    assert (N1 : norm_index (Z.of_nat (length l)) (Z.of_nat k) = Z.of_nat k).
    { unfold norm_index. rewrite decide_False by lia. lia. }
    assert (N2 : norm_index (Z.of_nat (length l)) MU_BBUF_END = Z.of_nat (length l)).
    { unfold norm_index, MU_BBUF_END, int_max in *. rewrite decide_False by lia. lia. }
    rewrite (slice_ok p m e dst src b d pre l post); try done; try (rewrite N1; lia); [|unfold int_min; lia].
    rewrite N1, N2, Z.max_r by lia. cbn [bind]. eexists. split; [done|].
    pose proof (slice_part m b pre l post (Z.of_nat k) (Z.of_nat (length l)) Hb ltac:(lia) ltac:(lia)) as H.
    rewrite slice_of_nat, !Nat2Z.id, drop_all in H. rewrite (take_ge (drop k l)) in H by (rewrite drop_length; lia). done.
  - rewrite Z.eqb_refl. rewrite (copy_ok e dst src b d Hs Hd). cbn [bind]. exists b. split; [done|].
    subst n. rewrite drop_0. simpl. split; [done|]. by rewrite app_nil_r.
Qed.
Lemma rtrim_s_ok p s m e dst src b pre l post :
  e !! src = Some b -> is_Some (e !! dst) -> buf_at m b pre l post ->
  let n := rkeep l (snd (scan s (reverse l))) in
  exists b', mu_bbuf_rtrim_s p s m e dst src = Ok (fst (scan s (reverse l)), <[dst := b']> e) /\
    part_of m b pre post b' [] (take n l) (drop n l).
Proof.
  intros Hs [d Hd] Hb n. unfold mu_bbuf_rtrim_s, sget. rewrite Hs. cbn [bind]. rewrite (rfind_s_ok s m b pre l post Hb). cbn [bind].
  pose proof (buf_at_cap _ _ _ _ _ Hb) as [_ Hc].
  destruct (scan s (reverse l)) as [s1 [k|]] eqn:E; cbn [fst snd rkeep] in *.
  - pose proof (scan_lt _ _ _ _ E) as Hk. rewrite reverse_length in Hk.
    replace (Z.of_nat (length l) - 1 - Z.of_nat k) with (Z.of_nat n) by (subst n; lia).
    destruct (Z.eqb_spec (Z.of_nat n) MU_BBUF_NOT_FOUND) as [H|_]; [unfold MU_BBUF_NOT_FOUND in H; lia|].
    assert (N1 : norm_index (Z.of_nat (length l)) 0 = 0).
    { unfold norm_index. rewrite decide_False by lia. lia. }
    assert (N2 : norm_index (Z.of_nat (length l)) (Z.of_nat n) = Z.of_nat n).
    { unfold norm_index, int_max in *. rewrite decide_False by lia. lia. }
    rewrite (slice_ok p m e dst src b d pre l post); try done; try (rewrite N1; lia); [|unfold int_min; lia].
    rewrite N1, N2, Z.max_r by lia. cbn [bind]. eexists. split; [done|].
    pose proof (slice_part m b pre l post (Z.of_nat 0) (Z.of_nat n) Hb ltac:(lia) ltac:(lia)) as H.
    rewrite slice_of_nat, !Nat2Z.id, drop_0, Nat.sub_0_r in H. done.
  - rewrite Z.eqb_refl. rewrite (copy_ok e dst src b d Hs Hd). cbn [bind]. exists b. split; [done|].
    subst n. rewrite firstn_all, drop_all. split; [done|]. by rewrite app_nil_r.
Qed.
End pred.

(** ** C89 *)
Theorem C89_find_stateful : forall (St : Type) (pred : St -> Z -> St * bool) s m b pre l post, buf_at m b pre l post ->
  mu_bbuf_find_predicate_s pred s m b =
    Ok (fst (scan pred s l), match snd (scan pred s l) with Some n => Z.of_nat n | None => MU_BBUF_NOT_FOUND end) /\
  mu_bbuf_rfind_predicate_s pred s m b =
    Ok (fst (scan pred s (reverse l)),
        match snd (scan pred s (reverse l)) with Some n => Z.of_nat (length l) - 1 - Z.of_nat n | None => MU_BBUF_NOT_FOUND end).
Proof. intros St pred s m b pre l post Hb. split; [by eapply find_s_ok|by eapply rfind_s_ok]. Qed.
Print Assumptions C89_find_stateful.

Theorem C89_trim_stateful : forall (St : Type) (pred : St -> Z -> St * bool) s p m e dst src b pre l post,
  e !! src = Some b -> is_Some (e !! dst) -> buf_at m b pre l post ->
  (* ltrim *)
  (let '(s1, n) := scan pred s l in
   let k := match n with Some k => k | None => O end in
   exists b', mu_bbuf_ltrim_s pred p s m e dst src = Ok (s1, <[dst := b']> e) /\
     part_of m b pre post b' (take k l) (drop k l) []) /\
  (* rtrim *)
  (let '(s1, n) := scan pred s (reverse l) in
   let k := match n with Some k => (length l - 1 - k)%nat | None => length l end in
   exists b', mu_bbuf_rtrim_s pred p s m e dst src = Ok (s1, <[dst := b']> e) /\
     part_of m b pre post b' [] (take k l) (drop k l)) /\
  (* trim: first ltrim, then rtrim on what ltrim left, with the state ltrim left *)
  (let '(s1, n1) := scan pred s l in
   let k1 := match n1 with Some k => k | None => O end in
   let l' := drop k1 l in
   let '(s2, n2) := scan pred s1 (reverse l') in
   let k2 := match n2 with Some k => (length l' - 1 - k)%nat | None => length l' end in
   exists b', mu_bbuf_trim_s pred p s m e dst src = Ok (s2, <[dst := b']> e) /\
     part_of m b pre post b' (take k1 l) (take k2 l') (drop k2 l')).
Proof.
  intros St pred s p m e dst src b pre l post Hs Hd Hb.
  assert (Hlt : (dst < length e)%nat) by (by apply lookup_lt_is_Some).
  destruct (ltrim_s_ok pred p s m e dst src b pre l post Hs Hd Hb) as (b1 & E1 & H1).
  destruct (rtrim_s_ok pred p s m e dst src b pre l post Hs Hd Hb) as (b2 & E2 & H2).
  assert (H3 : let k1 := lcut (snd (scan pred s l)) in let l' := drop k1 l in
    let r := scan pred (fst (scan pred s l)) (reverse l') in let k2 := rkeep l' (snd r) in
    exists b', mu_bbuf_trim_s pred p s m e dst src = Ok (fst r, <[dst := b']> e) /\
     part_of m b pre post b' (take k1 l) (take k2 l') (drop k2 l')).
  { cbv zeta. unfold mu_bbuf_trim_s. rewrite E1. cbn [bind]. pose proof H1 as [Hbk Hb1]. rewrite app_nil_l in Hb1.
    destruct (rtrim_s_ok pred p (fst (scan pred s l)) m (<[dst:=b1]> e) dst dst b1 _ _ post ltac:(by rewrite list_lookup_insert)
      ltac:(by rewrite list_lookup_insert) Hb1) as (b3 & E3 & Hbk3 & Hb3).
    exists b3. rewrite E3, list_insert_insert. split; [done|]. split; [congruence|]. by rewrite app_nil_r in Hb3. }
  split; [|split].
  - destruct (scan pred s l) as [s1 n]. exists b1. done.
  - destruct (scan pred s (reverse l)) as [s1 n]. exists b2. done.
  - cbv zeta in H3. destruct (scan pred s l) as [s1 n1]. cbn [fst snd] in H3. fold (lcut n1). cbv zeta.
    destruct (scan pred s1 (reverse (drop (lcut n1) l))) as [s2 n2]. exact H3.
Qed.
Print Assumptions C89_trim_stateful.

(** The definitions above are those of BbufModel.v when the answers do not depend on the state. *)
Definition value {St A} (r : res (St * A)) : res A := let* '(_, a) := r in Ok a.
Section stateless.
Context {St : Type} (pred : St -> Z -> St * bool) (f : Z -> bool) (Hf : forall s x, snd (pred s x) = f x).
Lemma find_sl fuel : forall s m q i cap, value (find_predicate_loop_s pred fuel s m q i cap) = find_predicate_loop fuel m q f i cap.
Proof.
  induction fuel as [|k IH]; intros s m q i cap; cbn [find_predicate_loop_s find_predicate_loop]; (destruct (i <? cap); [|done]); [done|].
  destruct (rd m q 0) as [x| |]; cbn [bind]; [|done|done]. destruct (padd m q 1) as [q1| |]; cbn [bind]; [|done|done].
  pose proof (Hf s x) as H. destruct (pred s x) as [s1 r]. cbn [snd] in H. subst r. destruct (f x); cbn [negb]; [|done].
  destruct (iadd i 1) as [i1| |]; cbn [bind]; [apply IH|done|done].
Qed.
Lemma rfind_sl fuel : forall s m q i, value (rfind_predicate_loop_s pred fuel s m q i) = rfind_predicate_loop fuel m q f i.
Proof.
  induction fuel as [|k IH]; intros s m q i; cbn [rfind_predicate_loop_s rfind_predicate_loop]; (destruct (0 <? i); [|done]); [done|].
  destruct (padd m q (-1)) as [q1| |]; cbn [bind]; [|done|done]. destruct (rd m q1 0) as [x| |]; cbn [bind]; [|done|done].
  pose proof (Hf s x) as H. destruct (pred s x) as [s1 r]. cbn [snd] in H. subst r.
  destruct (f x); cbn [negb]; (destruct (isub i 1) as [i1| |]; cbn [bind]; [|done|done]); [apply IH|done].
Qed.
Lemma ltrim_sl p s m e dst b : value (mu_bbuf_ltrim_s pred p s m e dst b) = mu_bbuf_ltrim p m e dst b f.
Proof.
  unfold mu_bbuf_ltrim_s, mu_bbuf_ltrim. destruct (sget e b) as [v| |]; cbn [bind]; [|done|done].
  unfold mu_bbuf_find_predicate_s, mu_bbuf_find_predicate. rewrite <- (find_sl _ s).
  destruct (find_predicate_loop_s pred _ s m _ _ _) as [[s1 i]| |]; cbn [bind value]; [|done|done].
  destruct (if i =? MU_BBUF_NOT_FOUND then _ else _) as [e1| |]; done.
Qed.
Lemma rtrim_sl p s m e dst b : value (mu_bbuf_rtrim_s pred p s m e dst b) = mu_bbuf_rtrim p m e dst b f.
Proof.
  unfold mu_bbuf_rtrim_s, mu_bbuf_rtrim. destruct (sget e b) as [v| |]; cbn [bind]; [|done|done].
  unfold mu_bbuf_rfind_predicate_s, mu_bbuf_rfind_predicate.
  destruct (padd m (mu_bbuf_bytes_ro v) _) as [q| |]; cbn [bind]; [|done|done]. rewrite <- (rfind_sl _ s).
  destruct (rfind_predicate_loop_s pred _ s m _ _) as [[s1 i]| |]; cbn [bind value]; [|done|done].
  destruct (if i =? MU_BBUF_NOT_FOUND then _ else _) as [e1| |]; done.
Qed.
End stateless.
Theorem C89_stateless : forall (St : Type) (pred : St -> Z -> St * bool) f p s m e dst src b,
  (forall s x, snd (pred s x) = f x) ->
  value (mu_bbuf_find_predicate_s pred s m b) = mu_bbuf_find_predicate m b f /\
  value (mu_bbuf_rfind_predicate_s pred s m b) = mu_bbuf_rfind_predicate m b f /\
  value (mu_bbuf_ltrim_s pred p s m e dst src) = mu_bbuf_ltrim p m e dst src f /\
  value (mu_bbuf_rtrim_s pred p s m e dst src) = mu_bbuf_rtrim p m e dst src f /\
  value (mu_bbuf_trim_s pred p s m e dst src) = mu_bbuf_trim p m e dst src f.
Proof.
  intros St pred f p s m e dst src b Hf. split; [by apply find_sl|]. split.
  { unfold mu_bbuf_rfind_predicate_s, mu_bbuf_rfind_predicate.
    destruct (padd m (mu_bbuf_bytes_ro b) _) as [q| |]; cbn [bind]; [|done|done]. by apply rfind_sl. }
  split; [by apply ltrim_sl|]. split; [by apply rtrim_sl|].
  unfold mu_bbuf_trim_s, mu_bbuf_trim. rewrite <- (ltrim_sl pred f Hf p s).
  destruct (mu_bbuf_ltrim_s pred p s m e dst src) as [[s1 e1]| |]; cbn [bind value]; [|done|done]. by apply rtrim_sl.
Qed.
Print Assumptions C89_stateless.

(** a predicate that accepts every byte but its third: on hello it stops at the first l, and,
    applied backwards, at the first l too *)
Definition third (s : nat) (x : Z) : nat * bool := (S s, negb (s =? 2)%nat).
Example C89_example :
  mu_bbuf_find_predicate_s third O ex_mem ex_hello = Ok (3%nat, 2) /\
  mu_bbuf_rfind_predicate_s third O ex_mem ex_hello = Ok (3%nat, 2) /\
  mu_bbuf_trim_s third P64 O ex_mem [ex_hello] 0 0 = Ok (6%nat, [MkBbuf (Ptr 0 3) 3]) /\
  buf_at ex_mem ex_hello [120] [104;101;108;108;111] [120].
Proof. split; [done|]. split; [done|]. split; [done|]. apply ex_hello_at. Qed.
