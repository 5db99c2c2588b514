(** * mu_jems: the translated source does what the model says, function by function *)
From Verif Require Import JsonSpec JsonParse JemsModel.
From Verif Require Import CSym SrcJems.
Open Scope string_scope. Open Scope Z_scope.

Lemma loop_S n c b st s : loop (Datatypes.S n) c b st s =
  let* '(t, s) := c s in
  if t then let* '(o, s) := b s in
    match o with
    | Next | Continued => let* '(_, s) := st s in loop n c b st s
    | Broke => Ok (Next, s)
    | Returned v t => Ok (Returned v t, s)
    end
  else Ok (Next, s).
Proof. done. Qed.

(** ** How the data are laid out *)
(** a char is signed: the byte c is the number c or c - 256 *)
Definition schar (c : Z) : val := VI (wrap_signed 256 c).
(** mu_jems_level_t *)
Definition cnt_cell (l : jlevel) : val := match item_count l with Some n => VI n | None => VU end.
Definition obj_cell (l : jlevel) : val := match is_object l with Some b => truth b | None => VU end.
Definition lcells (ls : list jlevel) : list val := concat (map (fun l => [cnt_cell l; obj_cell l]) ls).
(** what the user's writer has recorded: function, char, arg *)
Definition scells (l : list (Z * Z * Z)) : list val := concat (map (fun '(w, c, a) => [VI w; VI c; VI a]) l).

(** ** The C library (snprintf, sprintf) and the user's writer *)
(** the text produced from a format by the argument [v]; the formats of mu_jems.c: %ld and %04x *)
Fixpoint printf (n : nat) (f : list Z) (v : Z) : option (list Z) :=
  match n, f with
  | S n, c :: f =>
    if c =? 0 then Some []
    else if c =? 37 then
      match f with
      | c1 :: c2 :: f' =>
        if (c1 =? 108) && (c2 =? 100) then option_map (app (fmt_d v)) (printf n f' v)
        else match f' with
             | c3 :: f'' => if (c1 =? 48) && (c2 =? 52) && (c3 =? 120) then option_map (app (fmt_04x v)) (printf n f'' v) else None
             | _ => None
             end
      | _ => None
      end
    else option_map (cons c) (printf n f v)
  | _, _ => None
  end.
Definition nums (l : list val) : list Z := map (fun v => match v with VI z => z mod 256 | _ => 0 end) l.
(** write characters from cell [o] of an object on *)
Definition write_cells (m : mem) (b : nat) (o : Z) (l : list Z) : res mem :=
  let* c := ofopt (heap m !! b) in
  if (0 <=? o) && (o + Z.of_nat (length l) <=? Z.of_nat (length c)) then
    Ok (MkMem (<[b := (take (Z.to_nat o) c ++ (schar <$> l) ++ drop (Z.to_nat o + length l) c)%list]> (heap m)) (next m))
  else UB.
Definition libc (x : string) (vs : list val) (m : mem) : res (val * ty * mem) :=
  if String.eqb x "snprintf" then
    match vs with
    | [VP b o; VI n; VP fb fo; VI v] =>
      let* f := ofopt (heap m !! fb) in
      let* s := ofopt (printf (length f) (drop (Z.to_nat fo) (nums f)) v) in
      let* m := write_cells m b o (snprintf (Z.to_nat n) s) in
      Ok (VI (Z.of_nat (length s)), int, m)
    | _ => UB
    end
  else if String.eqb x "sprintf" then
    match vs with
    | [VP b o; VP fb fo; VI v] =>
      let* f := ofopt (heap m !! fb) in
      let* s := ofopt (printf (length f) (drop (Z.to_nat fo) (nums f)) v) in
      let* m := write_cells m b o (s ++ [0])%list in
      Ok (VI (Z.of_nat (length s)), int, m)
    | _ => UB
    end
  else UB.
(** the writer appends a record of the call to the object [lb]; it takes (char, size_t) *)
Definition user_writer (lb : nat) (f : val) (vs : list val) (m : mem) : res (val * ty * mem) :=
  match f, vs with
  | VI w, [VI c; VI a] =>
    let* l := ofopt (heap m !! lb) in
    Ok (VI 0, Tvoid, MkMem (<[lb := (l ++ [VI w; VI (c mod 256); VI a])%list]> (heap m)) (next m))
  | _, _ => UB
  end.

Lemma lcells_lookup ls : forall n, lcells ls !! (2 * n)%nat = cnt_cell <$> ls !! n /\ lcells ls !! (2 * n + 1)%nat = obj_cell <$> ls !! n.
Proof.
  induction ls as [|l ls IH]; intros n; [done|]. unfold lcells. cbn [map concat]. fold (lcells ls). destruct n as [|n]; [done|].
  replace (2 * S n)%nat with (S (S (2 * n))) by lia. replace (S (S (2 * n)) + 1)%nat with (S (S (2 * n + 1))) by lia. cbn [app lookup list_lookup]. apply IH.
Qed.
Lemma lcells_length ls : length (lcells ls) = (2 * length ls)%nat.
Proof. induction ls as [|l ls IH]; [done|]. unfold lcells in *. cbn [map concat app length]. rewrite IH. lia. Qed.
Lemma lcells_insert ls : forall n l, (n < length ls)%nat ->
  lcells (<[n := l]> ls) = <[(2 * n)%nat := cnt_cell l]> (<[(2 * n + 1)%nat := obj_cell l]> (lcells ls)).
Proof.
  induction ls as [|x ls IH]; intros n l Hn; [cbn in Hn; lia|]. destruct n as [|n]; [done|]. cbn in Hn.
  replace (2 * S n)%nat with (S (S (2 * n))) by lia. replace (S (S (2 * n)) + 1)%nat with (S (S (2 * n + 1))) by lia.
  change (lcells (<[S n:=l]> (x :: ls))) with (cnt_cell x :: obj_cell x :: lcells (<[n:=l]> ls)). rewrite IH by lia. done.
Qed.
Lemma ld_cnt ls i l : ld ls i = Ok l -> ld (lcells ls) (i * 2) = Ok (cnt_cell l).
Proof.
  intros H. pose proof (ld_bounds _ _ _ H). unfold ld in *. destruct (Z.ltb_spec i 0), (Z.ltb_spec (i * 2) 0); try lia.
  replace (Z.to_nat (i * 2)) with (2 * Z.to_nat i)%nat by lia. rewrite (proj1 (lcells_lookup _ _)). destruct (ls !! Z.to_nat i); [|done]. injection H as ->. done.
Qed.
Lemma ld_obj ls i l : ld ls i = Ok l -> ld (lcells ls) (i * 2 + 1) = Ok (obj_cell l).
Proof.
  intros H. pose proof (ld_bounds _ _ _ H). unfold ld in *. destruct (Z.ltb_spec i 0), (Z.ltb_spec (i * 2 + 1) 0); try lia.
  replace (Z.to_nat (i * 2 + 1)) with (2 * Z.to_nat i + 1)%nat by lia. rewrite (proj2 (lcells_lookup _ _)). destruct (ls !! Z.to_nat i); [|done]. injection H as ->. done.
Qed.
Lemma st_in {A} (l : list A) i x : 0 <= i < Z.of_nat (length l) -> st l i x = Ok (<[Z.to_nat i := x]> l).
Proof. intros H. unfold st. destruct (Z.leb_spec 0 i), (Z.ltb_spec i (Z.of_nat (length l))); try lia. done. Qed.
Lemma st_cnt ls i l n : ld ls i = Ok l ->
  st (lcells ls) (i * 2) (VI n) = Ok (lcells (<[Z.to_nat i := MkLevel (Some n) (is_object l)]> ls)).
Proof.
  intros H. pose proof (ld_bounds _ _ _ H). rewrite st_in by (rewrite lcells_length; lia). rewrite lcells_insert by lia.
  replace (Z.to_nat (i * 2)) with (2 * Z.to_nat i)%nat by lia. do 2 f_equal. symmetry. apply list_insert_id. rewrite (proj2 (lcells_lookup _ _)).
  unfold ld in H. destruct (i <? 0); [done|]. destruct (ls !! Z.to_nat i) as [y|]; [|done]. injection H as ->. done.
Qed.
Lemma st_obj ls i l b : ld ls i = Ok l ->
  st (lcells ls) (i * 2 + 1) (truth b) = Ok (lcells (<[Z.to_nat i := MkLevel (item_count l) (Some b)]> ls)).
Proof.
  intros H. pose proof (ld_bounds _ _ _ H). rewrite st_in by (rewrite lcells_length; lia). rewrite lcells_insert by lia.
  replace (Z.to_nat (i * 2 + 1)) with (2 * Z.to_nat i + 1)%nat by lia. f_equal. symmetry. apply list_insert_id.
  rewrite list_lookup_insert_ne by lia. rewrite (proj1 (lcells_lookup _ _)).
  unfold ld in H. destruct (i <? 0); [done|]. destruct (ls !! Z.to_nat i) as [y|]; [|done]. injection H as ->. done.
Qed.
Lemma ub_cnt ls i : 0 <= i -> ld ls i = UB -> ld (lcells ls) (i * 2) = UB /\ forall v, st (lcells ls) (i * 2) v = UB.
Proof.
  intros Hi H. apply ld_UB in H. split; [|intros v]; [unfold ld|unfold st].
  - destruct (Z.ltb_spec (i * 2) 0); [done|]. rewrite lookup_ge_None_2; [done|]. rewrite lcells_length. lia.
  - rewrite lcells_length. destruct (Z.leb_spec 0 (i * 2)), (Z.ltb_spec (i * 2) (Z.of_nat (2 * length ls))); try done; lia.
Qed.
Lemma schar_mod c : wrap_signed 256 c mod 256 = c mod 256.
Proof.
  unfold wrap_signed. cbv zeta. destruct (_ <? _); [by rewrite Z.mod_mod by lia|].
  replace (c mod 256 - 256) with (c mod 256 + (-1) * 256) by lia. rewrite Z.mod_add by lia. by rewrite Z.mod_mod by lia.
Qed.
Lemma schar_zero c : 0 <= c < 256 -> (wrap_signed 256 c =? 0) = (c =? 0).
Proof. intros H. pose proof (schar_mod c) as Hm. rewrite (Z.mod_small c) in Hm by lia. destruct (Z.eqb_spec (wrap_signed 256 c) 0) as [E|E]; [rewrite E in Hm; cbn in Hm; subst c; done|]. destruct (Z.eqb_spec c 0); [subst c; done|done]. Qed.

Lemma schar_small c : 0 <= c < 128 -> wrap_signed 256 c = c.
Proof. intros H. apply wrap_signed_id; [lia|done|]. change (256 / 2) with 128. lia. Qed.
Lemma odd_land c : (Z.land c 1 =? 0) = negb (Z.odd c).
Proof. replace (Z.land c 1) with (c mod 2) by (symmetry; apply (Z.land_ones c 1); lia). rewrite Zmod_odd. destruct (Z.odd c); done. Qed.

Section jems.
Context (p : plat) (fuel : nat) (jb vb lb : nat).
Context (Hjv : jb <> vb) (Hjl : jb <> lb) (Hvl : vb <> lb) (Hj4 : (4 < jb)%nat) (Hv4 : (4 < vb)%nat) (Hl4 : (4 < lb)%nat).
Notation call d := (CLang.call p jems_prog fuel libc (user_writer lb) d).
Notation T := (Tptr (Tstruct "mu_jems_t")).

(** mu_jems_t *)
Definition jcells (j : jems) : list val := [VP vb 0; VI (max_level j); VI (curr_level j); VI (writer j); VI (arg j)].
Record jok (j : jems) : Prop := {
  jk_max : 0 <= max_level j < size_mod p; jk_cur : 0 <= curr_level j < size_mod p; jk_arg : 0 <= arg j < size_mod p;
  jk_cnt : Forall (fun l => forall n, item_count l = Some n -> 0 <= n < size_mod p) (levels j) }.
(** the string constants of the program *)
Definition literals (m : mem) : Prop :=
  heap m !! 0%nat = Some (VI <$> lit_str_0) /\ heap m !! 1%nat = Some (VI <$> lit_str_1) /\ heap m !! 2%nat = Some (VI <$> lit_str_2) /\
  heap m !! 3%nat = Some (VI <$> lit_str_3) /\ heap m !! 4%nat = Some (VI <$> lit_str_4).
Record at_ (m : mem) (j : jems) : Prop := {
  at_j : heap m !! jb = Some (jcells j); at_v : heap m !! vb = Some (lcells (levels j)); at_l : heap m !! lb = Some (scells (sent j));
  at_lit : literals m; at_new : forall k, (next m <= k)%nat -> heap m !! k = None; at_ok : jok j }.
(** the memory with another generator state, after [k] local objects have come and gone *)
Definition put (m : mem) (j : jems) (k : nat) : mem :=
  MkMem (<[lb := scells (sent j)]> (<[vb := lcells (levels j)]> (<[jb := jcells j]> (heap m)))) (next m + k)%nat.
Lemma put_put m j k j' k' : put (put m j k) j' k' = put m j' (k + k').
Proof.
  unfold put. cbn [heap next]. rewrite <- Nat.add_assoc. f_equal. apply map_eq. intros i.
  destruct (decide (i = lb)) as [->|]; [by rewrite !lookup_insert|]. rewrite !(lookup_insert_ne _ lb) by done.
  destruct (decide (i = vb)) as [->|]; [by rewrite !lookup_insert|]. rewrite !(lookup_insert_ne _ vb) by done.
  destruct (decide (i = jb)) as [->|]; [by rewrite !lookup_insert|]. by rewrite !lookup_insert_ne by done.
Qed.
Lemma put_same m j : at_ m j -> put m j 0 = m.
Proof.
  intros [H1 H2 H3 _ _ _]. unfold put. destruct m as [h n]. cbn [heap next] in *. rewrite (insert_id h jb), (insert_id h vb), (insert_id h lb) by done. by rewrite Nat.add_0_r.
Qed.
Lemma put_other m j k b : b <> jb -> b <> vb -> b <> lb -> heap (put m j k) !! b = heap m !! b.
Proof. intros. unfold put. cbn [heap]. by rewrite !lookup_insert_ne by done. Qed.
Lemma put_at m j j' k : at_ m j -> jok j' -> at_ (put m j' k) j'.
Proof.
  intros [H1 H2 H3 H4 H5 _] Hok. assert (Hn : forall b, heap m !! b <> None -> (b < next m)%nat).
  { intros b Hb. destruct (decide (b < next m)%nat); [done|]. rewrite H5 in Hb by lia. done. }
  assert (jb < next m)%nat by (apply Hn; by rewrite H1). assert (vb < next m)%nat by (apply Hn; by rewrite H2). assert (lb < next m)%nat by (apply Hn; by rewrite H3).
  split; try done.
  - unfold put. cbn [heap]. rewrite !lookup_insert_ne by done. by rewrite lookup_insert.
  - unfold put. cbn [heap]. rewrite lookup_insert_ne by done. by rewrite lookup_insert.
  - unfold put. cbn [heap]. by rewrite lookup_insert.
  - destruct H4 as (?&?&?&?&?). unfold literals. rewrite !put_other by lia. done.
  - intros b Hb. cbn [put next] in Hb. rewrite put_other by lia. apply H5. lia.
Qed.
(** a local object, and its end *)
Definition local (m : mem) (c : list val) : mem := MkMem (<[next m := c]> (heap m)) (S (next m)).
Lemma local_at m j c : at_ m j -> at_ (local m c) j.
Proof.
  intros [H1 H2 H3 H4 H5 H6]. assert (Hn : forall b, heap m !! b <> None -> b <> next m) by (intros b Hb ->; rewrite H5 in Hb; [done|lia]).
  split; try done; cbn [local heap].
  1-3: rewrite lookup_insert_ne; [done|]; apply not_eq_sym, Hn; congruence.
  - destruct H4 as (?&?&?&?&?). unfold literals. cbn [local heap]. rewrite !lookup_insert_ne by (apply not_eq_sym, Hn; congruence). done.
  - intros k Hk. cbn [local next] in Hk. rewrite lookup_insert_ne by lia. apply H5. lia.
Qed.
Lemma local_end m j c j' k : at_ m j -> MkMem (delete (next m) (heap (put (local m c) j' k))) (next (put (local m c) j' k)) = put m j' (S k).
Proof.
  intros [H1 H2 H3 H4 H5 H6]. assert (Hn : forall b, heap m !! b <> None -> b <> next m) by (intros b Hb ->; rewrite H5 in Hb; [done|lia]).
  assert (jb <> next m) by (apply Hn; congruence). assert (vb <> next m) by (apply Hn; congruence). assert (lb <> next m) by (apply Hn; congruence).
  unfold put, local. cbn [heap next]. f_equal; [|lia]. rewrite !delete_insert_ne by congruence. rewrite delete_insert by (apply H5; lia). done.
Qed.
Lemma local_obj m j c j' k : at_ m j -> heap (put (local m c) j' k) !! next m = Some c.
Proof.
  intros [H1 H2 H3 H4 H5 H6]. assert (Hn : forall b, heap m !! b <> None -> b <> next m) by (intros b Hb ->; rewrite H5 in Hb; [done|lia]).
  rewrite put_other by (apply not_eq_sym, Hn; congruence). cbn [local heap]. by rewrite lookup_insert.
Qed.
(** *** what the model does keeps its numbers in range *)
Lemma emit_char_ok j c : jok j -> jok (emit_char j c).
Proof. intros []. by split. Qed.
Lemma set_curr_ok j n : jok j -> 0 <= n < size_mod p -> jok (set_curr_level j n).
Proof. intros []. by split. Qed.
Lemma st_Forall {A} (Q : A -> Prop) l i x l' : Forall Q l -> Q x -> st l i x = Ok l' -> Forall Q l'.
Proof. intros H Hx. unfold st. destruct (_ && _); [|done]. intros [= <-]. by apply Forall_insert. Qed.
Lemma ld_Forall {A} (Q : A -> Prop) l i x : Forall Q l -> ld l i = Ok x -> Q x.
Proof. intros H. unfold ld. destruct (_ <? _); [done|]. destruct (l !! _) eqn:E; [|done]. intros [= <-]. by eapply Forall_lookup_1. Qed.
Lemma set_count_ok j n j' : jok j -> 0 <= n < size_mod p -> set_item_count j n = Ok j' -> jok j'.
Proof.
  intros [H1 H2 H3 H4] Hn. unfold set_item_count. destruct (ld _ _) eqn:El; cbn [bind]; try done. destruct (st _ _ _) eqn:Es; cbn [bind]; try done.
  intros [= <-]. split; try done. cbn. eapply st_Forall; [exact H4| |exact Es]. intros ? [= <-]. done.
Qed.
Lemma set_object_ok j b j' : jok j -> set_is_object j b = Ok j' -> jok j'.
Proof.
  intros [H1 H2 H3 H4]. unfold set_is_object. destruct (ld _ _) eqn:El; cbn [bind]; try done. destruct (st _ _ _) eqn:Es; cbn [bind]; try done.
  intros [= <-]. split; try done. cbn. eapply st_Forall; [exact H4| |exact Es]. exact (ld_Forall _ _ _ _ H4 El).
Qed.

(** *** levels, characters *)
Ltac lits := match goal with H : literals _ |- _ => destruct H as (?&?&?&?&?) end.
Lemma src_level_ref d m j : at_ m j ->
  call (S d) "level_ref" [VP jb 0] m =
    let* v := ptr_in vb (Z.of_nat (length (lcells (levels j)))) (0 + curr_level j * 2) in Ok (v, Tptr (Tstruct "mu_jems_level_t"), m).
Proof.
  intros [H1 H2 H3 H4 H5 [Hm Hc Ha Hn]]. unfold jcells in H1. erewrite call_S by reflexivity. csteps.
  unfold ptr_in. destruct (_ && _); cbn [bind]; csteps; done.
Qed.
Lemma src_emit_char d m j z : at_ m j ->
  call (S d) "emit_char" [VP jb 0; VI z] m = Ok (VP jb 0, T, put m (emit_char j (z mod 256)) 0).
Proof.
  intros H. pose proof (put_same m j H) as Hp. destruct H as [H1 H2 H3 H4 H5 [Hm Hc Ha Hn]]. unfold jcells in H1. erewrite call_S by reflexivity. csteps.
  cbn [user_writer]. rewrite H3. csteps. rewrite schar_mod. do 2 f_equal. unfold put, emit_char. cbn [sent levels]. unfold jcells in *. cbn [max_level curr_level writer arg].
  rewrite Nat.add_0_r. rewrite (insert_id (heap m) jb), (insert_id (heap m) vb) by done. do 2 f_equal.
  unfold scells. rewrite map_app, concat_app. done.
Qed.
Ltac lv := match goal with |- context [ptr_in vb _ _] => rewrite Z.add_0_l end.
(** curr_level is a valid index *)
Lemma level_in j l : ld (levels j) (curr_level j) = Ok l -> 0 <= curr_level j -> ptr_in vb (Z.of_nat (length (lcells (levels j)))) (0 + curr_level j * 2) = Ok (VP vb (curr_level j * 2)).
Proof. intros H Hc. rewrite ptr_in_ok; [done|]. apply ld_bounds in H. rewrite lcells_length. lia. Qed.
Lemma level_out j : ld (levels j) (curr_level j) = UB -> 0 <= curr_level j ->
  ptr_in vb (Z.of_nat (length (lcells (levels j)))) (0 + curr_level j * 2) = UB \/ ptr_in vb (Z.of_nat (length (lcells (levels j)))) (0 + curr_level j * 2) = Ok (VP vb (curr_level j * 2)).
Proof. intros H Hc. unfold ptr_in. rewrite Z.add_0_l. destruct (_ && _); auto. Qed.
Lemma st_ins {A} (l : list A) i x l' : st l i x = Ok l' -> l' = <[Z.to_nat i := x]> l.
Proof. unfold st. destruct (_ && _); [|done]. by intros [= <-]. Qed.
Ltac levstep :=
  lazymatch goal with |- ?l = _ => let h := hd l in
    lazymatch h with
    | ld (lcells _) (?i * 2 + 0) => rewrite (Z.add_0_r (i * 2))
    | st (lcells _) (?i * 2 + 0) _ => rewrite (Z.add_0_r (i * 2))
    | ld (lcells _) (_ * 2) => erewrite ld_cnt by eassumption
    | ld (lcells _) (_ * 2 + 1) => erewrite ld_obj by eassumption
    | st (lcells _) (_ * 2) (VI _) => erewrite st_cnt by eassumption
    | st (lcells _) (_ * 2 + 1) (truth _) => erewrite st_obj by eassumption
    end
  end.
Ltac call_hook ::=
  lazymatch goal with
  | |- context [CLang.call _ _ _ _ _ (S ?d) "level_ref" [VP _ 0] ?m] =>
    match goal with H : at_ m ?j |- _ => rewrite (src_level_ref d m j H) end
  | |- context [CLang.call _ _ _ _ _ (S ?d) "emit_char" [VP _ 0; VI ?z] ?m] =>
    match goal with H : at_ m ?j |- _ => rewrite (src_emit_char d m j z H) end
  end.
Ltac cs := repeat first [levstep | hstep | cstep].
Lemma put_curr m j n : at_ m j ->
  MkMem (<[jb := [VP vb 0; VI (max_level j); VI n; VI (writer j); VI (arg j)]]> (heap m)) (next m) = put m (set_curr_level j n) 0.
Proof.
  intros [H1 H2 H3 _ _ _]. unfold put, jcells. cbn [set_curr_level levels sent max_level curr_level writer arg]. rewrite Nat.add_0_r. f_equal.
  rewrite (insert_id _ vb) by (rewrite lookup_insert_ne by done; done). rewrite (insert_id _ lb) by (rewrite lookup_insert_ne by done; done). done.
Qed.
Definition set_levels (j : jems) (ls : list jlevel) : jems := MkJ ls (max_level j) (curr_level j) (writer j) (arg j) (sent j).
Lemma put_levels m j ls : at_ m j -> MkMem (<[vb := lcells ls]> (heap m)) (next m) = put m (set_levels j ls) 0.
Proof.
  intros [H1 H2 H3 _ _ _]. unfold put, jcells in *. cbn [set_levels levels sent max_level curr_level writer arg]. rewrite Nat.add_0_r. f_equal.
  rewrite (insert_id _ jb) by done. rewrite (insert_id _ lb) by (rewrite lookup_insert_ne by done; done). done.
Qed.
Lemma count_eq j n l : ld (levels j) (curr_level j) = Ok l ->
  set_item_count j n = Ok (set_levels j (<[Z.to_nat (curr_level j) := MkLevel (Some n) (is_object l)]> (levels j))).
Proof. intros H. pose proof (ld_bounds _ _ _ H). unfold set_item_count. rewrite H. cbn [bind]. rewrite st_in by done. done. Qed.
Lemma object_eq j b l : ld (levels j) (curr_level j) = Ok l ->
  set_is_object j b = Ok (set_levels j (<[Z.to_nat (curr_level j) := MkLevel (item_count l) (Some b)]> (levels j))).
Proof. intros H. pose proof (ld_bounds _ _ _ H). unfold set_is_object. rewrite H. cbn [bind]. rewrite st_in by done. done. Qed.
(** item_count = 0; is_object = b: what reset and push_level do with the current level *)
Definition EV x := EArrow (CLang.ECall "level_ref" [EVar "jems"]) x.
Lemma exec_fresh d m j E e b : at_ m j -> assoc "jems" E = Some (BReg T (VP jb 0)) ->
  (forall m, rval p jems_prog (call (S d)) (user_writer lb) e (E, m) = Ok (truth b, Tbool, (E, m)) \/
             rval p jems_prog (call (S d)) (user_writer lb) e (E, m) = Ok (truth b, int, (E, m))) ->
  assoc "level_ref" E = None ->
  CLang.exec p jems_prog (call (S d)) (user_writer lb) fuel
    (SSeq (SExpr (EAssign (EV "item_count") (EInt 0))) (SExpr (EAssign (EV "is_object") e))) (E, m) =
  let* j := set_item_count j 0 in let* j := set_is_object j b in Ok (Next, (E, put m j 0)).
Proof.
  intros H HE He HN. pose proof H as [H1 H2 H3 H4 H5 [Hm Hc Ha Hn]]. unfold jcells in H1. pose proof (size_mod_big p) as Hb. unfold EV.
  destruct (ld (levels j) (curr_level j)) as [l| |] eqn:El; [|pose proof (level_out _ El (proj1 Hc)) as [Hx|Hx]; [|pose proof (ub_cnt _ _ (proj1 Hc) El) as [_ Hu]]|by apply ld_noNF in El].
  - pose proof (level_in _ _ El (proj1 Hc)) as Hx.
    rewrite (count_eq _ _ _ El). cbn [bind]. 
    set (j1 := set_levels j _).
    assert (Hj1 : jok j1) by (eapply (set_count_ok j 0); [done|lia|apply (count_eq _ _ _ El)]).
    pose proof (put_at m j j1 0 H Hj1) as A1. pose proof A1 as [K1 K2 K3 _ _ _].
    assert (El1 : ld (levels j1) (curr_level j1) = Ok (MkLevel (Some 0) (is_object l))).
    { pose proof (ld_bounds _ _ _ El). cbn. unfold ld. destruct (Z.ltb_spec (curr_level j) 0); [lia|]. rewrite list_lookup_insert by lia. done. }
    pose proof (level_in _ _ El1 (proj1 (jk_cur _ Hj1))) as Hx1.
    rewrite (object_eq _ b _ El1). cbn [bind]. 
    pose proof (put_levels m j (<[Z.to_nat (curr_level j) := MkLevel (Some 0) (is_object l)]> (levels j)) H) as Hp. fold j1 in Hp.
    cs. rewrite Hp. pose proof (put_levels _ _ (<[Z.to_nat (curr_level j1) := MkLevel (Some 0) (Some b)]> (levels j1)) A1) as Hp2. rewrite put_put in Hp2.
    set (m1 := put m j1 0) in *. clearbody m1. change (curr_level j) with (curr_level j1). 
    destruct (He m1) as [He1|He1]; cs; do 3 f_equal; exact Hp2.
  - unfold set_item_count. rewrite El. cbn [bind]. cs. done.
  - unfold set_item_count. rewrite El. cbn [bind]. cs. rewrite Hu. done.
Qed.
Lemma seq_assoc p' P cn cv f c1 c2 c3 s : CLang.exec p' P cn cv f (SSeq c1 (SSeq c2 c3)) s = CLang.exec p' P cn cv f (SSeq (SSeq c1 c2) c3) s.
Proof. rewrite !exec_SSeq. destruct (CLang.exec p' P cn cv f c1 s) as [[[] s']| |]; cbn [bind]; rewrite ?exec_SSeq; done. Qed.
Lemma src_reset d m j : at_ m j ->
  call (S (S d)) "mu_jems_reset" [VP jb 0] m = let* j := mu_jems_reset j in Ok (VP jb 0, T, put m j 0).
Proof.
  intros H. pose proof H as [H1 H2 H3 H4 H5 [Hm Hc Ha Hn]]. unfold jcells in H1. erewrite call_S by reflexivity.
  pose proof (size_mod_big p) as Hb. assert (H0 : at_ (put m (set_curr_level j 0) 0) (set_curr_level j 0)) by (apply (put_at m j); [done|apply set_curr_ok; [done|lia]]).
  pose proof (put_curr m j 0 H) as Hp.
  pose proof (exec_fresh d (put m (set_curr_level j 0) 0) (set_curr_level j 0) [("jems", BReg T (VP jb 0))] (EInt 0) false H0 eq_refl ltac:(intros; right; reflexivity) eq_refl) as Hx.
  cstep.
  unfold EV in Hx. set (R := SExpr (EAssign (EArrow (CLang.ECall "level_ref" [EVar "jems"]) "item_count") (EInt 0))) in *.
  set (R2 := SExpr (EAssign (EArrow (CLang.ECall "level_ref" [EVar "jems"]) "is_object") (EInt 0))) in *.
  clearbody R R2.
  lazymatch goal with |- context [SSeq R ?X] => remember (SSeq R X) as W eqn:HW end.
  cs. rewrite Hp, HW, seq_assoc, exec_SSeq, Hx. unfold mu_jems_reset. destruct (set_item_count _ _); cbn [bind]; try done. destruct (set_is_object _ _); cbn [bind]; try done.
  cs. rewrite put_put. done.
Qed.
Lemma reset_ok j j' : jok j -> mu_jems_reset j = Ok j' -> jok j'.
Proof.
  intros H. pose proof (size_mod_big p). unfold mu_jems_reset. destruct (set_item_count _ _) eqn:E; cbn [bind]; try done. intros E2.
  eapply set_object_ok; [|exact E2]. eapply (set_count_ok _ 0); [|lia|exact E]. apply set_curr_ok; [done|lia].
Qed.
Lemma push_ok j b j' : jok j -> push_level p j b = Ok j' -> jok j'.
Proof.
  intros H. pose proof (size_mod_big p). unfold push_level. destruct (_ <? _); [|intros [= <-]; done]. destruct (set_item_count _ _) eqn:E; cbn [bind]; try done. intros E2.
  eapply set_object_ok; [|exact E2]. eapply (set_count_ok _ 0); [|lia|exact E]. apply set_curr_ok; [done|apply to_size_range].
Qed.
Lemma pop_ok j : jok j -> jok (pop_level p j).
Proof. intros H. unfold pop_level. destruct (_ <? _); [|done]. apply set_curr_ok; [done|apply to_size_range]. Qed.
Lemma commify_ok j j' : jok j -> commify p j = Ok j' -> jok j'.
Proof.
  intros H. unfold commify. destruct (get_item_count j); cbn [bind]; try done. destruct (get_is_object j) as [o| |]; cbn [bind]; try done.
  match goal with |- context [set_item_count ?x _] => assert (Hx : jok x) by (destruct o, (_ <? _); try destruct (Z.odd _); try apply emit_char_ok; done); set (j1 := x) in * end.
  destruct (get_item_count j1); cbn [bind]; try done. intros E. eapply set_count_ok; [exact Hx| |exact E]. apply to_size_range.
Qed.
Lemma src_push d m j b : at_ m j ->
  call (S (S d)) "push_level" [VP jb 0; truth b] m = let* j := push_level p j b in Ok (VP jb 0, T, put m j 0).
Proof.
  intros H. pose proof H as [H1 H2 H3 H4 H5 [Hm Hc Ha Hn]]. unfold jcells in H1. erewrite call_S by reflexivity.
  pose proof (size_mod_big p) as Hb. set (n := to_size p (curr_level j + 1)).
  assert (Hn' : 0 <= n < size_mod p) by apply to_size_range.
  assert (H0 : at_ (put m (set_curr_level j n) 0) (set_curr_level j n)) by (apply (put_at m j); [done|apply set_curr_ok; [done|lia]]).
  pose proof (put_curr m j n H) as Hp.
  assert (Hv : forall m', rval p jems_prog (call (S d)) (user_writer lb) (EVar "is_object") ([("jems", BReg T (VP jb 0)); ("is_object", BReg Tbool (truth b))], m') =
    Ok (truth b, Tbool, ([("jems", BReg T (VP jb 0)); ("is_object", BReg Tbool (truth b))], m'))) by (intros; reflexivity).
  pose proof (exec_fresh d (put m (set_curr_level j n) 0) (set_curr_level j n) [("jems", BReg T (VP jb 0)); ("is_object", BReg Tbool (truth b))] (EVar "is_object") b H0 eq_refl
    ltac:(intros; left; apply Hv) eq_refl) as Hx.
  cstep.
  unfold EV in Hx. lazymatch type of Hx with CLang.exec _ _ _ _ _ ?R _ = _ => set (RR := R) in * end.
  clearbody RR.
  unfold push_level. fold n. destruct (curr_level j <? to_size p (max_level j - 1)) eqn:Eq.
  - cs. fold n. rewrite Hp. cs. rewrite ?Hx. destruct (set_item_count _ _); cbn [bind]; try done. destruct (set_is_object _ _); cbn [bind]; try done. cs. rewrite put_put. done.
  - cs. cbn [bind]. rewrite put_same by done. done.
Qed.
Lemma src_pop d m j : at_ m j -> call (S d) "pop_level" [VP jb 0] m = Ok (VP jb 0, T, put m (pop_level p j) 0).
Proof.
  intros H. pose proof H as [H1 H2 H3 H4 H5 [Hm Hc Ha Hn]]. unfold jcells in H1. erewrite call_S by reflexivity.
  unfold pop_level. pose proof (put_curr m j (to_size p (curr_level j - 1)) H) as Hp. destruct (0 <? curr_level j) eqn:E; cs.
  - rewrite Hp. cs. done.
  - cbn [bind]. rewrite put_same by done. done.
Qed.
Lemma src_commify d m j : at_ m j -> call (S (S d)) "commify" [VP jb 0] m = let* j := commify p j in Ok (VP jb 0, T, put m j 0).
Proof.
  intros H. pose proof H as [H1 H2 H3 H4 H5 [Hm Hc Ha Hn]]. unfold jcells in H1. erewrite call_S by reflexivity. pose proof (size_mod_big p) as Hb.
  unfold commify, get_item_count, get_is_object.
  destruct (ld (levels j) (curr_level j)) as [l| |] eqn:El; [|pose proof (level_out _ El (proj1 Hc)) as [Hx|Hx]; [|pose proof (ub_cnt _ _ (proj1 Hc) El) as [Hu _]]|by apply ld_noNF in El]; cbn [bind].
  2: { cs. done. }
  2: { cs. done. }
  pose proof (level_in _ _ El (proj1 Hc)) as Hx.
  destruct (item_count l) as [n|] eqn:En; cbn [init_read bind].
  2: { assert (Hcell : cnt_cell l = VU) by (unfold cnt_cell; by rewrite En). cs. rewrite Hcell. done. }
  assert (Hcell : cnt_cell l = VI n) by (unfold cnt_cell; by rewrite En).
  assert (Hnr : 0 <= n < size_mod p) by (eapply ld_Forall in Hn; [|exact El]; cbn beta in Hn; auto).
  destruct (is_object l) as [o|] eqn:Eo; cbn [init_read bind].
  2: { assert (Hcell2 : obj_cell l = VU) by (unfold obj_cell; by rewrite Eo). cs. rewrite Hcell. cs. rewrite Hcell2. done. }
  assert (Hcell2 : obj_cell l = truth o) by (unfold obj_cell; by rewrite Eo).
  cstep.
  lazymatch goal with |- context [SSeq (SExpr (EAssignOp ?a ?b ?c)) ?X] => remember (SSeq (SExpr (EAssignOp a b c)) X) as R eqn:HR end.
  set (E := [("jems", BReg T (VP jb 0)); ("level", BReg (Tptr (Tstruct "mu_jems_level_t")) (VP vb (curr_level j * 2))); ("count", BReg Tsize (VI n))]).
  assert (HRx : forall j1 m1, at_ m1 j1 -> levels j1 = levels j -> curr_level j1 = curr_level j ->
    CLang.exec p jems_prog (call (S d)) (user_writer lb) fuel R (E, m1) =
    let* j' := (let* n := (let* l := ld (levels j1) (curr_level j1) in init_read (item_count l)) in set_item_count j1 (to_size p (n + 1))) in Ok (Returned (VP jb 0) T, (E, put m1 j' 0))).
  { intros j1 m1 A HL HC. pose proof A as [K1 K2 K3 _ _ _]. rewrite HL, HC. rewrite El. cbn [bind]. rewrite En. cbn [bind init_read].
    rewrite <- HL, <- HC in El. rewrite (count_eq _ _ _ El). cbn [bind]. subst R. unfold E. rewrite <- HC. cs. rewrite Hcell. cs. do 3 f_equal. apply put_levels. done. }
  assert (Hec : forall c, at_ (put m (emit_char j (c mod 256)) 0) (emit_char j (c mod 256))) by (intros c; apply (put_at m j); [done|by apply emit_char_ok]).
  assert (Hodd : (to_size p (Z.land n 1) =? 0) = negb (Z.odd n)).
  { rewrite to_size_id; [apply odd_land|]. replace (Z.land n 1) with (n mod 2) by (symmetry; apply (Z.land_ones n 1); lia). pose proof (Z.mod_pos_bound n 2). lia. }
  destruct o; (destruct (0 <? n) eqn:E0; [try (destruct (Z.odd n) eqn:Eodd; cbn [negb] in Hodd)|]).
  all: cs; rewrite ?Hcell; cs; rewrite ?Hcell2; cs; fold E.
  1: rewrite (HRx _ _ (Hec 58)) by done.
  4, 5: rewrite (HRx _ _ (Hec 44)) by done.
  2: rewrite (HRx _ _ (Hec 44)) by done.
  3, 6: rewrite (HRx _ _ H) by done.
  all: lazymatch goal with |- finish _ _ _ (bind ?x _) = bind ?y _ => change y with x; destruct x as [j'| |]; cbn [bind]; [|done..] end.
  all: cs; rewrite ?put_put; done.
Qed.
(** *** strings *)
Notation char := (Tint true W8).
Definition bytes (s : list Z) : Prop := Forall (fun c => 0 <= c < 256) s.
Definition env_s (sb : nat) (o : Z) : env := [("jems", BReg T (VP jb 0)); ("s", BReg (Tptr char) (VP sb o))].
Lemma cells_lookup (pre : list val) c l : ld (pre ++ c :: l)%list (Z.of_nat (length pre)) = Ok c.
Proof. unfold ld. destruct (Z.ltb_spec (Z.of_nat (length pre)) 0); [lia|]. rewrite Nat2Z.id. rewrite list_lookup_middle by done. done. Qed.
Lemma cells_end pre : ld (pre : list val) (Z.of_nat (length pre)) = UB.
Proof. unfold ld. destruct (Z.ltb_spec (Z.of_nat (length pre)) 0); [lia|]. rewrite Nat2Z.id, lookup_ge_None_2 by lia. done. Qed.
Definition away (sb : nat) : Prop := sb <> jb /\ sb <> vb /\ sb <> lb.
Lemma emit_loop d sb rest : away sb -> forall s pre j m n, at_ m j -> bytes s -> (In 0 s \/ rest = []) -> (length s < n)%nat ->
  heap m !! sb = Some (pre ++ (schar <$> s) ++ rest)%list ->
  exists o, loop n (CLang.test p jems_prog (call (S d)) (user_writer lb) (EDeref (EVar "s")))
      (CLang.exec p jems_prog (call (S d)) (user_writer lb) fuel (SExpr (CLang.ECall "emit_char" [EVar "jems"; EDeref (EPost Add (EVar "s"))])))
      (CLang.exec p jems_prog (call (S d)) (user_writer lb) fuel SSkip) (env_s sb (Z.of_nat (length pre)), m) =
    let* j' := emit_string j s in Ok (Next, (env_s sb o, put m j' 0)).
Proof.
  intros (Ha1 & Ha2 & Ha3). induction s as [|c s IH]; intros pre j m n A Hby Hin Hf Hs; cbn [length] in Hf; (destruct n as [|n]; [lia|]).
  - destruct Hin as [ [] | -> ]. cbn [app fmap list_fmap] in Hs. rewrite app_nil_r in Hs. pose proof (cells_end pre) as He. exists 0. rewrite loop_S. unfold env_s. cs. done.
  - apply Forall_cons in Hby as [Hc Hby]. cbn [fmap list_fmap app] in Hs. fold (fmap schar s) in Hs. change (list_fmap _ _ schar s) with (schar <$> s) in Hs.
    pose proof (cells_lookup pre (schar c) ((schar <$> s) ++ rest)) as Hl. unfold schar at 1 3 in Hl.
    assert (Hlen : Z.of_nat (length pre) + 1 <= Z.of_nat (length (pre ++ schar c :: (schar <$> s) ++ rest)%list)) by (rewrite app_length; cbn [length]; lia).
    change (VI (wrap_signed 256 c)) with (schar c) in Hl. pose proof (schar_zero c Hc) as Hz. cbn [emit_string]. destruct (c =? 0) eqn:Ec.
    { exists (Z.of_nat (length pre)). rewrite loop_S. unfold env_s. set (cl := (pre ++ schar c :: (schar <$> s) ++ rest)%list) in *. unfold schar in Hl. clearbody cl. cs. cbn [bind]. rewrite put_same by done. done. }
    assert (Hin' : In 0 s \/ rest = []) by (destruct Hin as [ [ -> | ? ] | ? ]; auto; cbn in Ec; done).
    assert (A1 : at_ (put m (emit_char j c) 0) (emit_char j c)) by (apply (put_at m j); [done|apply emit_char_ok, A]).
    destruct (IH (pre ++ [schar c])%list (emit_char j c) (put m (emit_char j c) 0) n A1 Hby Hin' ltac:(lia)) as [o Ho].
    { rewrite put_other by done. rewrite <- app_assoc. done. }
    exists o. rewrite app_length in Ho. cbn [length] in Ho. rewrite Nat2Z.inj_add in Ho. change (Z.of_nat 1) with 1 in Ho.
    rewrite loop_S. unfold env_s. set (cl := (pre ++ schar c :: (schar <$> s) ++ rest)%list) in *. unfold schar in Hl. clearbody cl.
    remember (loop n) as L. cs. rewrite schar_mod, Z.mod_small by done. subst L. unfold env_s in Ho. rewrite ?Ho. destruct (emit_string _ _); cbn [bind]; [|done..]. rewrite put_put. done.
Qed.
Lemma src_emit_string d sb rest s pre m j : away sb -> at_ m j -> bytes s -> (In 0 s \/ rest = []) -> (length s < fuel)%nat ->
  heap m !! sb = Some (pre ++ (schar <$> s) ++ rest)%list ->
  call (S (S d)) "emit_string" [VP jb 0; VP sb (Z.of_nat (length pre))] m = let* j := emit_string j s in Ok (VP jb 0, T, put m j 0).
Proof.
  intros Hs A Hby Hin Hf Hm. destruct (emit_loop d sb rest Hs s pre j m fuel A Hby Hin Hf Hm) as [o Ho].
  erewrite call_S by reflexivity. cs. rewrite exec_SLoop. unfold env_s in Ho. rewrite ?Ho. destruct (emit_string _ _); cbn [bind]; [|done..]. cs. done.
Qed.
Lemma emit_string_ok s : forall j j', jok j -> emit_string j s = Ok j' -> jok j'.
Proof.
  induction s as [|c s IH]; intros j j' H; cbn [emit_string]; [done|]. destruct (c =? 0); [intros [= <-]; done|]. apply IH, emit_char_ok, H.
Qed.
(** *** escapes *)
Lemma hex_fact : forallb (fun b => Nat.eqb (length (fmt_04x (Z.of_nat b))) 4 && forallb (fun c => (0 <? c) && (c <? 128)) (fmt_04x (Z.of_nat b))) (seq 0 256) = true.
Proof. vm_compute. done. Qed.
Lemma hex_ok b : 0 <= b < 256 -> length (fmt_04x b) = 4%nat /\ bytes (fmt_04x b).
Proof.
  intros Hb. pose proof (proj1 (forallb_forall _ _) hex_fact (Z.to_nat b)) as H. cbv beta in H. rewrite Z2Nat.id in H by lia.
  rewrite andb_true_iff in H. destruct H as [H1 H2]; [apply in_seq; lia|]. apply Nat.eqb_eq in H1. split; [done|].
  apply Forall_forall. intros c Hc. apply elem_of_list_In in Hc. rewrite forallb_forall in H2. specialize (H2 c Hc). apply andb_prop in H2 as [? ?]. lia.
Qed.
Lemma call_ext d x vs m : find_fun x (funs jems_prog) = None -> call d x vs m = libc x vs m.
Proof. intros H. destruct d; unfold CLang.call; rewrite H; done. Qed.
Lemma libc_sprintf m j b : at_ m j -> 0 <= b < 256 ->
  libc "sprintf" [VP (next m) 0; VP 4 0; VI b] (local m (replicate 7 VU)) =
    Ok (VI 6, int, local m (schar <$> (92 :: 117 :: fmt_04x b ++ [0]))%list).
Proof.
  intros A Hb. pose proof (local_at m j (replicate 7 VU) A) as A1. destruct A1 as [_ _ _ (_ & _ & _ & _ & H4) _ _]. destruct (hex_ok b Hb) as [Hl _].
  unfold libc. cbn [String.eqb Ascii.eqb Bool.eqb]. rewrite H4. cbn [ofopt bind].
  replace (printf _ _ b) with (Some (92 :: 117 :: fmt_04x b)%list).
  2: { change (drop (Z.to_nat 0) (nums (VI <$> lit_str_4))) with [92; 117; 37; 48; 52; 120; 0]. change (length (VI <$> lit_str_4)) with 7%nat. cbn -[fmt_04x]. rewrite app_nil_r. done. }
  cbn [ofopt bind]. unfold write_cells. cbn [local heap]. rewrite lookup_insert. cbn [ofopt bind]. rewrite app_length. cbn [length]. rewrite Hl. cbn [Nat.add Z.of_nat Z.leb andb Z.add replicate length].
  change (0 + Z.of_nat 7 <=? Z.of_nat 7) with true. cbn [andb bind]. change (Z.to_nat 0) with 0%nat. cbn [take drop Nat.add app]. rewrite app_nil_r.
  unfold local. cbn [heap next]. rewrite insert_insert. done.
Qed.
Lemma away_new m j : at_ m j -> away (next m).
Proof.
  intros [H1 H2 H3 H4 H5 H6]. assert (Hn : forall b, heap m !! b <> None -> b <> next m) by (intros b Hb ->; rewrite H5 in Hb; [done|lia]).
  split_and!; apply not_eq_sym, Hn; congruence.
Qed.
Lemma src_quoted_byte d m j b : at_ m j -> 0 <= b < 256 -> (7 < fuel)%nat ->
  call (S (S (S d))) "emit_quoted_byte" [VP jb 0; VI b] m = let* j := emit_quoted_byte j b in Ok (VP jb 0, T, put m j 1).
Proof.
  intros A Hb Hf. erewrite call_S by reflexivity. cstep. change (replicate (Z.to_nat (cells jems_prog (Tarr char 7))) VU) with (replicate 7 VU).
  fold (local m (replicate 7 VU)). change (S (next m)) with (next (local m (replicate 7 VU))).
  pose proof (local_at m j (replicate 7 VU) A) as A1. pose proof (libc_sprintf m j b A Hb) as HL. set (b0 := replicate 7 VU) in *. clearbody b0.
  unfold emit_quoted_byte. destruct ((b <? 32) || (127 <=? b)) eqn:Ec.
  - destruct (hex_ok b Hb) as [Hlen Hby]. unfold sprintf. change (length (92 :: ch "u" :: fmt_04x b)) with (S (S (length (fmt_04x b)))). rewrite Hlen. cbn [Nat.ltb Nat.leb bind].
    change (92 :: ch "u" :: fmt_04x b)%list with (92 :: 117 :: fmt_04x b)%list.
    set (t := ((92 :: 117 :: fmt_04x b) ++ [0])%list). change (92 :: 117 :: fmt_04x b ++ [0])%list with t in HL.
    assert (Hbt : bytes t) by (unfold t; cbn [app]; repeat (apply Forall_cons; split; [lia|]); apply Forall_app; split; [done|]; repeat constructor; lia).
    assert (Hin : In 0 t) by (unfold t; apply in_or_app; right; left; done).
    assert (Hlt : (length t < fuel)%nat) by (unfold t; rewrite app_length; cbn [length]; rewrite Hlen; lia).
    pose proof (local_at m j (schar <$> t) A) as A2.
    pose proof (src_emit_string d (next m) [] t [] (local m (schar <$> t)) j (away_new m j A) A2 Hbt (or_introl Hin) Hlt) as He.
    rewrite app_nil_r in He. specialize (He ltac:(cbn [local heap]; by rewrite lookup_insert)). change (Z.of_nat (length [])) with 0 in He. clearbody t.
    destruct (b <? 32) eqn:E1; cbn [orb] in Ec; cs; rewrite call_ext by done; cs; cbn [fst snd]; rewrite ?He; (destruct (emit_string j t) as [j'| |]; cbn [bind]; [|done..]); cs; do 2 f_equal; apply (local_end m j); done.
  - apply orb_false_iff in Ec as [E1 E2].
    assert (Hec : forall c, at_ (put (local m b0) (emit_char j (c mod 256)) 0) (emit_char j (c mod 256))) by (intros c; apply (put_at (local m b0) j); [done|by apply emit_char_ok, A]).
    destruct (b =? 92) eqn:E3; [|destruct (b =? 34) eqn:E4]; cbn [orb]; pose proof (Hec 92); cs; rewrite ?put_put; do 2 f_equal; (etransitivity; [apply (local_end m j); done|]);
      rewrite schar_mod, (Z.mod_small b) by done; reflexivity.
Qed.
Lemma quoted_byte_ok j b j' : jok j -> emit_quoted_byte j b = Ok j' -> jok j'.
Proof.
  intros H. unfold emit_quoted_byte. destruct (_ || _).
  - destruct (sprintf _ _); cbn [bind]; try done. by apply emit_string_ok.
  - intros [= <-]. apply emit_char_ok. destruct (_ || _); [by apply emit_char_ok|done].
Qed.
(** characters before the terminator *)
Fixpoint clen (s : list Z) : nat := match s with [] => 0%nat | c :: s => if c =? 0 then 0%nat else S (clen s) end.
Lemma quoted_loop d sb : (7 < fuel)%nat -> away sb -> forall s pre j m n, at_ m j -> bytes s -> (length s < n)%nat ->
  heap m !! sb = Some (pre ++ (schar <$> s))%list -> (sb < next m)%nat ->
  exists o, loop n (CLang.test p jems_prog (call (S (S (S d)))) (user_writer lb) (EDeref (EVar "s")))
      (CLang.exec p jems_prog (call (S (S (S d)))) (user_writer lb) fuel (SExpr (CLang.ECall "emit_quoted_byte" [EVar "jems"; ECast (Tint false W8) (EDeref (EPost Add (EVar "s")))])))
      (CLang.exec p jems_prog (call (S (S (S d)))) (user_writer lb) fuel SSkip) (env_s sb (Z.of_nat (length pre)), m) =
    let* j' := emit_quoted_string j s in Ok (Next, (env_s sb o, put m j' (clen s))).
Proof.
  intros Hf7 (Ha1 & Ha2 & Ha3). induction s as [|c s IH]; intros pre j m n A Hby Hf Hs Hsn; cbn [length] in Hf; (destruct n as [|n]; [lia|]).
  - cbn [app fmap list_fmap] in Hs. rewrite app_nil_r in Hs. pose proof (cells_end pre) as He. exists 0. rewrite loop_S. unfold env_s. cs. done.
  - apply Forall_cons in Hby as [Hc Hby]. cbn [fmap list_fmap app] in Hs. change (list_fmap _ _ schar s) with (schar <$> s) in Hs.
    pose proof (cells_lookup pre (schar c) (schar <$> s)) as Hl.
    assert (Hlen : Z.of_nat (length pre) + 1 <= Z.of_nat (length (pre ++ schar c :: (schar <$> s))%list)) by (rewrite app_length; cbn [length]; lia).
    pose proof (schar_zero c Hc) as Hz. cbn [emit_quoted_string clen]. destruct (c =? 0) eqn:Ec.
    { exists (Z.of_nat (length pre)). rewrite loop_S. unfold env_s. set (cl := (pre ++ schar c :: (schar <$> s))%list) in *. unfold schar in Hl. clearbody cl. cs. cbn [bind]. rewrite put_same by done. done. }
    pose proof (src_quoted_byte d m j c A Hc Hf7) as Hq.
    destruct (emit_quoted_byte j c) as [j1| |] eqn:Eq; cbn [bind] in Hq |- *.
    2,3: exists 0; rewrite loop_S; unfold env_s; set (cl := (pre ++ schar c :: (schar <$> s))%list) in *; unfold schar in Hl; clearbody cl; cs; rewrite schar_mod, Z.mod_small by done; rewrite ?Hq; done.
    assert (A1 : at_ (put m j1 1) j1) by (apply (put_at m j); [done|eapply quoted_byte_ok; [apply A|exact Eq]]).
    destruct (IH (pre ++ [schar c])%list j1 (put m j1 1) n A1 Hby ltac:(lia)) as [o Ho].
    { rewrite put_other by done. rewrite <- app_assoc. done. }
    { cbn [put next]. lia. }
    exists o. rewrite app_length in Ho. cbn [length] in Ho. rewrite Nat2Z.inj_add in Ho. change (Z.of_nat 1) with 1 in Ho.
    rewrite loop_S. unfold env_s. set (cl := (pre ++ schar c :: (schar <$> s))%list) in *. unfold schar in Hl. clearbody cl.
    remember (loop n) as L. cs. rewrite schar_mod, Z.mod_small by done. rewrite ?Hq. cs. subst L. unfold env_s in Ho. rewrite ?Ho. destruct (emit_quoted_string _ _); cbn [bind]; [|done..]. rewrite put_put. done.
Qed.
Lemma src_quoted_string d sb s m j : away sb -> at_ m j -> bytes s -> (length s < fuel)%nat -> (7 < fuel)%nat ->
  heap m !! sb = Some (schar <$> s) ->
  call (S (S (S (S d)))) "emit_quoted_string" [VP jb 0; VP sb 0] m = let* j := emit_quoted_string j s in Ok (VP jb 0, T, put m j (clen s)).
Proof.
  intros Hs A Hby Hf Hf7 Hm.
  assert (Hsn : (sb < next m)%nat) by (destruct (decide (sb < next m)%nat); [done|]; rewrite (at_new _ _ A) in Hm by lia; done).
  destruct (quoted_loop d sb Hf7 Hs s [] j m fuel A Hby Hf Hm Hsn) as [o Ho].
  erewrite call_S by reflexivity. cs. rewrite exec_SLoop. unfold env_s in Ho. change (Z.of_nat (length [])) with 0 in Ho. rewrite ?Ho. destruct (emit_quoted_string _ _); cbn [bind]; [|done..]. cs. done.
Qed.
Lemma quoted_string_ok s : forall j j', jok j -> emit_quoted_string j s = Ok j' -> jok j'.
Proof.
  induction s as [|c s IH]; intros j j' H; cbn [emit_quoted_string]; [done|]. destruct (c =? 0); [intros [= <-]; done|].
  destruct (emit_quoted_byte j c) eqn:E; cbn [bind]; try done. apply IH. eapply quoted_byte_ok; eassumption.
Qed.
(** *** byte arrays *)
Definition env_b (x : string) (t : ty) (y : string) (sb : nat) (len : Z) (i b : val) : env :=
  [("jems", BReg T (VP jb 0)); (x, BReg (Tptr t) (VP sb 0)); (y, BReg Tsize (VI len)); ("i", BReg int i); ("b", BReg (Tint false W8) b)].
Lemma iadd_cases i : 0 <= i <= int_max -> (iadd i 1 = Ok (i + 1) /\ ichk (i + 1) = Ok (i + 1) /\ 0 <= i + 1 <= int_max) \/ (iadd i 1 = UB /\ ichk (i + 1) = UB).
Proof.
  intros H. unfold iadd. destruct (decide (i + 1 <= int_max)); [left|right].
  - rewrite ichk_ok by (unfold int_min, int_max in *; lia). split_and!; [done|done|lia|done].
  - rewrite ichk_ub by lia. done.
Qed.
Lemma bytes_loop d sb len bs : (7 < fuel)%nat -> away sb -> bytes bs -> 0 <= len < size_mod p -> forall k n i bv j m, at_ m j ->
  0 <= i <= int_max -> (Z.to_nat (len - i) < k)%nat -> (Z.to_nat (len - i) < n)%nat -> heap m !! sb = Some (VI <$> bs) ->
  exists i' b', loop n (CLang.test p jems_prog (call (S (S (S d)))) (user_writer lb) (EBin Lt (EVar "i") (EVar "len")))
      (CLang.exec p jems_prog (call (S (S (S d)))) (user_writer lb) fuel
         (SSeq (SDecl "b" (Some (EIndex (EVar "bytes") (EVar "i")))) (SExpr (CLang.ECall "emit_quoted_byte" [EVar "jems"; EVar "b"]))))
      (CLang.exec p jems_prog (call (S (S (S d)))) (user_writer lb) fuel (SExpr (EPost Add (EVar "i")))) (env_b "bytes" (Tint false W8) "len" sb len (VI i) bv, m) =
    let* j' := emit_quoted_bytes_loop p k j i bs len in Ok (Next, (env_b "bytes" (Tint false W8) "len" sb len i' b', put m j' (Z.to_nat (len - i)))).
Proof.
  intros Hf7 (Ha1 & Ha2 & Ha3) Hby Hlen. induction k as [|k IH]; intros n i bv j m A Hi Hk Hn Hs; [lia|]. destruct n as [|n]; [lia|].
  pose proof (size_mod_big p) as Hbig. assert (Hir : 0 <= i < size_mod p) by (unfold int_max in *; lia). assert (Hir2 : int_min <= i <= int_max) by (unfold int_min in *; lia).
  cbn [emit_quoted_bytes_loop]. rewrite to_size_id by done. destruct (i <? len) eqn:Ei.
  2: { apply Z.ltb_ge in Ei as Ei'. exists (VI i), bv. rewrite loop_S. unfold env_b. cs. cbn [bind]. replace (Z.to_nat (len - i)) with 0%nat by lia. rewrite put_same by done. done. }
  apply Z.ltb_lt in Ei as Ei'.
  destruct (ld bs i) as [b| |] eqn:El; [| |by apply ld_noNF in El]; cbn [bind].
  2: { exists (VI i), bv. rewrite loop_S. unfold env_b. apply ld_UB in El as Hout.
       destruct (decide (i <= Z.of_nat (length bs))) as [Hle|Hgt].
       - cs. done.
       - cs. rewrite ptr_in_ub by (rewrite fmap_length; lia). done. }
  pose proof (ld_bounds _ _ _ El) as Hbd.
  assert (Hb : 0 <= b < 256) by (exact (ld_Forall _ _ _ _ Hby El)).
  pose proof (src_quoted_byte d m j b A Hb Hf7) as Hq.
  destruct (emit_quoted_byte j b) as [j1| |] eqn:Eq; cbn [bind] in Hq |- *.
  2,3: exists (VI i), bv; rewrite loop_S; unfold env_b; cs; done.
  assert (A1 : at_ (put m j1 1) j1) by (apply (put_at m j); [done|eapply quoted_byte_ok; [apply A|exact Eq]]).
  destruct (iadd_cases i Hi) as [(E1 & E2 & Hi1)|[E1 E2]]; rewrite E1; cbn [bind].
  2: { exists (VI i), bv; rewrite loop_S; unfold env_b; cs. done. }
  destruct (IH n (i + 1) (VI b) j1 (put m j1 1) A1 Hi1 ltac:(lia) ltac:(lia)) as (i' & b' & Ho). { rewrite put_other by done. done. }
  assert (Hi3 : int_min <= i + 1 <= int_max) by (unfold int_min in *; lia).
  exists i', b'. rewrite loop_S. unfold env_b in *. remember (loop n) as L. cs. subst L. rewrite ?Ho. destruct (emit_quoted_bytes_loop _ _ _ _ _ _); cbn [bind]; [|done..].
  rewrite put_put. do 5 f_equal. lia.
Qed.
Lemma src_quoted_bytes d sb bs len m j : away sb -> at_ m j -> bytes bs -> 0 <= len < size_mod p -> (Z.to_nat len < fuel)%nat -> (7 < fuel)%nat ->
  heap m !! sb = Some (VI <$> bs) ->
  call (S (S (S (S d)))) "emit_quoted_bytes" [VP jb 0; VP sb 0; VI len] m = let* j := emit_quoted_bytes p j bs len in Ok (VP jb 0, T, put m j (Z.to_nat len)).
Proof.
  intros Hs A Hby Hlen Hf Hf7 Hm. unfold emit_quoted_bytes.
  destruct (bytes_loop d sb len bs Hf7 Hs Hby Hlen (S (Z.to_nat len)) fuel 0 VU j m A ltac:(unfold int_max; lia) ltac:(rewrite Z.sub_0_r; lia) ltac:(rewrite Z.sub_0_r; lia) Hm) as (i' & b' & Ho).
  rewrite Z.sub_0_r in Ho. erewrite call_S by reflexivity. cs. rewrite exec_SLoop. unfold env_b in Ho. rewrite ?Ho. destruct (emit_quoted_bytes_loop _ _ _ _ _ _); cbn [bind]; [|done..]. cs. done.
Qed.
Lemma quoted_bytes_ok bs len : forall k j i j', jok j -> emit_quoted_bytes_loop p k j i bs len = Ok j' -> jok j'.
Proof.
  induction k as [|k IH]; intros j i j' H; cbn [emit_quoted_bytes_loop]; [done|]. destruct (_ <? _); [|intros [= <-]; done].
  destruct (ld bs i); cbn [bind]; try done. destruct (emit_quoted_byte j a) eqn:E; cbn [bind]; try done. destruct (iadd i 1); cbn [bind]; try done. apply IH. eapply quoted_byte_ok; eassumption.
Qed.
Lemma lit_loop d sb len bs : away sb -> bytes bs -> 0 <= len < size_mod p -> forall k n i bv j m, at_ m j ->
  0 <= i <= int_max -> (Z.to_nat (len - i) < k)%nat -> (Z.to_nat (len - i) < n)%nat -> heap m !! sb = Some (schar <$> bs) ->
  exists i' b', loop n (CLang.test p jems_prog (call (S d)) (user_writer lb) (EBin Lt (EVar "i") (EVar "n_bytes")))
      (CLang.exec p jems_prog (call (S d)) (user_writer lb) fuel
         (SSeq (SDecl "b" (Some (EIndex (EVar "literal") (EVar "i")))) (SExpr (CLang.ECall "emit_char" [EVar "jems"; EVar "b"]))))
      (CLang.exec p jems_prog (call (S d)) (user_writer lb) fuel (SExpr (EPost Add (EVar "i")))) (env_b "literal" char "n_bytes" sb len (VI i) bv, m) =
    let* j' := literal_loop p k j i bs len in Ok (Next, (env_b "literal" char "n_bytes" sb len i' b', put m j' 0)).
Proof.
  intros (Ha1 & Ha2 & Ha3) Hby Hlen. induction k as [|k IH]; intros n i bv j m A Hi Hk Hn Hs; [lia|]. destruct n as [|n]; [lia|].
  pose proof (size_mod_big p) as Hbig. assert (Hir : 0 <= i < size_mod p) by (unfold int_max in *; lia). assert (Hir2 : int_min <= i <= int_max) by (unfold int_min in *; lia).
  cbn [literal_loop]. rewrite to_size_id by done. destruct (i <? len) eqn:Ei.
  2: { apply Z.ltb_ge in Ei as Ei'. exists (VI i), bv. rewrite loop_S. unfold env_b. cs. cbn [bind]. rewrite put_same by done. done. }
  apply Z.ltb_lt in Ei as Ei'.
  destruct (ld bs i) as [b| |] eqn:El; [| |by apply ld_noNF in El]; cbn [bind].
  2: { exists (VI i), bv. rewrite loop_S. unfold env_b. apply ld_UB in El as Hout.
       destruct (decide (i <= Z.of_nat (length bs))) as [Hle|Hgt].
       - cs. done.
       - cs. rewrite ptr_in_ub by (rewrite fmap_length; lia). done. }
  pose proof (ld_bounds _ _ _ El) as Hbd.
  assert (Hb : 0 <= b < 256) by (exact (ld_Forall _ _ _ _ Hby El)).
  assert (Hsl : ld (schar <$> bs) i = Ok (VI (wrap_signed 256 b))) by (rewrite ld_map, El; done).
  assert (Hcv : wrap_signed 256 b mod 256 = b) by (rewrite schar_mod, Z.mod_small by done; done).
  assert (Hcv2 : conv p (Tint false W8) (VI (wrap_signed 256 b)) = Ok (VI b)) by (cbn [conv num bind modw]; rewrite Hcv; done).
  assert (A1 : at_ (put m (emit_char j b) 0) (emit_char j b)) by (apply (put_at m j); [done|apply emit_char_ok, A]).
  assert (Hbm : b mod 256 = b) by (apply Z.mod_small; done).
  destruct (iadd_cases i Hi) as [(E1 & E2 & Hi1)|[E1 E2]]; rewrite E1; cbn [bind].
  2: { exists (VI i), bv; rewrite loop_S; unfold env_b; cs. done. }
  destruct (IH n (i + 1) (VI b) (emit_char j b) (put m (emit_char j b) 0) A1 Hi1 ltac:(lia) ltac:(lia)) as (i' & b' & Ho). { rewrite put_other by done. done. }
  assert (Hi3 : int_min <= i + 1 <= int_max) by (unfold int_min in *; lia).
  exists i', b'. rewrite loop_S. unfold env_b in *. remember (loop n) as L. cs. subst L. rewrite Hbm. rewrite ?Ho. destruct (literal_loop _ _ _ _ _ _); cbn [bind]; [|done..].
  rewrite put_put. done.
Qed.
Lemma literal_ok bs len : forall k j i j', jok j -> literal_loop p k j i bs len = Ok j' -> jok j'.
Proof.
  induction k as [|k IH]; intros j i j' H; cbn [literal_loop]; [done|]. destruct (_ <? _); [|intros [= <-]; done].
  destruct (ld bs i); cbn [bind]; try done. destruct (iadd i 1); cbn [bind]; try done. apply IH, emit_char_ok, H.
Qed.
(** *** the API *)
Ltac call_hook ::=
  lazymatch goal with
  | |- context [CLang.call _ _ _ _ _ (S ?d) "level_ref" [VP _ 0] ?m] =>
    match goal with H : at_ m ?j |- _ => rewrite (src_level_ref d m j H) end
  | |- context [CLang.call _ _ _ _ _ (S ?d) "emit_char" [VP _ 0; VI ?z] ?m] =>
    match goal with H : at_ m ?j |- _ => rewrite (src_emit_char d m j z H) end
  | |- context [CLang.call _ _ _ _ _ (S (S ?d)) "commify" [VP _ 0] ?m] =>
    match goal with H : at_ m ?j |- _ => rewrite (src_commify d m j H) end
  | |- context [CLang.call _ _ _ _ _ (S (S ?d)) "push_level" [VP _ 0; truth ?b] ?m] =>
    match goal with H : at_ m ?j |- _ => rewrite (src_push d m j b H) end
  | |- context [CLang.call _ _ _ _ _ (S (S ?d)) "push_level" [VP _ 0; VI 0] ?m] => change (VI 0) with (truth false)
  | |- context [CLang.call _ _ _ _ _ (S (S ?d)) "push_level" [VP _ 0; VI 1] ?m] => change (VI 1) with (truth true)
  | |- context [CLang.call _ _ _ _ _ (S ?d) "pop_level" [VP _ 0] ?m] =>
    match goal with H : at_ m ?j |- _ => rewrite (src_pop d m j H) end
  | |- context [CLang.call _ _ _ _ _ (S (S ?d)) "mu_jems_reset" [VP _ 0] ?m] =>
    match goal with H : at_ m ?j |- _ => rewrite (src_reset d m j H) end
  end.
(** after commify *)
Ltac dcom A :=
  lazymatch goal with |- context [commify p ?j] =>
    lazymatch type of A with at_ ?m _ =>
    let Ec := fresh "Ec" in let j1 := fresh "j" in let A1 := fresh "A" in
    destruct (commify p j) as [j1| |] eqn:Ec; cbn [bind]; [|done..];
    assert (A1 : at_ (put m j1 0) j1) by (apply (put_at m j); [exact A|eapply commify_ok; [apply A|exact Ec]]) end end.
Ltac dchr A z :=
  lazymatch type of A with at_ ?m ?j =>
    let A1 := fresh "A" in
    assert (A1 : at_ (put m (emit_char j (z mod 256)) 0) (emit_char j (z mod 256))) by (apply (put_at m j); [exact A|apply emit_char_ok, A]) end.
Lemma src_object_open d m j : at_ m j -> call (S (S (S d))) "mu_jems_object_open" [VP jb 0] m = let* j := mu_jems_object_open p j in Ok (VP jb 0, T, put m j 0).
Proof.
  intros A. erewrite call_S by reflexivity. cs. unfold mu_jems_object_open. dcom A. dchr A0 123. cs. change (123 mod 256) with (ch "{") in *. destruct (push_level _ _ _); cbn [bind]; [|done..]. cs. rewrite !put_put. done.
Qed.
Lemma src_array_open d m j : at_ m j -> call (S (S (S d))) "mu_jems_array_open" [VP jb 0] m = let* j := mu_jems_array_open p j in Ok (VP jb 0, T, put m j 0).
Proof.
  intros A. erewrite call_S by reflexivity. cs. unfold mu_jems_array_open. dcom A. dchr A0 91. cs. change (91 mod 256) with (ch "[") in *. destruct (push_level _ _ _); cbn [bind]; [|done..]. cs. rewrite !put_put. done.
Qed.
Lemma src_object_close d m j : at_ m j -> call (S (S d)) "mu_jems_object_close" [VP jb 0] m = let* j := mu_jems_object_close p j in Ok (VP jb 0, T, put m j 0).
Proof. intros A. erewrite call_S by reflexivity. dchr A 125. cs. rewrite !put_put. done. Qed.
Lemma src_array_close d m j : at_ m j -> call (S (S d)) "mu_jems_array_close" [VP jb 0] m = let* j := mu_jems_array_close p j in Ok (VP jb 0, T, put m j 0).
Proof. intros A. erewrite call_S by reflexivity. dchr A 93. cs. rewrite !put_put. done. Qed.
Lemma src_lit d m j b s : at_ m j -> heap m !! b = Some (schar <$> cstr s) -> away b -> bytes (cstr s) -> (length (cstr s) < fuel)%nat ->
  call (S (S d)) "emit_string" [VP jb 0; VP b 0] m = let* j := emit_string j (cstr s) in Ok (VP jb 0, T, put m j 0).
Proof.
  intros A Hb Ha Hby Hf. apply (src_emit_string d b [] (cstr s) [] m j Ha A Hby); [by right|done|]. rewrite app_nil_r. done.
Qed.
Lemma away_lit b : (b <= 4)%nat -> away b.
Proof. intros H. split_and!; lia. Qed.
Ltac all_bytes := unfold bytes; match goal with |- Forall ?Q ?l => let l' := eval vm_compute in l in change (Forall Q l') end; repeat (apply Forall_cons; split; [lia|]); apply Forall_nil; exact I.
Lemma lit_true m j d : at_ m j -> (7 < fuel)%nat -> call (S (S d)) "emit_string" [VP jb 0; VP 1 0] m = let* j := emit_string j (cstr "true") in Ok (VP jb 0, T, put m j 0).
Proof. intros A Hf. pose proof (at_lit _ _ A) as (H0&H1&H2&H3&H4). apply src_lit; try done; [apply away_lit; lia|all_bytes|cbn; lia]. Qed.
Lemma lit_false m j d : at_ m j -> (7 < fuel)%nat -> call (S (S d)) "emit_string" [VP jb 0; VP 2 0] m = let* j := emit_string j (cstr "false") in Ok (VP jb 0, T, put m j 0).
Proof. intros A Hf. pose proof (at_lit _ _ A) as (H0&H1&H2&H3&H4). apply src_lit; try done; [apply away_lit; lia|all_bytes|cbn; lia]. Qed.
Lemma lit_null m j d : at_ m j -> (7 < fuel)%nat -> call (S (S d)) "emit_string" [VP jb 0; VP 3 0] m = let* j := emit_string j (cstr "null") in Ok (VP jb 0, T, put m j 0).
Proof. intros A Hf. pose proof (at_lit _ _ A) as (H0&H1&H2&H3&H4). apply src_lit; try done; [apply away_lit; lia|all_bytes|cbn; lia]. Qed.
Lemma src_bool d m j b : at_ m j -> (7 < fuel)%nat -> call (S (S (S d))) "mu_jems_bool" [VP jb 0; truth b] m = let* j := mu_jems_bool p j b in Ok (VP jb 0, T, put m j 0).
Proof.
  intros A Hf. erewrite call_S by reflexivity. cs. unfold mu_jems_bool. dcom A. destruct b; cs; rewrite ?(lit_true _ _ _ A0 Hf), ?(lit_false _ _ _ A0 Hf); (destruct (emit_string _ _); cbn [bind]; [|done..]); cs; rewrite !put_put; done.
Qed.
Lemma src_true d m j : at_ m j -> (7 < fuel)%nat -> call (S (S (S d))) "mu_jems_true" [VP jb 0] m = let* j := mu_jems_true p j in Ok (VP jb 0, T, put m j 0).
Proof. intros A Hf. erewrite call_S by reflexivity. cs. unfold mu_jems_true. dcom A. cs. rewrite (lit_true _ _ _ A0 Hf). destruct (emit_string _ _); cbn [bind]; [|done..]. cs. rewrite !put_put. done. Qed.
Lemma src_false d m j : at_ m j -> (7 < fuel)%nat -> call (S (S (S d))) "mu_jems_false" [VP jb 0] m = let* j := mu_jems_false p j in Ok (VP jb 0, T, put m j 0).
Proof. intros A Hf. erewrite call_S by reflexivity. cs. unfold mu_jems_false. dcom A. cs. rewrite (lit_false _ _ _ A0 Hf). destruct (emit_string _ _); cbn [bind]; [|done..]. cs. rewrite !put_put. done. Qed.
Lemma src_null d m j : at_ m j -> (7 < fuel)%nat -> call (S (S (S d))) "mu_jems_null" [VP jb 0] m = let* j := mu_jems_null p j in Ok (VP jb 0, T, put m j 0).
Proof. intros A Hf. erewrite call_S by reflexivity. cs. unfold mu_jems_null. dcom A. cs. rewrite (lit_null _ _ _ A0 Hf). destruct (emit_string _ _); cbn [bind]; [|done..]. cs. rewrite !put_put. done. Qed.
Lemma src_string d sb s m j : away sb -> at_ m j -> bytes s -> (length s < fuel)%nat -> (7 < fuel)%nat -> heap m !! sb = Some (schar <$> s) ->
  call (S (S (S (S (S d))))) "mu_jems_string" [VP jb 0; VP sb 0] m = let* j := mu_jems_string p j s in Ok (VP jb 0, T, put m j (clen s)).
Proof.
  intros Ha A Hby Hf Hf7 Hs. erewrite call_S by reflexivity. cs. unfold mu_jems_string. dcom A. dchr A0 34. cs. change (34 mod 256) with 34 in *.
  rewrite put_put in *. destruct Ha as (Ha1&Ha2&Ha3). rewrite (src_quoted_string d sb s _ _ (conj Ha1 (conj Ha2 Ha3)) A1 Hby Hf Hf7) by (rewrite put_other by done; done).
  destruct (emit_quoted_string _ _) as [j2| |] eqn:Eq; cbn [bind]; [|done..].
  assert (A2 : at_ (put (put m (emit_char j0 34) (0 + 0)) j2 (clen s)) j2) by (apply (put_at _ _ _ _ A1); eapply quoted_string_ok; [apply A1|exact Eq]).
  cs. rewrite !put_put. change (34 mod 256) with 34. rewrite ?Nat.add_0_r. done.
Qed.
Lemma src_bytes d sb bs len m j : away sb -> at_ m j -> bytes bs -> 0 <= len < size_mod p -> (Z.to_nat len < fuel)%nat -> (7 < fuel)%nat -> heap m !! sb = Some (VI <$> bs) ->
  call (S (S (S (S (S d))))) "mu_jems_bytes" [VP jb 0; VP sb 0; VI len] m = let* j := mu_jems_bytes p j bs len in Ok (VP jb 0, T, put m j (Z.to_nat len)).
Proof.
  intros Ha A Hby Hlen Hf Hf7 Hs. erewrite call_S by reflexivity. cs. unfold mu_jems_bytes. dcom A. dchr A0 34. cs. change (34 mod 256) with 34 in *.
  rewrite put_put in *. destruct Ha as (Ha1&Ha2&Ha3). rewrite (src_quoted_bytes d sb bs len _ _ (conj Ha1 (conj Ha2 Ha3)) A1 Hby Hlen Hf Hf7) by (rewrite put_other by done; done).
  destruct (emit_quoted_bytes p _ _ _) as [j2| |] eqn:Eq; cbn [bind]; [|done..].
  assert (A2 : at_ (put (put m (emit_char j0 34) (0 + 0)) j2 (Z.to_nat len)) j2) by (apply (put_at _ _ _ _ A1); eapply quoted_bytes_ok; [apply A1|exact Eq]).
  cs. rewrite !put_put. change (34 mod 256) with 34. rewrite ?Nat.add_0_r. done.
Qed.
Lemma src_literal d sb bs len m j : away sb -> at_ m j -> bytes bs -> 0 <= len < size_mod p -> (Z.to_nat len < fuel)%nat -> heap m !! sb = Some (schar <$> bs) ->
  call (S (S (S d))) "mu_jems_literal" [VP jb 0; VP sb 0; VI len] m = let* j := mu_jems_literal p j bs len in Ok (VP jb 0, T, put m j 0).
Proof.
  intros Ha A Hby Hlen Hf Hs. erewrite call_S by reflexivity. cs. unfold mu_jems_literal. dcom A. 
  pose proof Ha as (Ha1&Ha2&Ha3).
  destruct (lit_loop (S d) sb len bs Ha Hby Hlen (S (Z.to_nat len)) fuel 0 VU j0 (put m j0 0) A0 ltac:(unfold int_max; lia) ltac:(rewrite Z.sub_0_r; lia) ltac:(rewrite Z.sub_0_r; lia)) as (i' & b' & Ho).
  { rewrite put_other by done. done. }
  cs. rewrite exec_SLoop. unfold env_b in Ho. rewrite ?Ho. destruct (literal_loop _ _ _ _ _ _); cbn [bind]; [|done..]. cs. rewrite put_put. done.
Qed.
Lemma fmt_d_bytes z : bytes (fmt_d z).
Proof.
  unfold fmt_d. apply Forall_app. split; [destruct (z <? 0); all_bytes|].
  destruct (JsonParse.digits_ok (Z.abs z) (Z.abs_nonneg z)) as [H _]. unfold dtext. apply Forall_fmap. eapply Forall_impl; [exact H|]. unfold JsonSpec.digit. cbn. intros; lia.
Qed.
Definition num_cells (z : Z) : list val := ((schar <$> snprintf 22 (fmt_d z)) ++ drop (length (snprintf 22 (fmt_d z))) (replicate 22 VU))%list.
Lemma snprintf_length n s : (length (snprintf (S n) s) <= S n)%nat.
Proof. unfold snprintf. rewrite app_length, take_length. cbn [length]. lia. Qed.
Lemma libc_snprintf m j z : at_ m j ->
  exists r, libc "snprintf" [VP (next m) 0; VI 22; VP 0 0; VI z] (local m (replicate 22 VU)) = Ok (VI r, int, local m (num_cells z)).
Proof.
  intros A. pose proof (local_at m j (replicate 22 VU) A) as A1. destruct A1 as [_ _ _ (H0 & _) _ _].
  exists (Z.of_nat (length (fmt_d z ++ []))).
  unfold libc. cbn [String.eqb Ascii.eqb Bool.eqb]. rewrite H0. cbn [ofopt bind].
  replace (printf _ _ z) with (Some (fmt_d z ++ [])%list).
  2: { change (drop (Z.to_nat 0) (nums (VI <$> lit_str_0))) with [37; 108; 100; 0]. change (length (VI <$> lit_str_0)) with 4%nat. cbn -[fmt_d]. done. }
  cbn [ofopt bind]. unfold write_cells. cbn [local heap]. rewrite lookup_insert. cbn [ofopt bind]. rewrite !app_nil_r. change (Z.to_nat 22) with 22%nat.
  pose proof (snprintf_length 21 (fmt_d z)) as Hl. unfold num_cells. set (t := snprintf 22 (fmt_d z)) in *. clearbody t.
  rewrite replicate_length. destruct (Z.leb_spec (0 + Z.of_nat (length t)) (Z.of_nat 22)); [|lia]. change (0 <=? 0) with true. cbn [andb bind]. change (Z.to_nat 0) with 0%nat. cbn [take Nat.add]. rewrite app_nil_l.
  unfold local. cbn [heap next]. rewrite insert_insert. done.
Qed.
Definition int64 (z : Z) : Prop := int64_min <= z <= int64_max.
Lemma conv_i64 z : int64 z -> conv p (Tint true W64) (VI z) = Ok (VI z).
Proof. intros Hz. cbn [conv num bind modw]. rewrite wrap_signed_id; [done|lia|done|]. unfold int64, int64_min, int64_max in Hz. change (18446744073709551616 / 2) with 9223372036854775808. lia. Qed.
Lemma src_integer d m j z : at_ m j -> (22 < fuel)%nat -> int64 z ->
  call (S (S (S d))) "mu_jems_integer" [VP jb 0; VI z] m = let* j := mu_jems_integer p j z in Ok (VP jb 0, T, put m j 1).
Proof.
  intros A Hf Hz. erewrite call_S by reflexivity. cstep. change (replicate (Z.to_nat (cells jems_prog (Tarr char 22))) VU) with (replicate 22 VU).
  assert (Hcv : conv p (Tint true W64) (VI z) = Ok (VI z)).
  { cbn [conv num bind modw]. rewrite wrap_signed_id; [done|lia|done|]. unfold int64, int64_min, int64_max in Hz. change (18446744073709551616 / 2) with 9223372036854775808. lia. }
  fold (local m (replicate 22 VU)). change (S (next m)) with (next (local m (replicate 22 VU))).
  destruct (libc_snprintf m j z A) as [r HL]. pose proof (local_at m j (num_cells z) A) as A1. set (b0 := replicate 22 VU) in *. clearbody b0.
  pose proof (src_commify (S d) _ _ A1) as Hcm. unfold mu_jems_integer.
  assert (Hst : forall j1, at_ (put (local m (num_cells z)) j1 0) j1 -> call (S (S d)) "emit_string" [VP jb 0; VP (next m) 0] (put (local m (num_cells z)) j1 0) =
    let* j := emit_string j1 (snprintf 22 (fmt_d z)) in Ok (VP jb 0, T, put (put (local m (num_cells z)) j1 0) j 0)).
  { intros j1 A2. apply (src_emit_string d (next m) (drop (length (snprintf 22 (fmt_d z))) (replicate 22 VU)) (snprintf 22 (fmt_d z)) [] _ j1 (away_new m j A) A2).
    - unfold snprintf. apply Forall_app. split; [apply Forall_take, fmt_d_bytes|all_bytes].
    - left. unfold snprintf. apply in_or_app. right. left. done.
    - pose proof (snprintf_length 21 (fmt_d z)). lia.
    - cbn [app]. fold (num_cells z). apply (local_obj m j). done. }
  set (nc := num_cells z) in *. clearbody nc. 
  cs. change (byte_size p jems_prog (Tarr char 22)) with 22. rewrite call_ext by done. cs. cbn [fst snd]. rewrite ?Hcm.
  destruct (commify p j) as [j1| |] eqn:Ec; cbn [bind]; [|done..].
  assert (A2 : at_ (put (local m nc) j1 0) j1) by (apply (put_at _ _ _ _ A1); eapply commify_ok; [apply A|exact Ec]). specialize (Hst j1 A2).
  cs. destruct (emit_string _ _) as [j2| |]; cbn [bind]; [|done..]. cs. rewrite put_put. do 2 f_equal. apply (local_end m j). done.
Qed.

(** *** key and value *)
Lemma string_ok s j j' : jok j -> mu_jems_string p j s = Ok j' -> jok j'.
Proof.
  intros H. unfold mu_jems_string. destruct (commify p j) as [j1| |] eqn:Ec; cbn [bind]; try done. apply commify_ok in Ec; [|done].
  destruct (emit_quoted_string _ _) eqn:Eq; cbn [bind]; try done. intros [= <-]. apply emit_char_ok. eapply quoted_string_ok; [|exact Eq]. by apply emit_char_ok.
Qed.
Ltac dkey A k :=
  lazymatch goal with |- context [mu_jems_string p ?j k] =>
    lazymatch type of A with at_ ?m _ =>
    let Ec := fresh "Ec" in let j1 := fresh "j" in let A1 := fresh "A" in
    destruct (mu_jems_string p j k) as [j1| |] eqn:Ec; cbn [bind]; [|done..];
    assert (A1 : at_ (put m j1 (clen k)) j1) by (apply (put_at m j); [exact A|eapply string_ok; [apply A|exact Ec]]) end end.
Ltac dlast := lazymatch goal with |- _ = bind ?x _ => destruct x as [?| |]; cbn [bind]; [|done..] end; cs; rewrite put_put; done.
Definition key_ok (m : mem) (kb : nat) (k : list Z) : Prop := away kb /\ bytes k /\ (length k < fuel)%nat /\ heap m !! kb = Some (schar <$> k).
Lemma src_key d kb k m j : (22 < fuel)%nat -> key_ok m kb k -> at_ m j -> 
  call (S (S (S (S (S d))))) "mu_jems_string" [VP jb 0; VP kb 0] m = let* j := mu_jems_string p j k in Ok (VP jb 0, T, put m j (clen k)).
Proof. intros Hf (H1&H2&H3&H4) A. apply src_string; try done. lia. Qed.
Lemma key_put m kb k j n : key_ok m kb k -> key_ok (put m j n) kb k.
Proof. intros (H1&H2&H3&H4). pose proof H1 as (?&?&?). split_and!; try done. rewrite put_other by done. done. Qed.
Lemma src_key_object_open d kb k m j : (22 < fuel)%nat -> key_ok m kb k -> at_ m j -> 
  call (S (S (S (S (S (S d)))))) "mu_jems_key_object_open" [VP jb 0; VP kb 0] m = let* j := mu_jems_key_object_open p j k in Ok (VP jb 0, T, put m j (clen k + 0)).
Proof.
  intros Hf HK A. assert (H7 : (7 < fuel)%nat) by lia. pose proof (src_key d kb k m j Hf HK A) as HS. erewrite call_S by reflexivity. unfold mu_jems_key_object_open. cs. dkey A k. cs.
  rewrite ?(src_object_open _ _ _ A0). dlast.
Qed.
Lemma src_key_array_open d kb k m j : (22 < fuel)%nat -> key_ok m kb k -> at_ m j -> 
  call (S (S (S (S (S (S d)))))) "mu_jems_key_array_open" [VP jb 0; VP kb 0] m = let* j := mu_jems_key_array_open p j k in Ok (VP jb 0, T, put m j (clen k + 0)).
Proof.
  intros Hf HK A. assert (H7 : (7 < fuel)%nat) by lia. pose proof (src_key d kb k m j Hf HK A) as HS. erewrite call_S by reflexivity. unfold mu_jems_key_array_open. cs. dkey A k. cs.
  rewrite ?(src_array_open _ _ _ A0). dlast.
Qed.
Lemma src_key_integer d kb k m j z : (22 < fuel)%nat -> key_ok m kb k -> at_ m j -> int64 z -> 
  call (S (S (S (S (S (S d)))))) "mu_jems_key_integer" [VP jb 0; VP kb 0; VI z] m = let* j := mu_jems_key_integer p j k z in Ok (VP jb 0, T, put m j (clen k + 1)).
Proof.
  intros Hf HK A HH. assert (H7 : (7 < fuel)%nat) by lia. pose proof (src_key d kb k m j Hf HK A) as HS. erewrite call_S by reflexivity. pose proof (conv_i64 z HH) as Hcv. unfold mu_jems_key_integer. cs. dkey A k. cs.
  rewrite ?(src_integer _ _ _ z A0 Hf HH). dlast.
Qed.
Lemma src_key_bool d kb k m j b : (22 < fuel)%nat -> key_ok m kb k -> at_ m j -> 
  call (S (S (S (S (S (S d)))))) "mu_jems_key_bool" [VP jb 0; VP kb 0; truth b] m = let* j := mu_jems_key_bool p j k b in Ok (VP jb 0, T, put m j (clen k + 0)).
Proof.
  intros Hf HK A. assert (H7 : (7 < fuel)%nat) by lia. pose proof (src_key d kb k m j Hf HK A) as HS. erewrite call_S by reflexivity. unfold mu_jems_key_bool. cs. dkey A k. cs.
  rewrite ?(src_bool _ _ _ b A0 H7). dlast.
Qed.
Lemma src_key_true d kb k m j : (22 < fuel)%nat -> key_ok m kb k -> at_ m j -> 
  call (S (S (S (S (S (S d)))))) "mu_jems_key_true" [VP jb 0; VP kb 0] m = let* j := mu_jems_key_true p j k in Ok (VP jb 0, T, put m j (clen k + 0)).
Proof.
  intros Hf HK A. assert (H7 : (7 < fuel)%nat) by lia. pose proof (src_key d kb k m j Hf HK A) as HS. erewrite call_S by reflexivity. unfold mu_jems_key_true. cs. dkey A k. cs.
  rewrite ?(src_true _ _ _ A0 H7). dlast.
Qed.
Lemma src_key_false d kb k m j : (22 < fuel)%nat -> key_ok m kb k -> at_ m j -> 
  call (S (S (S (S (S (S d)))))) "mu_jems_key_false" [VP jb 0; VP kb 0] m = let* j := mu_jems_key_false p j k in Ok (VP jb 0, T, put m j (clen k + 0)).
Proof.
  intros Hf HK A. assert (H7 : (7 < fuel)%nat) by lia. pose proof (src_key d kb k m j Hf HK A) as HS. erewrite call_S by reflexivity. unfold mu_jems_key_false. cs. dkey A k. cs.
  rewrite ?(src_false _ _ _ A0 H7). dlast.
Qed.
Lemma src_key_null d kb k m j : (22 < fuel)%nat -> key_ok m kb k -> at_ m j -> 
  call (S (S (S (S (S (S d)))))) "mu_jems_key_null" [VP jb 0; VP kb 0] m = let* j := mu_jems_key_null p j k in Ok (VP jb 0, T, put m j (clen k + 0)).
Proof.
  intros Hf HK A. assert (H7 : (7 < fuel)%nat) by lia. pose proof (src_key d kb k m j Hf HK A) as HS. erewrite call_S by reflexivity. unfold mu_jems_key_null. cs. dkey A k. cs.
  rewrite ?(src_null _ _ _ A0 H7). dlast.
Qed.
Lemma src_key_string d kb k m j sb s : (22 < fuel)%nat -> key_ok m kb k -> at_ m j -> away sb -> bytes s -> (length s < fuel)%nat -> heap m !! sb = Some (schar <$> s) ->
  call (S (S (S (S (S (S d)))))) "mu_jems_key_string" [VP jb 0; VP kb 0; VP sb 0] m = let* j := mu_jems_key_string p j k s in Ok (VP jb 0, T, put m j (clen k + clen s)).
Proof.
  intros Hf HK A Ha Hby Hl Hs. assert (H7 : (7 < fuel)%nat) by lia. pose proof (src_key d kb k m j Hf HK A) as HS. erewrite call_S by reflexivity. unfold mu_jems_key_string. cs. dkey A k. cs.
  pose proof Ha as (?&?&?). rewrite (src_string d sb s _ _ Ha A0 Hby Hl H7) by (rewrite put_other by done; done). dlast.
Qed.
Lemma src_key_bytes d kb k m j sb s len : (22 < fuel)%nat -> key_ok m kb k -> at_ m j -> away sb -> bytes s -> 0 <= len < size_mod p -> (Z.to_nat len < fuel)%nat -> heap m !! sb = Some (VI <$> s) ->
  call (S (S (S (S (S (S d)))))) "mu_jems_key_bytes" [VP jb 0; VP kb 0; VP sb 0; VI len] m = let* j := mu_jems_key_bytes p j k s len in Ok (VP jb 0, T, put m j (clen k + Z.to_nat len)).
Proof.
  intros Hf HK A Ha Hby Hlen Hl Hs. assert (H7 : (7 < fuel)%nat) by lia. pose proof (src_key d kb k m j Hf HK A) as HS. erewrite call_S by reflexivity. unfold mu_jems_key_bytes. cs. dkey A k. cs.
  pose proof Ha as (?&?&?). rewrite (src_bytes d sb s len _ _ Ha A0 Hby Hlen Hl H7) by (rewrite put_other by done; done). dlast.
Qed.
Lemma src_key_literal d kb k m j sb s len : (22 < fuel)%nat -> key_ok m kb k -> at_ m j -> away sb -> bytes s -> 0 <= len < size_mod p -> (Z.to_nat len < fuel)%nat -> heap m !! sb = Some (schar <$> s) ->
  call (S (S (S (S (S (S d)))))) "mu_jems_key_literal" [VP jb 0; VP kb 0; VP sb 0; VI len] m = let* j := mu_jems_key_literal p j k s len in Ok (VP jb 0, T, put m j (clen k + 0)).
Proof.
  intros Hf HK A Ha Hby Hlen Hl Hs. assert (H7 : (7 < fuel)%nat) by lia. pose proof (src_key d kb k m j Hf HK A) as HS. erewrite call_S by reflexivity. unfold mu_jems_key_literal. cs. dkey A k. cs.
  pose proof Ha as (?&?&?). rewrite (src_literal _ sb s len _ _ Ha A0 Hby Hlen Hl) by (rewrite put_other by done; done). dlast.
Qed.

(** *** the start *)
Lemma src_init d m j0 c0 lv maxl w a : length c0 = 5%nat -> heap m !! jb = Some c0 -> heap m !! vb = Some (lcells lv) -> heap m !! lb = Some (scells (sent j0)) -> literals m ->
  (forall k, (next m <= k)%nat -> heap m !! k = None) -> 0 <= maxl < size_mod p -> 0 <= a < size_mod p ->
  Forall (fun l => forall n, item_count l = Some n -> 0 <= n < size_mod p) lv ->
  call (S (S (S d))) "mu_jems_init" [VP jb 0; VP vb 0; VI maxl; VI w; VI a] m = let* j := mu_jems_init lv maxl w a j0 in Ok (VP jb 0, T, put m j 0).
Proof.
  intros Hl H1 H2 H3 H4 H5 Hm Ha Hn. do 6 (destruct c0 as [|? c0]; try discriminate Hl). clear Hl.
  pose proof (size_mod_big p) as Hb. set (j := set_curr_level (MkJ lv maxl 0 w a (sent j0)) 0).
  assert (Hj : jok j) by (split; cbn; try done; lia).
  assert (Hnx : forall b, heap m !! b <> None -> (b < next m)%nat).
  { intros b Hb'. destruct (decide (b < next m)%nat); [done|]. rewrite H5 in Hb' by lia. done. }
  assert (jb < next m)%nat by (apply Hnx; by rewrite H1).
  assert (A : at_ (MkMem (<[jb := jcells j]> (heap m)) (next m)) j).
  { split; cbn [heap next]; try done; try (rewrite lookup_insert_ne by done; done); try (rewrite lookup_insert; done).
    - destruct H4 as (?&?&?&?&?). unfold literals. cbn [heap]. rewrite !lookup_insert_ne by lia. done.
    - intros k Hk. rewrite lookup_insert_ne by lia. by apply H5. }
  erewrite call_S by reflexivity. cs.
  erewrite call_S by reflexivity. unfold mu_jems_init, mu_jems_reset. cbn [set_curr_level levels max_level curr_level writer arg sent]. change (MkJ lv maxl 0 w a (sent j0)) with j.
  pose proof (exec_fresh d _ j [("jems", BReg T (VP jb 0))] (EInt 0) false A eq_refl ltac:(intros; right; reflexivity) eq_refl) as Hx.
  cstep. unfold EV in Hx.
  set (R := SExpr (EAssign (EArrow (CLang.ECall "level_ref" [EVar "jems"]) "item_count") (EInt 0))) in *.
  set (R2 := SExpr (EAssign (EArrow (CLang.ECall "level_ref" [EVar "jems"]) "is_object") (EInt 0))) in *.
  clearbody R R2. lazymatch goal with |- context [SSeq R ?X] => remember (SSeq R X) as W eqn:HW end.
  cs. change [VP vb 0; VI maxl; VI 0; VI w; VI a] with (jcells j). rewrite HW, seq_assoc, exec_SSeq, Hx. 
  destruct (set_item_count _ _); cbn [bind]; try done. destruct (set_is_object _ _); cbn [bind]; try done. cs. do 2 f_equal.
  unfold put. cbn [heap next]. rewrite insert_insert. done.
Qed.
Lemma src_curr d m j : at_ m j -> call (S d) "mu_jems_curr_level" [VP jb 0] m = Ok (VI (mu_jems_curr_level j), Tsize, m).
Proof. intros A. pose proof A as [H1 H2 H3 H4 H5 [Hm Hc Ha Hn]]. unfold jcells in H1. erewrite call_S by reflexivity. cs. done. Qed.
Lemma src_item_count d m j : at_ m j -> call (S (S d)) "mu_jems_item_count" [VP jb 0] m = let* n := mu_jems_item_count j in Ok (VI n, Tsize, m).
Proof.
  intros A. pose proof A as [H1 H2 H3 H4 H5 [Hm Hc Ha Hn]]. unfold jcells in H1. erewrite call_S by reflexivity.
  unfold mu_jems_item_count, get_item_count.
  destruct (ld (levels j) (curr_level j)) as [l| |] eqn:El; [|pose proof (level_out _ El (proj1 Hc)) as [Hx|Hx]; [|pose proof (ub_cnt _ _ (proj1 Hc) El) as [Hu _]]|by apply ld_noNF in El]; cbn [bind].
  2: { cs. done. }
  2: { cs. done. }
  pose proof (level_in _ _ El (proj1 Hc)) as Hx.
  destruct (item_count l) as [n|] eqn:En; cbn [init_read bind].
  2: { assert (Hcell : cnt_cell l = VU) by (unfold cnt_cell; by rewrite En). cs. rewrite Hcell. done. }
  assert (Hcell : cnt_cell l = VI n) by (unfold cnt_cell; by rewrite En).
  assert (Hnr : 0 <= n < size_mod p) by (eapply ld_Forall in Hn; [|exact El]; cbn beta in Hn; auto).
  cs. rewrite Hcell. cs. done.
Qed.
End jems.
