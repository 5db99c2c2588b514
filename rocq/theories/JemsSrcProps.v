(** * Property C115: the text of mu_jems.c, run by the rules of C *)
From Verif Require Import JsonSpec JsonParse JemsModel JemsSpec JemsProofs JemsDouble JemsProofs2 JemsProps JemsExact.
From Verif Require Import CSym SrcJems JemsSrc.
Open Scope string_scope. Open Scope Z_scope.
Notation length := List.length.

(** ** A user program that makes a list of calls.  The strings and byte arrays it passes are objects of its own,
    which exist while the call lasts; the writer it installs keeps a record of what it is given. *)
Definition vname (v : vcall) : string :=
  match v with
  | CObjectOpen => "object_open" | CArrayOpen => "array_open" | CNumber _ => "number" | CInteger _ => "integer" | CString _ => "string"
  | CBytes _ _ => "bytes" | CBool _ => "bool" | CTrue => "true" | CFalse => "false" | CNull => "null" | CLiteral _ _ => "literal"
  end.
(** char arrays and byte arrays *)
Definition vobjs (v : vcall) : list (list val) :=
  match v with CString s => [schar <$> s] | CBytes b _ => [VI <$> b] | CLiteral l _ => [schar <$> l] | _ => [] end.
(** [b]: where they are *)
Definition vargs (b : nat) (v : vcall) : list val :=
  match v with
  | CInteger z => [VI z] | CString _ => [VP b 0] | CBytes _ n | CLiteral _ n => [VP b 0; VI n] | CBool x => [truth x] | _ => []
  end.
Definition name (c : JemsModel.call) : string :=
  match c with
  | CVal v => "mu_jems_" ++ vname v | CKey _ v => "mu_jems_key_" ++ vname v
  | CObjectClose => "mu_jems_object_close" | CArrayClose => "mu_jems_array_close" | CReset => "mu_jems_reset"
  end.
Definition objects (c : JemsModel.call) : list (list val) := match c with CVal v => vobjs v | CKey k v => (schar <$> k) :: vobjs v | _ => [] end.
Definition arguments (b : nat) (c : JemsModel.call) : list val := match c with CVal v => vargs b v | CKey _ v => VP b 0 :: vargs (S b) v | _ => [] end.
Fixpoint place (os : list (list val)) (m : mem) : mem := match os with [] => m | o :: os => place os (local m o) end.
Fixpoint unplace (b : nat) (n : nat) (m : mem) : mem :=
  match n with O => m | S n => let m := unplace (S b) n m in MkMem (delete b (heap m)) (next m) end.
Section program.
Context (p : plat) (fuel depth : nat) (jb lb : nat).
Notation run := (CLang.call p jems_prog fuel libc (user_writer lb) depth).
Definition user_call (c : JemsModel.call) (m : mem) : res mem :=
  let* '(_, _, m') := run (name c) (VP jb 0 :: arguments (next m) c) (place (objects c) m) in
  Ok (unplace (next m) (length (objects c)) m').
Fixpoint user_calls (cs : list JemsModel.call) (m : mem) : res mem :=
  match cs with [] => Ok m | c :: cs => let* m := user_call c m in user_calls cs m end.
(** mu_jems_init, then the calls *)
Definition user_run (vb : nat) (maxl w a : Z) (cs : list JemsModel.call) (m : mem) : res mem :=
  let* '(_, _, m) := run "mu_jems_init" [VP jb 0; VP vb 0; VI maxl; VI w; VI a] m in user_calls cs m.
End program.

(** arguments that C can pass, and enough loop steps for them; no doubles, which the syntax does not have *)
Definition varg_ok (p : plat) (fuel : nat) (v : vcall) : Prop :=
  match v with
  | CNumber _ => False
  | CInteger z => JemsSpec.int64 z
  | CString s => Forall byte s /\ (length s < fuel)%nat
  | CBytes b n | CLiteral b n => Forall byte b /\ 0 <= n < size_mod p /\ (Z.to_nat n < fuel)%nat
  | _ => True
  end.
Definition arg_ok (p : plat) (fuel : nat) (c : JemsModel.call) : Prop :=
  match c with CVal v => varg_ok p fuel v | CKey k v => Forall byte k /\ (length k < fuel)%nat /\ varg_ok p fuel v | _ => True end.
(** the memory before the initialisation: the struct and the levels may hold anything *)
Record ready (p : plat) (jb vb lb : nat) (old : list (Z * Z * Z)) (lv : list jlevel) (m : mem) : Prop := {
  rd_struct : exists c, heap m !! jb = Some c /\ length c = 5%nat;
  rd_levels : heap m !! vb = Some (lcells lv);
  rd_counts : Forall (fun l => forall n, item_count l = Some n -> 0 <= n < size_mod p) lv;
  rd_log : heap m !! lb = Some (scells old);
  rd_literals : literals m;
  rd_new : forall k, (next m <= k)%nat -> heap m !! k = None;
  rd_distinct : jb <> vb /\ jb <> lb /\ vb <> lb /\ (4 < jb)%nat /\ (4 < vb)%nat /\ (4 < lb)%nat }.

Section proof.
Context (p : plat) (fuel : nat) (jb vb lb : nat).
Context (Hjv : jb <> vb) (Hjl : jb <> lb) (Hvl : vb <> lb) (Hj4 : (4 < jb)%nat) (Hv4 : (4 < vb)%nat) (Hl4 : (4 < lb)%nat).
Context (Hf : (22 < fuel)%nat).
Notation at_ := (at_ p jb vb lb).
Notation put := (put jb vb lb).
Notation jok := (jok p).
Notation T := (Tptr (Tstruct "mu_jems_t")).
Lemma place_at os : forall m j, at_ m j -> at_ (place os m) j.
Proof. induction os as [|o os IH]; intros m j A; [done|]. cbn [place]. apply IH. eapply local_at; eassumption. Qed.
Lemma unplace_put os : forall m j j' k, at_ m j -> unplace (next m) (length os) (put (place os m) j' k) = put m j' (length os + k).
Proof.
  induction os as [|o os IH]; intros m j j' k A; [done|]. cbn [place length unplace].
  change (S (next m)) with (next (local m o)). rewrite (IH (local m o) j) by (eapply local_at; eassumption).
  eapply local_end; eassumption.
Qed.
Definition vgrow (v : vcall) : nat := match v with CInteger _ => 1%nat | CString s => clen s | CBytes _ n => Z.to_nat n | _ => 0%nat end.
Definition grow (c : JemsModel.call) : nat := match c with CVal v => vgrow v | CKey k v => (clen k + vgrow v)%nat | _ => 0%nat end.
Lemma bytes_eq s : Forall byte s -> bytes s. Proof. done. Qed.
Lemma src_call_ok d c m j : at_ m j -> arg_ok p fuel c ->
  CLang.call p jems_prog fuel libc (user_writer lb) (6 + d) (name c) (VP jb 0 :: arguments (next m) c) (place (objects c) m) =
    let* j' := JemsModel.exec p j c in Ok (VP jb 0, T, put (place (objects c) m) j' (grow c)).
Proof.
  intros A Hc. pose proof (place_at (objects c) m j A) as A1. assert (H7 : (7 < fuel)%nat) by lia.
  assert (Haw : away jb vb lb (next m)) by (eapply away_new; eassumption).
  assert (Haw2 : away jb vb lb (S (next m))) by (change (S (next m)) with (next (local m [])); eapply (away_new p jb vb lb); try eassumption; eapply local_at; eassumption).
  assert (Hob : forall o, heap (local m o) !! next m = Some o) by (intros o; cbn [local heap]; by rewrite lookup_insert).
  assert (Hob2 : forall o o', heap (local (local m o) o') !! next m = Some o) by (intros o o'; cbn [local heap next]; rewrite lookup_insert_ne by lia; by rewrite lookup_insert).
  assert (Hob3 : forall o o', heap (local (local m o) o') !! S (next m) = Some o') by (intros o o'; cbn [local heap next]; by rewrite lookup_insert).
  destruct c as [v|k v| | |].
  - cbn [arg_ok] in Hc. destruct v; cbn [varg_ok] in Hc; cbn [name vname String.append objects vobjs arguments vargs place grow vgrow JemsModel.exec Nat.add] in *.
    + by apply src_object_open.
    + by apply src_array_open.
    + done.
    + by apply src_integer.
    + destruct Hc. by apply src_string.
    + destruct Hc as (?&?&?). by apply src_bytes.
    + by apply src_bool.
    + by apply src_true.
    + by apply src_false.
    + by apply src_null.
    + destruct Hc as (?&?&?). by apply src_literal.
  - cbn [arg_ok] in Hc. destruct Hc as (Hk1 & Hk2 & Hc).
    destruct v; cbn [varg_ok] in Hc; cbn [name vname String.append objects vobjs arguments vargs place grow vgrow JemsModel.exec Nat.add] in *.
    + by apply src_key_object_open.
    + by apply src_key_array_open.
    + done.
    + by apply src_key_integer.
    + destruct Hc. by apply src_key_string.
    + destruct Hc as (?&?&?). by apply src_key_bytes.
    + by apply src_key_bool.
    + by apply src_key_true.
    + by apply src_key_false.
    + by apply src_key_null.
    + destruct Hc as (?&?&?). by apply src_key_literal.
  - by apply src_object_close.
  - by apply src_array_close.
  - by apply src_reset.
Qed.
Lemma exec_jok c j j' : jok j -> JemsModel.exec p j c = Ok j' -> jok j'.
Proof.
  intros Hj.
  assert (Hcom : forall (f : jems -> res jems), (forall j1 j2, jok j1 -> f j1 = Ok j2 -> jok j2) -> forall j1 j2, jok j1 -> (let* x := commify p j1 in f x) = Ok j2 -> jok j2).
  { intros f Hff j1 j2 H1. destruct (commify p j1) eqn:E; cbn [bind]; try done. apply Hff. eapply commify_ok; eassumption. }
  assert (Hes : forall s j1 j2, jok j1 -> (let* x := commify p j1 in emit_string x s) = Ok j2 -> jok j2) by (intros s; apply Hcom; intros ? ?; apply emit_string_ok).
  assert (Hop : forall c0 b j1 j2, jok j1 -> (let* x := commify p j1 in push_level p (emit_char x c0) b) = Ok j2 -> jok j2)
    by (intros c0 b; apply Hcom; intros x y Hx E; eapply (push_ok p jb vb lb Hjv Hjl Hvl Hj4 Hv4 Hl4); [|exact E]; by apply emit_char_ok).
  assert (Hv : forall v j1 j2, jok j1 -> match v with CNumber _ => False | _ => True end -> JemsModel.exec p j1 (CVal v) = Ok j2 -> jok j2).
  { intros v j1 j2 H1 Hd. destruct v; cbn [JemsModel.exec]; try done.
    - apply Hop; done.
    - apply Hop; done.
    - apply Hes; done.
    - apply string_ok; done.
    - apply (Hcom (fun j => let* j := emit_quoted_bytes p (emit_char j 34) b len in Ok (emit_char j 34))); [|done]. intros x y Hx. destruct (emit_quoted_bytes p _ _ _) eqn:E; cbn [bind]; try done. intros [= <-]. apply emit_char_ok.
      eapply quoted_bytes_ok; [|exact E]. by apply emit_char_ok.
    - apply Hes; done.
    - apply Hes; done.
    - apply Hes; done.
    - apply Hes; done.
    - apply (Hcom (fun j => literal_loop p (S (Z.to_nat n)) j 0 l n)); [|done]. intros x y Hx E. eapply literal_ok; eassumption. }
  destruct c as [v|k v| | |].
  - destruct v; try (apply Hv; done). cbn [JemsModel.exec]. unfold mu_jems_number. destruct (int64_of_double d); cbn [bind]; try done. apply Hes. done.
  - destruct (mu_jems_string p j k) as [j1| |] eqn:Ek.
    2, 3: destruct v; cbn [JemsModel.exec]; unfold mu_jems_key_object_open, mu_jems_key_array_open, mu_jems_key_number, mu_jems_key_integer, mu_jems_key_string, mu_jems_key_bytes, mu_jems_key_bool, mu_jems_key_true, mu_jems_key_false, mu_jems_key_null, mu_jems_key_literal; rewrite Ek; done.
    pose proof (string_ok _ _ _ _ Hj Ek) as H1.
    assert (Hx : JemsModel.exec p j (CKey k v) = JemsModel.exec p j1 (CVal v)).
    { destruct v; cbn [JemsModel.exec]; unfold mu_jems_key_object_open, mu_jems_key_array_open, mu_jems_key_number, mu_jems_key_integer, mu_jems_key_string, mu_jems_key_bytes, mu_jems_key_bool, mu_jems_key_true, mu_jems_key_false, mu_jems_key_null, mu_jems_key_literal; rewrite Ek; done. }
    rewrite Hx. destruct v; try (apply Hv; done). cbn [JemsModel.exec]. unfold mu_jems_number. destruct (int64_of_double d); cbn [bind]; try done. apply Hes. done.
  - intros [= <-]. by apply pop_ok, emit_char_ok.
  - intros [= <-]. by apply pop_ok, emit_char_ok.
  - by apply (reset_ok p jb vb lb Hjv Hjl Hvl Hj4 Hv4 Hl4).
Qed.
Lemma calls_ok d cs : forall m j, at_ m j -> Forall (arg_ok p fuel) cs ->
  exists k, user_calls p fuel (6 + d) jb lb cs m = let* j' := exec_all p j cs in Ok (put m j' k).
Proof.
  induction cs as [|c cs IH]; intros m j A Hc; cbn [user_calls exec_all].
  - exists 0%nat. cbn [bind]. erewrite put_same by eassumption. done.
  - apply Forall_cons in Hc as [Hc Hcs]. unfold user_call. rewrite (src_call_ok d c m j A Hc).
    destruct (JemsModel.exec p j c) as [j1| |] eqn:E; cbn [bind]; [|by exists 0%nat..].
    rewrite (unplace_put _ m j) by done. set (k1 := (length (objects c) + grow c)%nat).
    assert (A1 : at_ (put m j1 k1) j1) by (eapply (put_at p jb vb lb); try eassumption; eapply exec_jok; [apply A|exact E]).
    destruct (IH _ _ A1 Hcs) as [k2 Hk]. exists (k1 + k2)%nat. rewrite Hk. destruct (exec_all p j1 cs); cbn [bind]; [|done..]. rewrite put_put by done. done.
Qed.
Lemma exec_all_jok cs : forall j j', jok j -> exec_all p j cs = Ok j' -> jok j'.
Proof.
  induction cs as [|c cs IH]; intros j j' Hj; cbn [exec_all]; [by intros [= <-]|]. destruct (JemsModel.exec p j c) eqn:E; cbn [bind]; try done. apply IH. eapply exec_jok; eassumption.
Qed.
End proof.

(** the model's loops always end *)
Lemma session_fuel p S cs : Forall (fun c => exists fuel, arg_ok p fuel c) cs -> session p S cs <> NoFuel.
Proof.
  assert (Hset : forall j n, set_item_count j n <> NoFuel).
  { intros j n. unfold set_item_count. pose proof (ld_noNF (levels j) (curr_level j)). destruct (ld _ _); cbn [bind]; try done.
    match goal with |- bind ?x _ <> _ => pose proof (st_noNF (levels j) (curr_level j) (MkLevel (Some n) (is_object a))); destruct x end; done. }
  assert (Hset2 : forall j b, set_is_object j b <> NoFuel).
  { intros j b. unfold set_is_object. pose proof (ld_noNF (levels j) (curr_level j)). destruct (ld _ _); cbn [bind]; try done.
    match goal with |- bind ?x _ <> _ => pose proof (st_noNF (levels j) (curr_level j) (MkLevel (item_count a) (Some b))); destruct x end; done. }
  assert (Hget : forall j, get_item_count j <> NoFuel).
  { intros j. unfold get_item_count. pose proof (ld_noNF (levels j) (curr_level j)). destruct (ld _ _); cbn [bind]; try done. destruct (item_count a); done. }
  assert (Hget2 : forall j, get_is_object j <> NoFuel).
  { intros j. unfold get_is_object. pose proof (ld_noNF (levels j) (curr_level j)). destruct (ld _ _); cbn [bind]; try done. destruct (is_object a); done. }
  assert (Hres : forall j, mu_jems_reset j <> NoFuel).
  { intros j. unfold mu_jems_reset. pose proof (Hset (set_curr_level j 0) 0). destruct (set_item_count _ _); cbn [bind]; try done. }
  assert (Hcom : forall j, commify p j <> NoFuel).
  { intros j. unfold commify. pose proof (Hget j). destruct (get_item_count j); cbn [bind]; try done. pose proof (Hget2 j). destruct (get_is_object j) as [o| |]; cbn [bind]; try done.
    match goal with |- bind (get_item_count ?x) _ <> _ => pose proof (Hget x); destruct (get_item_count x) end; cbn [bind]; done. }
  assert (Hpush : forall j b, push_level p j b <> NoFuel).
  { intros j b. unfold push_level. destruct (_ <? _); [|done]. match goal with |- bind ?x _ <> _ => pose proof (Hset (set_curr_level j (to_size p (curr_level j + 1))) 0); destruct x end; cbn [bind]; done. }
  assert (Hstr : forall s j, emit_string j s <> NoFuel).
  { induction s as [|c s IH]; intros j; cbn [emit_string]; [done|]. destruct (_ =? _); done. }
  assert (Hqb : forall j b, emit_quoted_byte j b <> NoFuel).
  { intros j b. unfold emit_quoted_byte. destruct (_ || _); [|done]. unfold sprintf. destruct (Nat.ltb _ _); cbn [bind]; done. }
  assert (Hqs : forall s j, emit_quoted_string j s <> NoFuel).
  { induction s as [|c s IH]; intros j; cbn [emit_quoted_string]; [done|]. destruct (_ =? _); [done|]. pose proof (Hqb j c). destruct (emit_quoted_byte j c); cbn [bind]; done. }
  assert (Hi : forall i k, iadd i 1 = Ok k -> k = i + 1 /\ k <= int_max).
  { intros i k. unfold iadd, ichk, chk. destruct (in_range _ _ _) eqn:Er; [|done]. unfold in_range in Er. apply andb_prop in Er as [_ Er]. apply Z.leb_le in Er. intros [= <-]. done. }
  assert (Hi' : forall i, iadd i 1 <> NoFuel) by (intros i; unfold iadd, ichk, chk; destruct (in_range _ _ _); done).
  pose proof (size_mod_big p) as Hbig.
  assert (Hqbs : forall bs len k j i, 0 <= i <= int_max -> (Z.to_nat (len - i) < k)%nat -> emit_quoted_bytes_loop p k j i bs len <> NoFuel).
  { intros bs len. induction k as [|k IH]; intros j i Hi0 Hk; [lia|]. cbn [emit_quoted_bytes_loop]. rewrite to_size_id by (unfold int_max in *; lia). destruct (Z.ltb_spec i len); [|done].
    pose proof (ld_noNF bs i). destruct (ld bs i); cbn [bind]; try done. pose proof (Hqb j a). destruct (emit_quoted_byte j a); cbn [bind]; try done.
    pose proof (Hi' i). destruct (iadd i 1) as [k'| |] eqn:Ea; cbn [bind]; try done. apply Hi in Ea as [-> ?]. apply IH; lia. }
  assert (Hlit : forall bs len k j i, 0 <= i <= int_max -> (Z.to_nat (len - i) < k)%nat -> literal_loop p k j i bs len <> NoFuel).
  { intros bs len. induction k as [|k IH]; intros j i Hi0 Hk; [lia|]. cbn [literal_loop]. rewrite to_size_id by (unfold int_max in *; lia). destruct (Z.ltb_spec i len); [|done].
    pose proof (ld_noNF bs i). destruct (ld bs i); cbn [bind]; try done.
    pose proof (Hi' i). destruct (iadd i 1) as [k'| |] eqn:Ea; cbn [bind]; try done. apply Hi in Ea as [-> ?]. apply IH; lia. }
  assert (Hjs : forall j s, mu_jems_string p j s <> NoFuel).
  { intros j s. unfold mu_jems_string. pose proof (Hcom j). destruct (commify p j) as [j1| |]; cbn [bind]; try done. pose proof (Hqs s (emit_char j1 34)). destruct (emit_quoted_string _ _); cbn [bind]; done. }
  assert (Hv : forall v j, (exists fuel, varg_ok p fuel v) -> JemsModel.exec p j (CVal v) <> NoFuel).
  { intros v j [fuel Hv]. pose proof (Hcom j) as Hcj. destruct v; cbn [JemsModel.exec varg_ok] in *; try done;
      unfold mu_jems_object_open, mu_jems_array_open, mu_jems_integer, mu_jems_bytes, mu_jems_bool, mu_jems_true, mu_jems_false, mu_jems_null, mu_jems_literal;
      try apply Hjs; destruct (commify p j) as [j1| |]; cbn [bind]; try done; auto.
    - unfold emit_quoted_bytes. pose proof (Hqbs b len (Datatypes.S (Z.to_nat len)) (emit_char j1 34) 0 ltac:(unfold int_max; lia) ltac:(rewrite Z.sub_0_r; lia)). destruct (emit_quoted_bytes_loop _ _ _ _ _ _); cbn [bind]; done.
    - apply Hlit; [unfold int_max; lia|rewrite Z.sub_0_r; lia]. }
  assert (He : forall c j, (exists fuel, arg_ok p fuel c) -> JemsModel.exec p j c <> NoFuel).
  { intros [v|k v| | |] j Hx; cbn [arg_ok] in Hx; [by apply Hv| |done|done|apply Hres].
    destruct Hx as (fuel & _ & _ & Hx). pose proof (Hjs j k) as Hk.
    destruct v; cbn [JemsModel.exec]; unfold mu_jems_key_object_open, mu_jems_key_array_open, mu_jems_key_number, mu_jems_key_integer, mu_jems_key_string, mu_jems_key_bytes, mu_jems_key_bool, mu_jems_key_true, mu_jems_key_false, mu_jems_key_null, mu_jems_key_literal;
      (destruct (mu_jems_string p j k) as [j1| |]; cbn [bind]; try done); match type of Hx with varg_ok _ _ ?v => apply (Hv v j1) end; by exists fuel. }
  intros Hcs. unfold session, mu_jems_init. pose proof (Hres (MkJ (lv S) (maxl S) (curr_level (j0 S)) (wr S) (ar S) (sent (j0 S)))) as Hr. destruct (mu_jems_reset _) as [j| |]; cbn [bind]; try done. clear Hr.
  revert j. induction cs as [|c cs IH]; intros j; cbn [exec_all]; [done|]. apply Forall_cons in Hcs as [Hc Hcs]. pose proof (He c j Hc). destruct (JemsModel.exec p j c); cbn [bind]; try done. by apply IH.
Qed.

(** ** C115 *)
(** A user program initialises the generator and makes any calls: run from the source, it calls the writer with
    the same characters, in the same order, as the model says, touches no object but the struct, the levels and what the
    writer writes to, is undefined exactly when the model is, and always ends; mu_jems_curr_level and mu_jems_item_count
    return what the model says. *)
Theorem C115_source_jems : forall p fuel d jb vb lb S m cs, (22 < fuel)%nat -> ready p jb vb lb (sent (j0 S)) (lv S) m ->
  0 <= maxl S < size_mod p -> 0 <= ar S < size_mod p -> Forall (arg_ok p fuel) cs ->
  let r := user_run p fuel (6 + d) jb lb vb (maxl S) (wr S) (ar S) cs m in
  match session p S cs with
  | Ok j => exists m', r = Ok m' /\ heap m' !! lb = Some (scells (sent j)) /\
      (forall b, b <> jb -> b <> vb -> b <> lb -> heap m' !! b = heap m !! b) /\
      CLang.call p jems_prog fuel libc (user_writer lb) (2 + d) "mu_jems_curr_level" [VP jb 0] m' = Ok (VI (mu_jems_curr_level j), Tsize, m') /\
      CLang.call p jems_prog fuel libc (user_writer lb) (2 + d) "mu_jems_item_count" [VP jb 0] m' = let* n := mu_jems_item_count j in Ok (VI n, Tsize, m')
  | UB => r = UB
  | NoFuel => False
  end.
Proof.
  intros p fuel d jb vb lb S m cs Hf [(c0 & Hc0 & Hl0) Hv Hcnt Hlog Hlit Hnew (D1&D2&D3&D4&D5&D6)] Hm Ha Hcs r.
  assert (Hfu : session p S cs <> NoFuel) by (apply session_fuel; eapply Forall_impl; [exact Hcs|]; intros c Hc; by exists fuel).
  unfold r, user_run. change (6 + d)%nat with (Datatypes.S (Datatypes.S (Datatypes.S (3 + d)))). rewrite (src_init p fuel jb vb lb D1 D2 D3 D4 D5 D6 (3 + d) m (j0 S) c0 (lv S) (maxl S) (wr S) (ar S) Hl0 Hc0 Hv Hlog Hlit Hnew Hm Ha Hcnt).
  unfold session in *. destruct (mu_jems_init (lv S) (maxl S) (wr S) (ar S) (j0 S)) as [j1| |] eqn:Ei; cbn [bind] in *; [|done..].
  assert (Hj1 : jok p j1).
  { unfold mu_jems_init, mu_jems_reset in Ei. pose proof (size_mod_big p) as Hb. destruct (set_item_count _ _) eqn:E; cbn [bind] in Ei; try done.
    eapply set_object_ok; [|exact Ei]. eapply (set_count_ok p _ 0); [|lia|exact E]. split; cbn; try done; lia. }
  assert (A1 : at_ p jb vb lb (put jb vb lb m j1 0) j1).
  { assert (Hn : forall b, heap m !! b <> None -> (b < next m)%nat).
    { intros b Hb. destruct (decide (b < next m)%nat); [done|]. rewrite Hnew in Hb by lia. done. }
    assert (jb < next m)%nat by (apply Hn; by rewrite Hc0). assert (vb < next m)%nat by (apply Hn; by rewrite Hv). assert (lb < next m)%nat by (apply Hn; by rewrite Hlog).
    split; try done.
    - unfold put. cbn [heap]. rewrite !lookup_insert_ne by done. by rewrite lookup_insert.
    - unfold put. cbn [heap]. rewrite lookup_insert_ne by done. by rewrite lookup_insert.
    - unfold put. cbn [heap]. by rewrite lookup_insert.
    - destruct Hlit as (?&?&?&?&?). unfold literals. rewrite !put_other by lia. done.
    - intros b Hb. cbn [put next] in Hb. rewrite put_other by lia. apply Hnew. lia. }
  destruct (calls_ok p fuel jb vb lb D1 D2 D3 D4 D5 D6 Hf d cs _ _ A1 Hcs) as [k Hk].
  change (Datatypes.S (Datatypes.S (Datatypes.S (3 + d)))) with (6 + d)%nat. replace (user_calls p fuel (6 + d) jb lb cs (put jb vb lb m j1 0)) with (let* j' := exec_all p j1 cs in Ok (put jb vb lb (put jb vb lb m j1 0) j' k)).
  destruct (exec_all p j1 cs) as [j2| |] eqn:Ex; cbn [bind]; [|done..].
  pose proof (exec_all_jok p jb vb lb D1 D2 D3 D4 D5 D6 cs _ _ Hj1 Ex) as Hj2.
  pose proof (put_at p jb vb lb D1 D2 D3 D4 D5 D6 _ _ _ k A1 Hj2) as A2.
  exists (put jb vb lb (put jb vb lb m j1 0) j2 k). split; [done|]. split; [apply A2|]. split.
  { intros b ? ? ?. rewrite !put_other by done. done. }
  split; [by eapply src_curr|]. by eapply (src_item_count p fuel jb vb lb).
Qed.

(** the writer's record is the calls it has had *)
Lemma scells_inj : forall l l', scells l = scells l' -> l = l'.
Proof.
  induction l as [|[[w c] a] l IH]; intros [|[[w' c'] a'] l'] E; try discriminate E; [done|]. cbn in E. injection E as -> -> -> E. by rewrite (IH l').
Qed.

(** The calls that describe a JSON value, made from the source, write a text that parses back to that value and to no
    other. *)
Theorem C115_source_document : forall p fuel d jb vb lb S m v cs, (22 < fuel)%nat -> setting_ok p S -> 0 <= ar S < size_mod p ->
  ready p jb vb lb (sent (j0 S)) (lv S) m -> describes v cs -> narrow p v -> Z.of_nat (depth v) < maxl S -> Forall (arg_ok p fuel) cs ->
  exists m' t, user_run p fuel (6 + d) jb lb vb (maxl S) (wr S) (ar S) cs m = Ok m' /\
    heap m' !! lb = Some (scells (sent (j0 S) ++ map (fun c => (wr S, c, ar S)) t)%list) /\
    (forall b, b <> jb -> b <> vb -> b <> lb -> heap m' !! b = heap m !! b) /\
    json_text v t /\ (forall v', json_text v' t -> v' = v) /\ parse t = Some v.
Proof.
  intros p fuel d jb vb lb S m v cs Hf HS Ha Hr Hd Hn Hdep Hcs.
  destruct (C60_parses_back p S v cs HS Hd Hn Hdep) as (j & t & E & Hw & H1 & H2 & H3). destruct HS as [HS1 HS2].
  pose proof (C115_source_jems p fuel d jb vb lb S m cs Hf Hr ltac:(lia) Ha Hcs) as H. cbn zeta in H. rewrite E in H.
  destruct H as (m' & Hm & Hl & Ho & _). exists m', t. split; [exact Hm|]. split; [rewrite Hl; do 2 f_equal; exact Hw|]. done.
Qed.
(** Any calls with legal arguments, in any order: the source is never undefined, and it writes exactly the text that the
    specification of C75 gives. *)
Theorem C115_source_text : forall p fuel d jb vb lb S m cs, (22 < fuel)%nat -> setting_ok p S -> 0 <= ar S < size_mod p ->
  ready p jb vb lb (sent (j0 S)) (lv S) m -> Forall call_ok cs -> Forall (arg_ok p fuel) cs ->
  exists m' b n st t, user_run p fuel (6 + d) jb lb vb (maxl S) (wr S) (ar S) cs m = Ok m' /\
    emitted (size_mod p) (maxl S) [(false, 0)] cs ((b, n) :: st) t /\
    heap m' !! lb = Some (scells (sent (j0 S) ++ map (fun c => (wr S, c, ar S)) t)%list) /\
    CLang.call p jems_prog fuel libc (user_writer lb) (2 + d) "mu_jems_curr_level" [VP jb 0] m' = Ok (VI (Z.of_nat (length st)), Tsize, m') /\
    CLang.call p jems_prog fuel libc (user_writer lb) (2 + d) "mu_jems_item_count" [VP jb 0] m' = Ok (VI (n mod size_mod p), Tsize, m').
Proof.
  intros p fuel d jb vb lb S m cs Hf HS Ha Hr Hc Hcs.
  destruct (C75_exact p S cs HS Hc) as (j & b & n & st & t & E & He & Hw & H1 & H2). destruct HS as [HS1 HS2].
  pose proof (C115_source_jems p fuel d jb vb lb S m cs Hf Hr ltac:(lia) Ha Hcs) as H. cbn zeta in H. rewrite E in H.
  destruct H as (m' & Hm & Hl & _ & Hq1 & Hq2). exists m', b, n, st, t. split; [exact Hm|]. split; [exact He|]. split; [rewrite Hl; do 2 f_equal; exact Hw|].
  rewrite <- H1. split; [exact Hq1|]. rewrite Hq2, H2. done.
Qed.

(** a program: {"a":[1,"\u0001"]} *)
Definition ex_mem : mem :=
  MkMem (list_to_map [(0%nat, VI <$> lit_str_0); (1%nat, VI <$> lit_str_1); (2%nat, VI <$> lit_str_2); (3%nat, VI <$> lit_str_3); (4%nat, VI <$> lit_str_4);
    (5%nat, replicate 5 VU); (6%nat, lcells (replicate 3 (MkLevel None None))); (7%nat, [])]) 8.
Definition ex_set : setting := MkSet (replicate 3 (MkLevel None None)) 3 77 9 (MkJ [] 0 0 0 0 []).
Definition ex_calls : list JemsModel.call :=
  [CVal CObjectOpen; CKey (cstr "a") CArrayOpen; CVal (CInteger 1); CVal (CString [1; 0]); CArrayClose; CObjectClose].
Definition ex_value : json := JObj [(str "a", JArr [JNum (int_num 1); JStr [1]])].
Example C115_ex_ready : ready P32 5 6 7 (sent (j0 ex_set)) (lv ex_set) ex_mem.
Proof.
  split.
  - eexists. split; [reflexivity|reflexivity].
  - reflexivity.
  - cbn. repeat (constructor; [done|]). constructor.
  - reflexivity.
  - repeat split.
  - intros k Hk. cbn in Hk. unfold ex_mem. cbn [heap list_to_map foldr]. rewrite !lookup_insert_ne by (cbn; lia). done.
  - repeat split; lia.
Qed.
Example C115_ex_hyps : setting_ok P32 ex_set /\ Forall (arg_ok P32 30) ex_calls /\ describes ex_value ex_calls /\ narrow P32 ex_value /\ Z.of_nat (depth ex_value) < maxl ex_set.
Proof.
  split; [split; [reflexivity|cbn; lia]|]. split.
  { assert (Hb : Forall byte (cstr "a") /\ Forall byte [1; 0]) by (split; cbn; repeat (apply Forall_cons_2; [split; vm_compute; done|]); by apply Forall_nil).
    unfold ex_calls. repeat (apply (Forall_cons_2 (arg_ok P32 30))); cbn [arg_ok varg_ok]; try done; try apply Forall_nil; try (split; [apply Hb|]); try (cbn; lia); try (split; [cbn; lia|done]). }
  split.
  { apply (d_object _ [_; _; _; _]). eapply (dm_key _ _ _ _ [_; _; _] [] []); [| |constructor].
    - split; [|by exists []]. apply Forall_cons_2; [split; vm_compute; done|by apply Forall_nil].
    - apply (d_array _ [_; _]). apply (dl_cons _ [_] _ [_]); [apply d_integer; split; vm_compute; done|]. apply (dl_cons _ [_] [] []); [|constructor].
      apply d_string. split; [|by exists []]. apply Forall_cons_2; [split; vm_compute; done|by apply Forall_nil]. }
  split; [|vm_compute; done]. constructor; [vm_compute; done|]. constructor; [|constructor]. constructor; [vm_compute; done|]. repeat constructor.
Qed.
Example C115_ex_run : (let* m := user_run P32 30 6 5 7 6 3 77 9 ex_calls ex_mem in Ok (heap m !! 7%nat)) =
  Ok (Some (scells (map (fun c => (77, c, 9)) (str ("{" ++ String "034" "a" ++ String "034" ":[1," ++ String "034" "\u0001" ++ String "034" "]}"))))).
Proof. vm_compute. reflexivity. Qed.
Print Assumptions C115_source_jems.
Print Assumptions C115_source_document.
Print Assumptions C115_source_text.
