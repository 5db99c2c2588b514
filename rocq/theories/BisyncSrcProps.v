(** * Property C113: the text of mu_bisync.c, run by the rules of C, on any memory *)
From Verif Require Import CSym SrcBisync BisyncModel BisyncSpec BisyncProofs BisyncProps BisyncExact BisyncSrc.
Open Scope string_scope. Open Scope Z_scope.
Notation length := List.length.

(** A cell of a buffer that is only written may hold anything, also nothing: name the cells of such
    an object by numbers that are not bytes. *)
Definition repv (vs : list val) (x : Z) : val := if (0 <=? x) && (x <? 256) then VI x else nth (Z.to_nat (x - 256)) vs VU.
Definition names (vs : list val) : list Z := (fun k => 256 + Z.of_nat k) <$> seq 0 (length vs).
Lemma repv_byte vs x : 0 <= x < 256 -> repv vs x = VI x.
Proof. intros H. unfold repv. rewrite (proj2 (Z.leb_le 0 x)), (proj2 (Z.ltb_lt x 256)) by lia. done. Qed.
Lemma repv_bytes vs l : bytes l -> repv vs <$> l = VI <$> l.
Proof. induction 1 as [|x l Hx _ IH]; [done|]. cbn. rewrite repv_byte by done. f_equal. exact IH. Qed.
Lemma repv_name vs k : repv vs (256 + Z.of_nat k) = nth k vs VU.
Proof. unfold repv. rewrite (proj2 (Z.ltb_ge (256 + Z.of_nat k) 256)) by lia. rewrite andb_false_r. f_equal. lia. Qed.
Lemma seq_nth vs (pre : list val) : (fun k => nth k (pre ++ vs) VU)%list <$> seq (length pre) (length vs) = vs.
Proof.
  revert pre. induction vs as [|v vs IH]; intros pre; [done|]. cbn [length seq]. rewrite fmap_cons. f_equal.
  - rewrite app_nth2, Nat.sub_diag by lia. done.
  - specialize (IH (pre ++ [v])%list). rewrite app_length, <- app_assoc in IH. cbn [length] in IH. rewrite Nat.add_1_r in IH. exact IH.
Qed.
Lemma repv_names vs : repv vs <$> names vs = vs.
Proof. unfold names. rewrite <- list_fmap_compose. erewrite list_fmap_ext; [apply (seq_nth vs [])|]. intros k x _. apply repv_name. Qed.
Lemma names_length vs : length (names vs) = length vs.
Proof. unfold names. rewrite fmap_length, seq_length. done. Qed.

(** cells after the bytes [bs] were written from the start *)
Definition written (bs : list Z) (before : list val) : list val := (VI <$> bs) ++ drop (length bs) before.
Lemma repv_written vs bs l : bytes bs -> repv vs <$> overwrite bs l = written bs (repv vs <$> l).
Proof. intros H. unfold overwrite, written. rewrite fmap_app, fmap_drop, repv_bytes by done. done. Qed.

Lemma bytes_app a b : bytes a -> bytes b -> bytes (a ++ b).
Proof. apply Forall_app_2. Qed.
Lemma bytes_escape l : bytes l -> bytes (escape l).
Proof.
  induction 1 as [|x l Hx _ IH]; [constructor|]. cbn. apply bytes_app; [|exact IH].
  destruct (special x); repeat (apply Forall_cons; split); try constructor; unfold DLE; lia.
Qed.
Lemma bytes_frame l : bytes l -> bytes (frame l).
Proof. intros H. unfold frame, SOH, EOT. constructor; [lia|]. apply bytes_app; [by apply bytes_escape|]. repeat constructor; lia. Qed.
Lemma bytes_take n l : bytes l -> bytes (take n l).
Proof. apply Forall_take. Qed.
Lemma units_bytes raw out : units raw out -> bytes raw -> bytes out.
Proof.
  induction 1 as [|b raw out ? ? ? IH|b raw out ? IH]; intros Hb; [constructor|..].
  - apply Forall_cons in Hb as [Hb1 Hb2]. constructor; [done|]. by apply IH.
  - apply Forall_cons in Hb as [_ Hb]. apply Forall_cons in Hb as [Hb1 Hb2]. constructor; [done|]. by apply IH.
Qed.
Lemma reading_bytes e out en : reading e out en -> bytes e -> bytes out.
Proof.
  intros [raw o rest Hu|raw o Hu|raw o Hu] Hb; eapply units_bytes; try exact Hu; try exact Hb; apply Forall_app in Hb as [Hb _]; exact Hb.
Qed.

(** ** encode: the output object may hold anything before, the input object's first [n] cells are bytes;
    exactly the frame (or the part of it that fits) is written, and no other object of the memory changes *)
Theorem C113_source_encode : forall p fuel ext ext_ptr depth m eb sb before cap cells n msg,
  heap m !! eb = Some before -> heap m !! sb = Some cells -> eb <> sb -> heap m !! next m = None ->
  0 <= cap <= size_max p -> cap <= Z.of_nat (length before) ->
  0 <= n <= size_max p -> n <= Z.of_nat (length cells) -> take (Z.to_nat n) cells = VI <$> msg -> bytes msg ->
  (Z.to_nat n < fuel)%nat ->
  call p bisync_prog fuel ext ext_ptr (S (S depth)) "mu_bisync_encode" [VP eb 0; VI cap; VP sb 0; VI n] m =
    Ok (VI (if Z.of_nat (length (frame msg)) <=? allowed cap then Z.of_nat (length (frame msg)) else -1), int,
        MkMem (<[eb := written (take (Z.to_nat (allowed cap)) (frame msg)) before]> (heap m)) (S (next m))).
Proof.
  intros p fuel ext ext_ptr depth m eb sb before cap cells n msg He Hs Hes Hx Hc Hcb Hn Hnb Hmsg Hby Hf.
  set (rest := drop (Z.to_nat n) cells). set (rp := repv (before ++ rest)%list).
  set (enc := take (length before) (names (before ++ rest))). set (src := (msg ++ drop (length before) (names (before ++ rest)))%list).
  assert (Hlm : length msg = Z.to_nat n) by (apply (f_equal length) in Hmsg; rewrite fmap_length, take_length in Hmsg; lia).
  assert (He' : rp <$> enc = before).
  { unfold enc, rp. rewrite fmap_take, repv_names. apply take_app. }
  assert (Hs' : rp <$> src = cells).
  { unfold src, rp. rewrite fmap_app, fmap_drop, repv_names, drop_app, repv_bytes, <- Hmsg by done. apply take_drop. }
  assert (Htk : take (Z.to_nat n) src = msg) by (unfold src; rewrite <- Hlm; apply take_app).
  assert (Hle : length enc = length before) by (rewrite <- He'; rewrite fmap_length; done).
  assert (Hls : length src = length cells) by (rewrite <- Hs'; rewrite fmap_length; done).
  rewrite (src_encode p fuel ext ext_ptr rp (repv_byte _) depth m eb sb enc cap src n);
    [|by rewrite He'|by rewrite Hs'|done|done|by rewrite Htk|unfold size_max in *; lia|unfold size_max in *; lia|done].
  rewrite C77_encode_exact by lia. rewrite Htk. cbn [bind]. unfold rp at 1. rewrite repv_written by (by apply bytes_take, bytes_frame). fold rp. rewrite He'. done.
Qed.
Print Assumptions C113_source_encode.

(** ** decode: every input of up to INT_MAX bytes *)
Lemma decode_source p fuel ext ext_ptr depth m db sb before cap cells n msg :
  heap m !! db = Some before -> heap m !! sb = Some cells -> db <> sb -> heap m !! next m = None ->
  0 <= cap <= size_max p -> cap <= Z.of_nat (length before) ->
  0 <= n <= size_max p -> n <= Z.of_nat (length cells) -> take (Z.to_nat n) cells = VI <$> msg -> bytes msg ->
  (Z.to_nat n < fuel)%nat ->
  exists rp dst encoded, rp <$> dst = before /\ length dst = length before /\ length encoded = length cells /\ take (Z.to_nat n) encoded = msg /\
    (forall bs, bytes bs -> rp <$> overwrite bs dst = written bs before) /\
  call p bisync_prog fuel ext ext_ptr (S (S depth)) "mu_bisync_decode" [VP db 0; VI cap; VP sb 0; VI n] m =
    let* '(r, out) := mu_bisync_decode p dst cap encoded n in Ok (VI r, int, MkMem (<[db := rp <$> out]> (heap m)) (S (next m))).
Proof.
  intros He Hs Hes Hx Hc Hcb Hn Hnb Hmsg Hby Hf.
  set (rest := drop (Z.to_nat n) cells). set (rp := repv (before ++ rest)%list).
  set (enc := take (length before) (names (before ++ rest))). set (src := (msg ++ drop (length before) (names (before ++ rest)))%list).
  assert (Hlm : length msg = Z.to_nat n) by (apply (f_equal length) in Hmsg; rewrite fmap_length, take_length in Hmsg; lia).
  assert (He' : rp <$> enc = before).
  { unfold enc, rp. rewrite fmap_take, repv_names. apply take_app. }
  assert (Hs' : rp <$> src = cells).
  { unfold src, rp. rewrite fmap_app, fmap_drop, repv_names, drop_app, repv_bytes, <- Hmsg by done. apply take_drop. }
  assert (Htk : take (Z.to_nat n) src = msg) by (unfold src; rewrite <- Hlm; apply take_app).
  assert (Hle : length enc = length before) by (rewrite <- He'; rewrite fmap_length; done).
  assert (Hls : length src = length cells) by (rewrite <- Hs'; rewrite fmap_length; done).
  exists rp, enc, src. split_and!; [done..| |].
  { intros bs Hb. unfold rp. rewrite repv_written by done. fold rp. by rewrite He'. }
  apply (src_decode p fuel ext ext_ptr rp (repv_byte _) depth m db sb enc cap src n);
    [by rewrite He'|by rewrite Hs'|done|done|by rewrite Htk|unfold size_max in *; lia|unfold size_max in *; lia|done].
Qed.
(** what is returned and written for an input that reads as [out], [en] (BisyncExact.reading) *)
Definition decode_value (input : list Z) (room : Z) (out : list Z) (en : ending) : Z :=
  if room <? Z.of_nat (length out) then -1
  else match en with
       | Terminated => Z.of_nat (length out)
       | Exhausted => if bool_decide (last input = Some EOT) then Z.of_nat (length out) else -2
       | Dangling => -2
       end.
Definition decode_written (room : Z) (out : list Z) : list Z := if room <? Z.of_nat (length out) then take (Z.to_nat room) out else out.
Lemma decode_result_eq input dst room out en :
  decode_result input dst room out en = (decode_value input room out en, overwrite (decode_written room out) dst).
Proof. unfold decode_result, decode_value, decode_written. destruct (_ <? _); done. Qed.
Theorem C113_source_decode : forall p fuel ext ext_ptr depth m db sb before cap cells n input,
  heap m !! db = Some before -> heap m !! sb = Some cells -> db <> sb -> heap m !! next m = None ->
  0 <= cap <= size_max p -> cap <= Z.of_nat (length before) ->
  0 <= n <= int_max -> n <= Z.of_nat (length cells) -> take (Z.to_nat n) cells = VI <$> input -> bytes input ->
  (Z.to_nat n < fuel)%nat ->
  exists out en, reading input out en /\ (forall out' en', reading input out' en' -> out' = out /\ en' = en) /\
  call p bisync_prog fuel ext ext_ptr (S (S depth)) "mu_bisync_decode" [VP db 0; VI cap; VP sb 0; VI n] m =
    if bool_decide (hd_error input = Some SOH)
    then Ok (VI (decode_value input (allowed cap) out en), int,
             MkMem (<[db := written (decode_written (allowed cap) out) before]> (heap m)) (S (next m)))
    else Ok (VI (-2), int, MkMem (heap m) (S (next m))).
Proof.
  intros p fuel ext ext_ptr depth m db sb before cap cells n input He Hs Hes Hx Hc Hcb Hn Hnb Hmsg Hby Hf.
  assert (Hsz : n <= size_max p) by (pose proof (size_mod_big p); unfold size_max, int_max in *; lia).
  destruct (decode_source p fuel ext ext_ptr depth m db sb before cap cells n input) as (rp & dst & enc & Hrp & Hld & Hle & Htk & Hwr & Hcall); try done; try lia.
  destruct (C77_decode_exact p dst cap enc n) as (out & en & Hr & Hu & Hd); [lia..|]. rewrite Htk in *.
  exists out, en. split; [done|]. split; [done|]. rewrite Hcall, Hd. cbn [bind].
  destruct (bool_decide _).
  - rewrite decode_result_eq. rewrite Hwr; [done|]. unfold decode_written. pose proof (reading_bytes _ _ _ Hr Hby). destruct (_ <? _); [by apply bytes_take|done].
  - rewrite Hrp, insert_id by done. done.
Qed.
Print Assumptions C113_source_decode.

(** beyond INT_MAX bytes the index overflows unless the decoder stops before *)
Theorem C113_source_decode_huge : forall p fuel ext ext_ptr depth m db sb before cap cells n input,
  heap m !! db = Some before -> heap m !! sb = Some cells -> db <> sb -> heap m !! next m = None ->
  0 <= cap <= size_max p -> cap <= Z.of_nat (length before) ->
  int_max < n <= size_max p -> n <= Z.of_nat (length cells) -> take (Z.to_nat n) cells = VI <$> input -> bytes input ->
  (Z.to_nat n < fuel)%nat ->
  let e := take (Z.to_nat (int_max + 1)) input in
  exists out en, reading e out en /\
  call p bisync_prog fuel ext ext_ptr (S (S depth)) "mu_bisync_decode" [VP db 0; VI cap; VP sb 0; VI n] m =
    if negb (bool_decide (hd_error e = Some SOH)) then Ok (VI (-2), int, MkMem (heap m) (S (next m)))
    else if (allowed cap <? Z.of_nat (length out)) || is_terminated en
         then Ok (VI (decode_value e (allowed cap) out en), int,
                  MkMem (<[db := written (decode_written (allowed cap) out) before]> (heap m)) (S (next m)))
         else UB.
Proof.
  intros p fuel ext ext_ptr depth m db sb before cap cells n input He Hs Hes Hx Hc Hcb Hn Hnb Hmsg Hby Hf e.
  destruct (decode_source p fuel ext ext_ptr depth m db sb before cap cells n input) as (rp & dst & enc & Hrp & Hld & Hle & Htk & Hwr & Hcall); try done; try (unfold int_max in *; lia).
  destruct (C77_decode_huge p dst cap enc n) as (out & en & Hr & Hd); [lia..|].
  assert (Hee : take (Z.to_nat (int_max + 1)) enc = e).
  { unfold e. rewrite <- Htk, take_take, Nat.min_l by lia. done. }
  rewrite Hee in *. exists out, en. split; [done|]. rewrite Hcall, Hd.
  destruct (bool_decide _); cbn [negb].
  2: { cbn [bind]. rewrite Hrp, insert_id by done. done. }
  destruct (_ || _); [|done]. cbn [bind]. rewrite decode_result_eq. rewrite Hwr; [done|]. unfold decode_written.
  pose proof (reading_bytes _ _ _ Hr (bytes_take _ _ Hby)). destruct (_ <? _); [by apply bytes_take|done].
Qed.
Print Assumptions C113_source_decode_huge.

(** ** encode, then decode what was written, in one memory: the message comes back behind one SOH byte *)
Theorem C113_source_roundtrip : forall p fuel ext ext_ptr depth m eb sb db before_e before_d cap_e cap_d n cells msg,
  heap m !! eb = Some before_e -> heap m !! sb = Some cells -> heap m !! db = Some before_d ->
  eb <> sb -> eb <> db -> heap m !! next m = None -> heap m !! S (next m) = None ->
  Z.of_nat (length (frame msg)) <= cap_e <= int_max -> cap_e <= Z.of_nat (length before_e) ->
  Z.of_nat (length msg) + 1 <= cap_d <= int_max -> cap_d <= Z.of_nat (length before_d) ->
  n = Z.of_nat (length msg) -> take (length msg) cells = VI <$> msg -> bytes msg ->
  (length (frame msg) < fuel)%nat ->
  (let* '(k, _, m1) := call p bisync_prog fuel ext ext_ptr (S (S depth)) "mu_bisync_encode" [VP eb 0; VI cap_e; VP sb 0; VI n] m in
   call p bisync_prog fuel ext ext_ptr (S (S depth)) "mu_bisync_decode" [VP db 0; VI cap_d; VP eb 0; k] m1) =
  Ok (VI (Z.of_nat (length msg) + 1), int,
      MkMem (<[db := written (SOH :: msg) before_d]> (<[eb := written (frame msg) before_e]> (heap m))) (S (S (next m)))).
Proof.
  intros p fuel ext ext_ptr depth m eb sb db before_e before_d cap_e cap_d n cells msg He Hs Hd Hes Hed Hx Hx' Hce Hce' Hcd Hcd' -> Hmsg Hby Hf.
  assert (Hlf : (length msg <= length (frame msg))%nat).
  { unfold frame. cbn [length]. rewrite app_length. assert (length msg <= length (escape msg))%nat; [|cbn; lia].
    clear. induction msg as [|x l IH]; [done|]. cbn [escape]. rewrite app_length. destruct (special x); cbn; lia. }
  assert (Hlc : (length msg <= length cells)%nat) by (apply (f_equal length) in Hmsg; rewrite fmap_length, take_length in Hmsg; lia).
  assert (Hbig : int_max <= size_max p) by (pose proof (size_mod_big p); unfold size_max, int_max in *; lia).
  rewrite (C113_source_encode p fuel ext ext_ptr depth m eb sb before_e cap_e cells (Z.of_nat (length msg)) msg); try done; try lia.
  2: { by rewrite Nat2Z.id. }
  cbn [bind]. rewrite allowed_id by lia. rewrite (proj2 (Z.leb_le _ _)) by lia. rewrite take_ge by lia.
  set (m1 := MkMem (<[eb := written (frame msg) before_e]> (heap m)) (S (next m))).
  assert (Hbf : bytes (frame msg)) by (by apply bytes_frame).
  destruct (C113_source_decode p fuel ext ext_ptr depth m1 db eb before_d cap_d (written (frame msg) before_e) (Z.of_nat (length (frame msg))) (frame msg)) as (out & en & Hr & Hu & Hdec).
  - cbn. rewrite lookup_insert_ne by done. done.
  - cbn. by rewrite lookup_insert.
  - done.
  - cbn. rewrite lookup_insert_ne; [done|]. intros ->. congruence.
  - lia.
  - done.
  - lia.
  - unfold written. rewrite app_length, fmap_length. lia.
  - unfold written. rewrite Nat2Z.id. rewrite <- (fmap_length VI (frame msg)) at 1. apply take_app.
  - done.
  - rewrite Nat2Z.id. done.
  - rewrite Hdec. rewrite bool_decide_eq_true_2 by done.
    destruct (Hu (SOH :: msg) Terminated) as [<- <-].
    { change (frame msg) with ((SOH :: escape msg) ++ [EOT])%list. apply r_term. constructor; [done|done|apply escape_units]. }
    rewrite allowed_id by lia. unfold decode_value, decode_written. cbn [length]. destruct (Z.ltb_spec cap_d (Z.of_nat (S (length msg)))); [lia|].
    cbn [heap next m1]. replace (Z.of_nat (S (length msg))) with (Z.of_nat (length msg) + 1) by lia. done.
Qed.
Print Assumptions C113_source_roundtrip.

(** the theorems' hypotheses are met, and the text runs: buffers without contents, a message with all three special bytes *)
Definition ex_mem : mem := MkMem (<[0%nat := replicate 9 VU]> (<[1%nat := [VI 65; VI 1; VI 4; VI 16; VU]]> (<[2%nat := replicate 6 VU]> ∅))) 3.
Example C113_example_hyp : heap ex_mem !! 0%nat = Some (replicate 9 VU) /\ heap ex_mem !! 1%nat = Some [VI 65; VI 1; VI 4; VI 16; VU] /\
  heap ex_mem !! 2%nat = Some (replicate 6 VU) /\ heap ex_mem !! next ex_mem = None /\ heap ex_mem !! S (next ex_mem) = None /\
  length (frame [65; 1; 4; 16]) = 9%nat /\ take 4 [VI 65; VI 1; VI 4; VI 16; VU] = VI <$> [65; 1; 4; 16] /\ bytes [65; 1; 4; 16].
Proof. split_and!; try reflexivity. repeat constructor; lia. Qed.
Definition no_ext : string -> list val -> mem -> res (val * ty * mem) := fun _ _ _ => UB.
Definition no_ptr : val -> list val -> mem -> res (val * ty * mem) := fun _ _ _ => UB.
Example C113_example : (let* '(k, _, m1) := call P32 bisync_prog 20 no_ext no_ptr 2 "mu_bisync_encode" [VP 0 0; VI 9; VP 1 0; VI 4] ex_mem in
   let* '(k2, _, m2) := call P32 bisync_prog 20 no_ext no_ptr 2 "mu_bisync_decode" [VP 2 0; VI 6; VP 0 0; k] m1 in
   Ok (k, heap m1 !! 0%nat, k2, heap m2 !! 2%nat)) =
  Ok (VI 9, Some (VI <$> [1; 65; 16; 1; 16; 4; 16; 16; 4]), VI 5, Some [VI 1; VI 65; VI 1; VI 4; VI 16; VU]).
Proof. vm_compute. reflexivity. Qed.
