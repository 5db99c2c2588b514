(** * A JSON parser, proved sound and complete for the grammar of JsonSpec.v; the grammar is
    unambiguous; compact texts are JSON texts.  Nothing here models mulib. *)
From Verif Require Import CSem JsonSpec.

Definition is_ws (c : Z) : bool := (c =? 32) || (c =? 9) || (c =? 10) || (c =? 13).
Fixpoint skip_ws (t : list Z) : list Z :=
  match t with c :: r => if is_ws c then skip_ws r else t | [] => [] end.
Fixpoint p_digits (t : list Z) : list Z * list Z :=
  match t with
  | c :: r => if (48 <=? c) && (c <=? 57) then (c - 48 :: fst (p_digits r), snd (p_digits r)) else ([], t)
  | [] => ([], [])
  end.
Definition p_sign (t : list Z) : bool * list Z :=
  match t with c :: r => if c =? ch "-" then (true, r) else (false, t) | [] => (false, []) end.
Definition p_frac (t : list Z) : option (list Z * list Z) :=
  match t with
  | c :: r => if c =? ch "." then match p_digits r with ([], _) => None | (fr, r) => Some (fr, r) end
              else Some ([], t)
  | [] => Some ([], [])
  end.
Definition p_exp (t : list Z) : option (Z * list Z) :=
  match t with
  | c :: r =>
    if (c =? ch "e") || (c =? ch "E") then
      let '(neg, r) := match r with
                       | s :: r' => if s =? ch "+" then (false, r') else if s =? ch "-" then (true, r') else (false, r)
                       | [] => (false, r) end in
      match p_digits r with
      | ([], _) => None
      | (ds, r) => Some (if (neg : bool) then - dval ds else dval ds, r)
      end
    else Some (0, t)
  | [] => Some (0, [])
  end.
Definition int_ok (ds : list Z) : bool :=
  match ds with [] => false | [_] => true | d :: _ => negb (d =? 0) end.
Definition p_number (t : list Z) : option (jnum * list Z) :=
  let '(neg, t) := p_sign t in
  let '(ds, t) := p_digits t in
  if int_ok ds then
    match p_frac t with
    | Some (fr, t) => match p_exp t with Some (e, t) => Some (MkNum neg (dval ds) fr e, t) | None => None end
    | None => None
    end
  else None.

Fixpoint esc_lookup (l : list (Z * Z)) (c : Z) : option Z :=
  match l with [] => None | (x, u) :: l => if x =? c then Some u else esc_lookup l c end.
Definition ccons (u : list Z) (o : option (list Z * list Z)) : option (list Z * list Z) :=
  match o with Some (us, r) => Some (u ++ us, r) | None => None end.
(** after the opening quote *)
Fixpoint p_chars (t : list Z) : option (list Z * list Z) :=
  match t with
  | [] => None
  | c :: r =>
    if c =? 34 then Some ([], r)
    else if c =? 92 then
      match r with
      | [] => None
      | e :: r1 =>
        if e =? ch "u" then
          match r1 with
          | a :: b :: c :: d :: r2 =>
            match hexval a, hexval b, hexval c, hexval d with
            | Some x, Some y, Some z, Some w => ccons [((x * 16 + y) * 16 + z) * 16 + w] (p_chars r2)
            | _, _, _, _ => None
            end
          | _ => None
          end
        else match esc_lookup esc e with Some u => ccons [u] (p_chars r1) | None => None end
      end
    else if (32 <=? c) && (c <=? 1114111) then ccons (utf16 c) (p_chars r)
    else None
  end.
Fixpoint strip (w t : list Z) : option (list Z) :=
  match w, t with
  | [], _ => Some t
  | x :: w, c :: t => if x =? c then strip w t else None
  | _, [] => None
  end.
Definition lit (w : list Z) (v : json) (t : list Z) : option (json * list Z) :=
  match strip w t with Some r => Some (v, r) | None => None end.

Fixpoint p_value (f : nat) (t : list Z) : option (json * list Z) :=
  match f with
  | O => None
  | S f =>
    match t with
    | [] => None
    | c :: r =>
      if c =? ch "[" then
        match skip_ws r with
        | x :: r' => if x =? ch "]" then Some (JArr [], r') else
            match p_elements f r with Some (l, r') => Some (JArr l, r') | None => None end
        | [] => None
        end
      else if c =? ch "{" then
        match skip_ws r with
        | x :: r' => if x =? ch "}" then Some (JObj [], r') else
            match p_members f r with Some (l, r') => Some (JObj l, r') | None => None end
        | [] => None
        end
      else if c =? 34 then match p_chars r with Some (s, r) => Some (JStr s, r) | None => None end
      else if c =? ch "n" then lit (str "null") JNull t
      else if c =? ch "t" then lit (str "true") (JBool true) t
      else if c =? ch "f" then lit (str "false") (JBool false) t
      else match p_number t with Some (n, r) => Some (JNum n, r) | None => None end
    end
  end
with p_elements (f : nat) (t : list Z) : option (list json * list Z) :=
  match f with
  | O => None
  | S f =>
    match p_value f (skip_ws t) with
    | Some (v, r) =>
      match skip_ws r with
      | c :: r =>
        if c =? ch "," then match p_elements f r with Some (l, r) => Some (v :: l, r) | None => None end
        else if c =? ch "]" then Some ([v], r) else None
      | [] => None
      end
    | None => None
    end
  end
with p_members (f : nat) (t : list Z) : option (list (list Z * json) * list Z) :=
  match f with
  | O => None
  | S f =>
    match skip_ws t with
    | q :: r =>
      if q =? 34 then
        match p_chars r with
        | Some (k, r) =>
          match skip_ws r with
          | c :: r =>
            if c =? ch ":" then
              match p_value f (skip_ws r) with
              | Some (v, r) =>
                match skip_ws r with
                | c :: r =>
                  if c =? ch "," then match p_members f r with Some (l, r) => Some ((k, v) :: l, r) | None => None end
                  else if c =? ch "}" then Some ([(k, v)], r) else None
                | [] => None
                end
              | None => None
              end
            else None
          | [] => None
          end
        | None => None
        end
      else None
    | [] => None
    end
  end.
Definition parse (t : list Z) : option json :=
  match p_value (S (length t)) (skip_ws t) with
  | Some (v, r) => match skip_ws r with [] => Some v | _ => None end
  | None => None
  end.

Ltac chs := repeat match goal with
  | |- context [ch ?a] => let x := eval vm_compute in (ch a) in change (ch a) with x in *
  | H : context [ch ?a] |- _ => let x := eval vm_compute in (ch a) in change (ch a) with x in * end.

(** ** whitespace *)
Lemma ws_nil : ws []. Proof. constructor. Qed.
Lemma fa_nil {A} (P : A -> Prop) : Forall P []. Proof. constructor. Qed.
Global Hint Resolve ws_nil fa_nil : core.
Lemma is_ws_spec c : is_ws c = true <-> c = 32 \/ c = 9 \/ c = 10 \/ c = 13.
Proof. unfold is_ws. rewrite !orb_true_iff, !Z.eqb_eq. tauto. Qed.
Lemma skip_ws_app w t : ws w -> skip_ws (w ++ t) = skip_ws t.
Proof. induction 1 as [|c w Hc _ IH]; [done|]. simpl. apply is_ws_spec in Hc. by rewrite Hc. Qed.
Lemma skip_ws_sound t : exists w, ws w /\ t = w ++ skip_ws t.
Proof.
  induction t as [|c t IH]; [by exists []|]. simpl. destruct (is_ws c) eqn:E.
  - destruct IH as (w & Hw & Ht). exists (c :: w). split; [constructor; [by apply is_ws_spec|done]|]. simpl. by f_equal.
  - by exists [].
Qed.
Lemma skip_ws_len t : (length (skip_ws t) <= length t)%nat.
Proof. destruct (skip_ws_sound t) as (w & _ & E). rewrite E at 2. rewrite app_length. lia. Qed.
Lemma skip_ws_cons c t : is_ws c = false -> skip_ws (c :: t) = c :: t.
Proof. intros H. simpl. by rewrite H. Qed.

(** ** digits and numbers *)
Definition nodigit (t : list Z) : Prop := match t with c :: _ => ~ 48 <= c <= 57 | [] => True end.
Lemma p_digits_ok ds rest : Forall digit ds -> nodigit rest -> p_digits (dtext ds ++ rest) = (ds, rest).
Proof.
  intros H Hr. induction H as [|d ds Hd _ IH].
  - destruct rest as [|c r]; [done|]. cbn [dtext map app p_digits nodigit] in *. destruct (Z.leb_spec 48 c), (Z.leb_spec c 57); cbn [andb]; done || lia.
  - unfold digit in Hd. cbn [dtext map app p_digits]. fold (dtext ds). rewrite IH.
    destruct (Z.leb_spec 48 (d + 48)), (Z.leb_spec (d + 48) 57); simpl; try lia. do 2 f_equal. lia.
Qed.
Lemma p_digits_sound t : let '(ds, r) := p_digits t in Forall digit ds /\ t = dtext ds ++ r.
Proof.
  induction t as [|c t IH]; [done|]. cbn [p_digits]. destruct (Z.leb_spec 48 c), (Z.leb_spec c 57); cbn [andb]; try (by split).
  destruct (p_digits t) as [ds r]. destruct IH as [H1 H2]. simpl. split; [constructor; [unfold digit; lia|done]|].
  f_equal; [lia|done].
Qed.
Lemma p_frac_ok fr tf rest : frac_part fr tf -> nodigit rest -> (forall r, rest <> ch "." :: r) -> p_frac (tf ++ rest) = Some (fr, rest).
Proof.
  intros [[-> ->]|(Hne & Hd & ->)] Hr Hdot.
  - destruct rest as [|c r]; [done|]. simpl. destruct (Z.eqb_spec c (ch ".")) as [->|]; [by destruct (Hdot r)|done].
  - cbn [app p_frac]. rewrite Z.eqb_refl, (p_digits_ok fr rest Hd Hr). by destruct fr.
Qed.
Lemma p_frac_sound t fr r : p_frac t = Some (fr, r) -> exists tf, frac_part fr tf /\ t = tf ++ r.
Proof.
  destruct t as [|c t]; simpl.
  - intros [= <- <-]. exists []. by split; [left|].
  - destruct (Z.eqb_spec c (ch ".")) as [->|].
    + pose proof (p_digits_sound t) as Hs. destruct (p_digits t) as [ds r']. destruct Hs as [H1 ->].
      destruct ds as [|d ds]; [done|]. intros [= <- <-]. exists (ch "." :: dtext (d :: ds)). split; [right; done|done].
    + intros [= <- <-]. exists []. by split; [left|].
Qed.
Lemma p_exp_ok e te rest : exp_part e te -> nodigit rest -> (forall r, rest <> ch "e" :: r /\ rest <> ch "E" :: r) ->
  p_exp (te ++ rest) = Some (e, rest).
Proof.
  intros [[-> ->]|(c & ds & Hc & Hne & Hd & Hcase)] Hr He.
  - destruct rest as [|c r]; [done|]. simpl. destruct (Z.eqb_spec c (ch "e")) as [->|]; [by destruct (He r)|].
    destruct (Z.eqb_spec c (ch "E")) as [->|]; [by destruct (He r)|done].
  - assert (Hc' : (c =? ch "e") || (c =? ch "E") = true) by (destruct Hc as [-> | ->]; reflexivity).
    destruct ds as [|d ds]; [done|]. pose proof Hd as Hd'. inversion Hd as [|? ? Hd0 _]; subst. unfold digit in Hd0.
    destruct Hcase as [[-> [-> | ->]]|[-> ->]]; cbn [app p_exp]; rewrite Hc'.
    + cbn [dtext map app]. fold (dtext ds).
      replace (d + 48 =? ch "+") with false by (symmetry; apply Z.eqb_neq; chs; lia).
      replace (d + 48 =? ch "-") with false by (symmetry; apply Z.eqb_neq; chs; lia).
      cbn iota beta. pose proof (p_digits_ok (d :: ds) rest Hd' Hr) as Ep. cbn [dtext map app] in *. fold (dtext ds) in *. rewrite Ep. done.
    + rewrite Z.eqb_refl. rewrite (p_digits_ok (d :: ds) rest Hd' Hr). done.
    + rewrite Z.eqb_refl. change (ch "-" =? ch "+") with false. cbn iota beta.
      rewrite (p_digits_ok (d :: ds) rest Hd' Hr). done.
Qed.
Lemma p_exp_sound t e r : p_exp t = Some (e, r) -> exists te, exp_part e te /\ t = te ++ r.
Proof.
  destruct t as [|c t]; cbn [p_exp].
  - intros [= <- <-]. exists []. by split; [left|].
  - destruct ((c =? ch "e") || (c =? ch "E")) eqn:Ec.
    2:{ intros [= <- <-]. exists []. by split; [left|]. }
    apply orb_true_iff in Ec. rewrite !Z.eqb_eq in Ec.
    assert (Hgo : forall (neg : bool) sg t', t = sg ++ t' ->
        (neg = false -> sg = [] \/ sg = [ch "+"]) -> (neg = true -> sg = [ch "-"]) ->
        match p_digits t' with ([], _) => None | (ds, r) => Some (if neg then - dval ds else dval ds, r) end = Some (e, r) ->
        exists te, exp_part e te /\ c :: t = te ++ r).
    { intros neg sg t' -> Hf Ht. pose proof (p_digits_sound t') as Hs. destruct (p_digits t') as [ds r']. destruct Hs as [H1 ->].
      destruct ds as [|d ds]; [done|]. intros [= <- <-]. exists (c :: sg ++ dtext (d :: ds)). split.
      - right. exists c, (d :: ds). do 3 (split; [done|]). destruct neg.
        + right. rewrite (Ht eq_refl). done.
        + left. split; [done|]. destruct (Hf eq_refl) as [-> | ->]; [by left|by right].
      - simpl. by rewrite <- app_assoc. }
    destruct t as [|s t'].
    + intros H. apply (Hgo false [] []); try done; eauto.
    + destruct (Z.eqb_spec s (ch "+")) as [->|].
      * intros H. apply (Hgo false [ch "+"] t'); try done; eauto.
      * destruct (Z.eqb_spec s (ch "-")) as [->|].
        -- intros H. apply (Hgo true [ch "-"] t'); try done; eauto.
        -- intros H. apply (Hgo false [] (s :: t')); try done; eauto.
Qed.
Lemma int_ok_spec ds : int_ok ds = true <-> ds <> [] /\ (ds = [0] \/ head ds <> Some 0) \/ exists d, ds = [d].
Proof.
  split.
  - destruct ds as [|d [|d' ds]]; simpl; try done; [by right; eauto|].
    rewrite negb_true_iff, Z.eqb_neq. intros H. left. split; [done|]. right. congruence.
  - intros [[H1 [-> |H2]]|(d & ->)]; try done. destruct ds as [|d [|d' ds]]; try done. simpl in *.
    rewrite negb_true_iff, Z.eqb_neq. congruence.
Qed.

(** a number may be followed by [rest] *)
Definition stop (t : list Z) : Prop :=
  match t with c :: _ => ~ 48 <= c <= 57 /\ c <> ch "." /\ c <> ch "e" /\ c <> ch "E" | [] => True end.
Lemma stop_nodigit t : stop t -> nodigit t.
Proof. destruct t; simpl; tauto. Qed.
Lemma p_number_ok n t rest : number n t -> stop rest -> p_number (t ++ rest) = Some (n, rest).
Proof.
  intros (ti & tf & te & (ds & Hd & Hne & Hz & Hn & ->) & Hf & He & ->) Hr. unfold p_number. rewrite <- !app_assoc.
  assert (Hs : p_sign ((if nneg n then [ch "-"] else []) ++ dtext ds ++ tf ++ te ++ rest) = (nneg n, dtext ds ++ tf ++ te ++ rest)).
  { destruct ds as [|d ds]; [done|]. inversion Hd as [|? ? Hd0 _]; subst. unfold digit in Hd0. destruct (nneg n); simpl; [done|].
    replace (d + 48 =? ch "-") with false; [done|]. symmetry. apply Z.eqb_neq. chs. lia. }
  rewrite Hs.
  assert (Hte : nodigit (te ++ rest) /\ forall r, te ++ rest <> ch "." :: r).
  { destruct He as [[_ ->]|(c & ds' & Hc & _ & _ & Hcase)].
    - split; [by apply stop_nodigit|]. intros r E; cbn [app] in E; subst rest. simpl in Hr. tauto.
    - assert (exists r', te = c :: r') as (r' & ->) by (destruct Hcase as [[_ [-> | ->]]|[_ ->]]; eauto).
      split; [|intros r [= -> _]]; chs; simpl; destruct Hc; subst; try lia; done. }
  assert (Htf : nodigit (tf ++ te ++ rest)).
  { destruct Hf as [[_ ->]|(_ & _ & ->)]; [apply Hte|]. simpl. chs. lia. }
  rewrite (p_digits_ok ds _ Hd Htf).
  assert (int_ok ds = true) as -> by (apply int_ok_spec; left; done).
  rewrite (p_frac_ok (nfrac n) tf _ Hf); [|apply Hte|apply Hte].
  rewrite (p_exp_ok (nexp n) te _ He); [|by apply stop_nodigit|].
  - rewrite <- Hn. by destruct n.
  - intros r. split; intros ->; simpl in Hr; tauto.
Qed.
Lemma p_number_sound t n r : p_number t = Some (n, r) -> exists t1, number n t1 /\ t = t1 ++ r.
Proof.
  unfold p_number. destruct (p_sign t) as [neg t0] eqn:Es.
  assert (t = (if neg then [ch "-"] else []) ++ t0) as ->.
  { destruct t as [|c t]; simpl in Es; [by injection Es as <- <-|]. destruct (Z.eqb_spec c (ch "-")) as [->|]; by injection Es as <- <-. }
  pose proof (p_digits_sound t0) as Hd. destruct (p_digits t0) as [ds t1]. destruct Hd as [Hd ->].
  destruct (int_ok ds) eqn:Ei; [|done]. destruct (p_frac t1) as [[fr t2]|] eqn:Ef; [|done].
  destruct (p_exp t2) as [[e t3]|] eqn:Ee; [|done]. intros [= <- <-].
  apply p_frac_sound in Ef as (tf & Hf & ->). apply p_exp_sound in Ee as (te & He & ->).
  exists ((if neg then [ch "-"] else []) ++ dtext ds ++ tf ++ te). split; [|by rewrite <- !app_assoc].
  exists (dtext ds), tf, te. split; [|done]. exists ds. apply int_ok_spec in Ei. split; [done|]. cbn [nint].
  destruct Ei as [[H1 H2]|(d & ->)]; [done|]. split; [done|]. split; [|done].
  destruct (decide (d = 0)) as [-> |]; [by left|right; simpl; congruence].
Qed.

(** ** strings *)
Lemma hexval_range c x : hexval c = Some x -> 0 <= x <= 15.
Proof.
  unfold hexval. repeat (match goal with |- context [Z.leb ?a ?b] => destruct (Z.leb_spec a b) end; simpl); intros [= <-]; lia.
Qed.
Lemma p_chars_ok us ts rest : jchars us ts -> p_chars (ts ++ 34 :: rest) = Some (us, rest).
Proof.
  induction 1 as [|u t us ts Hc _ IH]; [done|].
  destruct Hc as [c H1 H2 H3|c u Hin|a b c d x y z w Ha Hb Hc Hd].
  - cbn [app p_chars]. replace (c =? 34) with false by (symmetry; lia). replace (c =? 92) with false by (symmetry; lia).
    replace ((32 <=? c) && (c <=? 1114111)) with true by (symmetry; lia). rewrite IH. done.
  - cbn [app p_chars]. change (92 =? 34) with false. change (92 =? 92) with true. cbn iota.
    assert (c <> ch "u" /\ esc_lookup esc c = Some u) as [Hu ->].
    { simpl in Hin. repeat (destruct Hin as [[= <- <-]|Hin]; [done|]). done. }
    replace (c =? ch "u") with false by (symmetry; lia). rewrite IH. done.
  - cbn [app p_chars]. change (92 =? 34) with false. change (92 =? 92) with true. cbn iota. rewrite Z.eqb_refl, Ha, Hb, Hc, Hd, IH. done.
Qed.
Lemma esc_lookup_sound c u : esc_lookup esc c = Some u -> In (c, u) esc.
Proof.
  unfold esc. cbn [esc_lookup]. repeat match goal with |- context [Z.eqb ?a ?b] => destruct (Z.eqb_spec a b) as [<-|] end; intros Heq; try discriminate Heq; injection Heq as Heq; rewrite <- ?Heq; simpl; tauto.
Qed.
Lemma ccons_inv u o x : ccons u o = Some x -> exists us r, o = Some (us, r) /\ x = (u ++ us, r).
Proof. destruct o as [[us r]|]; [|done]. intros [= <-]. eauto. Qed.
Lemma p_chars_sound : forall n t us r, (length t <= n)%nat -> p_chars t = Some (us, r) -> exists ts, jchars us ts /\ t = ts ++ 34 :: r.
Proof.
  induction n as [|n IH]; intros t us r Hn E.
  - destruct t; [done|simpl in Hn; lia].
  - destruct t as [|c t]; [done|]. cbn [p_chars] in E. simpl in Hn.
    destruct (Z.eqb_spec c 34) as [-> |Hc1]; [injection E as <- <-; exists []; split; [constructor|done]|].
    destruct (Z.eqb_spec c 92) as [-> |Hc2].
    + destruct t as [|e t]; [done|]. simpl in Hn. destruct (Z.eqb_spec e (ch "u")) as [-> |Hu].
      * destruct t as [|a [|b [|c [|d t]]]]; try done. simpl in Hn.
        destruct (hexval a) as [x|] eqn:Ea; [|done]. destruct (hexval b) as [y|] eqn:Eb; [|done].
        destruct (hexval c) as [z|] eqn:Ec; [|done]. destruct (hexval d) as [w|] eqn:Ed; [|done].
        apply ccons_inv in E as (us' & r' & E & [= -> ->]). apply IH in E as (ts & Hts & ->); [|lia].
        exists ([92; ch "u"; a; b; c; d] ++ ts). split; [|done]. by apply (cs_cons [_]); [constructor|].
      * destruct (esc_lookup esc e) as [u|] eqn:Ee; [|done]. apply esc_lookup_sound in Ee.
        apply ccons_inv in E as (us' & r' & E & [= -> ->]). apply IH in E as (ts & Hts & ->); [|lia].
        exists ([92; e] ++ ts). split; [|done]. by apply (cs_cons [_]); [constructor|].
    + destruct (Z.leb_spec 32 c), (Z.leb_spec c 1114111); simpl in E; try done.
      apply ccons_inv in E as (us' & r' & E & [= -> ->]). apply IH in E as (ts & Hts & ->); [|lia].
      exists ([c] ++ ts). split; [|done]. apply (cs_cons (utf16 c)); [constructor; lia|done].
Qed.
Lemma strip_app w t : strip w (w ++ t) = Some t.
Proof. induction w; [by destruct t|]. simpl. by rewrite Z.eqb_refl. Qed.
Lemma strip_sound w : forall t r, strip w t = Some r -> t = w ++ r.
Proof.
  induction w as [|x w IH]; intros t r; [by intros [= ->]|]. destruct t as [|c t]; [done|]. simpl.
  destruct (Z.eqb_spec x c) as [-> |]; [|done]. intros H. f_equal. by apply IH.
Qed.

(** ** values *)
Lemma jvalue_start v t : jvalue v t -> exists c r, t = c :: r /\ is_ws c = false /\ c <> ch "]" /\ c <> ch "}".
Proof.
  destruct 1 as [| | |n t Hn|s t Hs| | | |]; try (eexists _, _; split; [reflexivity|done]).
  - destruct Hn as (ti & tf & te & (ds & Hd & Hne & _ & _ & ->) & _ & _ & ->). destruct (nneg n).
    + eexists _, _. split; [reflexivity|done].
    + destruct ds as [|d ds]; [done|]. inversion Hd as [|? ? Hd0 _]; subst. unfold digit in Hd0. eexists _, _. split; [reflexivity|].
      split; [|chs; lia]. destruct (is_ws (d + 48)) eqn:E; [|done]. apply is_ws_spec in E. lia.
  - destruct Hs. eexists _, _. split; [reflexivity|done].
Qed.
Lemma stop_ws w t : ws w -> stop t -> stop (w ++ t).
Proof. destruct 1 as [|c w Hc _]; [done|]. intros _. simpl. chs. lia. Qed.

Lemma number_start n t rest : number n t -> exists c r, t ++ rest = c :: r /\ (c = ch "-" \/ 48 <= c <= 57).
Proof.
  intros (ti & tf & te & (ds & Hd & Hne & _ & _ & ->) & _ & _ & ->). destruct (nneg n).
  - eexists _, _. split; [reflexivity|]. by left.
  - destruct ds as [|d ds]; [done|]. inversion Hd as [|? ? Hd0 _]; subst. unfold digit in Hd0. eexists _, _. split; [reflexivity|]. right. lia.
Qed.

Lemma p_complete :
  (forall v t, jvalue v t -> forall f rest, (length t <= f)%nat -> stop rest -> p_value f (t ++ rest) = Some (v, rest)) /\
  (forall l t, elements l t -> forall f rest, (length t < f)%nat -> p_elements f (t ++ ch "]" :: rest) = Some (l, rest)) /\
  (forall l t, members l t -> forall f rest, (length t < f)%nat -> p_members f (t ++ ch "}" :: rest) = Some (l, rest)).
Proof.
  apply jvalue_mut.
  - intros f rest Hf _. destruct f; [simpl in Hf; lia|]. reflexivity.
  - intros f rest Hf _. destruct f; [simpl in Hf; lia|]. reflexivity.
  - intros f rest Hf _. destruct f; [simpl in Hf; lia|]. reflexivity.
  - intros n t Hn f rest Hf Hr. pose proof (p_number_ok n t rest Hn Hr) as Hp.
    assert (1 <= length t)%nat. { destruct (number_start n t [] Hn) as (c & r & E & _). rewrite app_nil_r in E. rewrite E. simpl. lia. }
    destruct f as [|f]; [lia|]. destruct (number_start n t rest Hn) as (c & r & E & Hc). rewrite E in Hp |- *. cbn [p_value].
    replace (c =? ch "[") with false by (symmetry; apply Z.eqb_neq; chs; lia).
    replace (c =? ch "{") with false by (symmetry; apply Z.eqb_neq; chs; lia).
    replace (c =? 34) with false by (symmetry; apply Z.eqb_neq; chs; lia).
    replace (c =? ch "n") with false by (symmetry; apply Z.eqb_neq; chs; lia).
    replace (c =? ch "t") with false by (symmetry; apply Z.eqb_neq; chs; lia).
    replace (c =? ch "f") with false by (symmetry; apply Z.eqb_neq; chs; lia).
    rewrite Hp. done.
  - intros s t [us ts Hs] f rest Hf _. destruct f as [|f]; [simpl in Hf; lia|]. cbn [app p_value].
    change (34 =? ch "[") with false. change (34 =? ch "{") with false. change (34 =? 34) with true. cbn iota.
    rewrite <- app_assoc. cbn [app]. by rewrite (p_chars_ok _ _ _ Hs).
  - intros w Hw f rest Hf _. destruct f as [|f]; [simpl in Hf; lia|]. cbn [app p_value]. rewrite Z.eqb_refl, <- app_assoc, skip_ws_app by done. done.
  - intros l t Hl IH f rest Hf _. destruct f as [|f]; [simpl in Hf; lia|]. cbn [app p_value]. rewrite Z.eqb_refl, <- app_assoc. cbn [app].
    simpl in Hf. rewrite app_length in Hf. simpl in Hf.
    assert (exists x r, skip_ws (t ++ ch "]" :: rest) = x :: r /\ x <> ch "]") as (x & r & E & Hx).
    { destruct Hl as [v t w1 w2 Hv Hw1 Hw2|v t w1 w2 l ts Hv Hw1 Hw2 _];
        destruct (jvalue_start v t Hv) as (c & r & -> & Hc & Hne & _); eexists _, _; (split; [|exact Hne]);
        rewrite <- app_assoc, skip_ws_app by done; cbn [app]; rewrite skip_ws_cons by done; reflexivity. }
    rewrite E. replace (x =? ch "]") with false by (symmetry; apply Z.eqb_neq; done). rewrite IH by lia. done.
  - intros w Hw f rest Hf _. destruct f as [|f]; [simpl in Hf; lia|]. cbn [app p_value].
    change (ch "{" =? ch "[") with false. cbn iota. rewrite Z.eqb_refl, <- app_assoc, skip_ws_app by done. done.
  - intros l t Hl IH f rest Hf _. destruct f as [|f]; [simpl in Hf; lia|]. cbn [app p_value].
    change (ch "{" =? ch "[") with false. cbn iota. rewrite Z.eqb_refl, <- app_assoc. cbn [app].
    simpl in Hf. rewrite app_length in Hf. simpl in Hf.
    assert (exists r, skip_ws (t ++ ch "}" :: rest) = 34 :: r) as (r & E).
    { destruct Hl as [k tk v t w1 w2 w3 w4 Hk Hv Hw1 Hw2 Hw3 Hw4|k tk v t w1 w2 w3 w4 l ts Hk Hv Hw1 Hw2 Hw3 Hw4 _];
        destruct Hk; eexists; rewrite <- !app_assoc, skip_ws_app by done; reflexivity. }
    rewrite E. change (34 =? ch "}") with false. cbn iota. rewrite IH by lia. done.
  - intros v t w1 w2 Hv IH Hw1 Hw2 f rest Hf. destruct f as [|f]; [lia|]. cbn [p_elements]. rewrite !app_length in Hf.
    destruct (jvalue_start v t Hv) as (c & r & Et & Hc & _). rewrite <- !app_assoc, skip_ws_app by done.
    assert (Hsk : forall x, skip_ws (t ++ x) = t ++ x) by (intros x; rewrite Et; cbn [app]; by apply skip_ws_cons).
    rewrite Hsk, IH; [|lia|apply stop_ws; [done|simpl; chs; lia]]. rewrite skip_ws_app by done. reflexivity.
  - intros v t w1 w2 l ts Hv IH Hw1 Hw2 _ IHl f rest Hf. destruct f as [|f]; [lia|]. cbn [p_elements]. rewrite !app_length in Hf. simpl in Hf.
    destruct (jvalue_start v t Hv) as (c & r & Et & Hc & _). rewrite <- !app_assoc, skip_ws_app by done.
    assert (Hsk : forall x, skip_ws (t ++ x) = t ++ x) by (intros x; rewrite Et; cbn [app]; by apply skip_ws_cons).
    rewrite Hsk, IH; [|lia|apply stop_ws; [done|simpl; chs; lia]]. rewrite skip_ws_app by done. rewrite <- app_comm_cons.
    rewrite skip_ws_cons by done. rewrite Z.eqb_refl. rewrite IHl; [done|]. rewrite Et in Hf. simpl in Hf. lia.
  - intros k tk v t w1 w2 w3 w4 [us tus Hk] Hv IH Hw1 Hw2 Hw3 Hw4 f rest Hf. destruct f as [|f]; [lia|]. cbn [p_members].
    repeat (rewrite app_length in Hf || simpl in Hf).
    destruct (jvalue_start v t Hv) as (c & r & Et & Hc & _).
    assert (Hsk : forall x, skip_ws (t ++ x) = t ++ x) by (intros x; rewrite Et; cbn [app]; by apply skip_ws_cons).
    rewrite <- app_assoc, skip_ws_app by done. cbn [app]. rewrite skip_ws_cons by done. change (34 =? 34) with true. cbn iota.
    rewrite <- !app_assoc. cbn [app]. rewrite (p_chars_ok _ _ _ Hk). rewrite <- app_assoc, skip_ws_app by done. cbn [app]. rewrite skip_ws_cons by done.
    rewrite Z.eqb_refl. rewrite <- !app_assoc, skip_ws_app, Hsk by done. rewrite IH; [|lia|apply stop_ws; [done|simpl; chs; lia]].
    rewrite skip_ws_app by done. reflexivity.
  - intros k tk v t w1 w2 w3 w4 l ts [us tus Hk] Hv IH Hw1 Hw2 Hw3 Hw4 _ IHl f rest Hf. destruct f as [|f]; [lia|]. cbn [p_members].
    repeat (rewrite app_length in Hf || simpl in Hf).
    destruct (jvalue_start v t Hv) as (c & r & Et & Hc & _).
    assert (Hsk : forall x, skip_ws (t ++ x) = t ++ x) by (intros x; rewrite Et; cbn [app]; by apply skip_ws_cons).
    rewrite <- app_assoc, skip_ws_app by done. cbn [app]. rewrite skip_ws_cons by done. change (34 =? 34) with true. cbn iota.
    rewrite <- !app_assoc. cbn [app]. rewrite (p_chars_ok _ _ _ Hk). rewrite <- app_assoc, skip_ws_app by done. cbn [app]. rewrite skip_ws_cons by done.
    rewrite Z.eqb_refl. rewrite <- !app_assoc, skip_ws_app, Hsk by done. rewrite IH; [|lia|apply stop_ws; [done|simpl; chs; lia]].
    rewrite skip_ws_app by done. cbn [app]. rewrite skip_ws_cons by done. rewrite Z.eqb_refl, IHl; [done|]. lia.
Qed.

Theorem parse_complete v t : json_text v t -> parse t = Some v.
Proof.
  intros (w1 & tv & w2 & H1 & Hv & H2 & ->). unfold parse. rewrite skip_ws_app by done.
  destruct (jvalue_start v tv Hv) as (c & r & Et & Hc & _).
  assert (Hsk : forall x, skip_ws (tv ++ x) = tv ++ x) by (intros x; rewrite Et; cbn [app]; by apply skip_ws_cons).
  rewrite Hsk. destruct p_complete as (Hp & _).
  rewrite (Hp v tv Hv); [|rewrite !app_length; lia|rewrite <- (app_nil_r w2); by apply stop_ws].
  replace (skip_ws w2) with (@nil Z); [done|]. rewrite <- (app_nil_r w2), skip_ws_app; done.
Qed.
(** The grammar is unambiguous. *)
Theorem json_text_unique v1 v2 t : json_text v1 t -> json_text v2 t -> v1 = v2.
Proof. intros H1%parse_complete H2%parse_complete. congruence. Qed.

Lemma elements_ws w l t : ws w -> elements l t -> elements l (w ++ t).
Proof. intros Hw. destruct 1; rewrite app_assoc; constructor; try done; by apply Forall_app. Qed.
Lemma members_ws w l t : ws w -> members l t -> members l (w ++ t).
Proof. intros Hw. destruct 1; rewrite app_assoc; econstructor; try done; by apply Forall_app. Qed.

Lemma p_sound : forall f,
  (forall t v r, p_value f t = Some (v, r) -> exists t1, t = t1 ++ r /\ jvalue v t1) /\
  (forall t l r, p_elements f t = Some (l, r) -> exists t1, t = t1 ++ ch "]" :: r /\ elements l t1) /\
  (forall t l r, p_members f t = Some (l, r) -> exists t1, t = t1 ++ ch "}" :: r /\ members l t1).
Proof.
  induction f as [|f (IHv & IHe & IHm)]; [done|]. split; [|split].
  - intros t v r. destruct t as [|c t]; [done|]. cbn [p_value].
    destruct (Z.eqb_spec c (ch "[")) as [->|].
    { destruct (skip_ws_sound t) as (w & Hw & Et). destruct (skip_ws t) as [|x t'] eqn:Es; [done|].
      destruct (Z.eqb_spec x (ch "]")) as [->|].
      - intros [= <- <-]. exists (ch "[" :: w ++ [ch "]"]). split; [simpl; rewrite <- app_assoc; simpl; congruence|by constructor].
      - destruct (p_elements f t) as [[l r']|] eqn:E; [|done]. intros [= <- <-]. apply IHe in E as (t1 & E & H).
        exists (ch "[" :: t1 ++ [ch "]"]). split; [simpl; rewrite <- app_assoc; simpl; congruence|by constructor]. }
    destruct (Z.eqb_spec c (ch "{")) as [->|].
    { destruct (skip_ws_sound t) as (w & Hw & Et). destruct (skip_ws t) as [|x t'] eqn:Es; [done|].
      destruct (Z.eqb_spec x (ch "}")) as [->|].
      - intros [= <- <-]. exists (ch "{" :: w ++ [ch "}"]). split; [simpl; rewrite <- app_assoc; simpl; congruence|by constructor].
      - destruct (p_members f t) as [[l r']|] eqn:E; [|done]. intros [= <- <-]. apply IHm in E as (t1 & E & H).
        exists (ch "{" :: t1 ++ [ch "}"]). split; [simpl; rewrite <- app_assoc; simpl; congruence|by constructor]. }
    destruct (Z.eqb_spec c 34) as [->|].
    { destruct (p_chars t) as [[s r']|] eqn:E; [|done]. intros [= <- <-]. apply (p_chars_sound (length t)) in E as (ts & H & ->); [|lia].
      exists (34 :: ts ++ [34]). split; [simpl; by rewrite <- app_assoc|by constructor; constructor]. }
    unfold lit.
    destruct (Z.eqb_spec c (ch "n")) as [->|].
    { destruct (strip (str "null") (ch "n" :: t)) eqn:E; [|done]. apply strip_sound in E. intros [= <- <-]. rewrite E. eexists. split; [done|constructor]. }
    destruct (Z.eqb_spec c (ch "t")) as [->|].
    { destruct (strip (str "true") (ch "t" :: t)) eqn:E; [|done]. apply strip_sound in E. intros [= <- <-]. rewrite E. eexists. split; [done|constructor]. }
    destruct (Z.eqb_spec c (ch "f")) as [->|].
    { destruct (strip (str "false") (ch "f" :: t)) eqn:E; [|done]. apply strip_sound in E. intros [= <- <-]. rewrite E. eexists. split; [done|constructor]. }
    destruct (p_number (c :: t)) as [[n' r']|] eqn:E; [|done]. intros [= <- <-]. apply p_number_sound in E as (t1 & H & ->).
    eexists. split; [done|by constructor].
  - intros t l r. cbn [p_elements]. destruct (skip_ws_sound t) as (w & Hw & Et).
    destruct (p_value f (skip_ws t)) as [[v r1]|] eqn:Ev; [|done]. apply IHv in Ev as (t1 & Ev & Hv).
    destruct (skip_ws_sound r1) as (w2 & Hw2 & Er1). destruct (skip_ws r1) as [|c r2] eqn:Es; [done|].
    destruct (Z.eqb_spec c (ch ",")) as [->|].
    + destruct (p_elements f r2) as [[l' r3]|] eqn:El; [|done]. intros [= <- <-]. apply IHe in El as (t2 & -> & Hl).
      exists (w ++ t1 ++ w2 ++ ch "," :: t2). split; [|by constructor]. rewrite Et, Ev, Er1.
      rewrite <- !app_assoc. by rewrite <- app_comm_cons.
    + destruct (Z.eqb_spec c (ch "]")) as [->|]; [|done]. intros [= <- <-].
      exists (w ++ t1 ++ w2). split; [|by constructor]. rewrite Et, Ev, Er1. by rewrite <- !app_assoc.
  - intros t l r. cbn [p_members]. destruct (skip_ws_sound t) as (w & Hw & Et).
    destruct (skip_ws t) as [|q r0] eqn:Es0; [done|]. destruct (Z.eqb_spec q 34) as [->|]; [|done].
    destruct (p_chars r0) as [[k r1]|] eqn:Ek; [|done]. apply (p_chars_sound (length r0)) in Ek as (tk & Hk & ->); [|lia].
    destruct (skip_ws_sound r1) as (w2 & Hw2 & Er1). destruct (skip_ws r1) as [|c r2] eqn:Es1; [done|].
    destruct (Z.eqb_spec c (ch ":")) as [->|]; [|done].
    destruct (skip_ws_sound r2) as (w3 & Hw3 & Er2).
    destruct (p_value f (skip_ws r2)) as [[v r3]|] eqn:Ev; [|done]. apply IHv in Ev as (t1 & Ev & Hv).
    destruct (skip_ws_sound r3) as (w4 & Hw4 & Er3). destruct (skip_ws r3) as [|c r4] eqn:Es3; [done|].
    destruct (Z.eqb_spec c (ch ",")) as [->|].
    + destruct (p_members f r4) as [[l' r5]|] eqn:El; [|done]. intros [= <- <-]. apply IHm in El as (t2 & -> & Hl).
      exists (w ++ (34 :: tk ++ [34]) ++ w2 ++ ch ":" :: w3 ++ t1 ++ w4 ++ ch "," :: t2). split; [|by constructor].
      rewrite Et, Er1, Er2, Ev, Er3. repeat (rewrite <- !app_assoc; cbn [app]). done.
    + destruct (Z.eqb_spec c (ch "}")) as [->|]; [|done]. intros [= <- <-].
      exists (w ++ (34 :: tk ++ [34]) ++ w2 ++ ch ":" :: w3 ++ t1 ++ w4). split; [|by constructor].
      rewrite Et, Er1, Er2, Ev, Er3. repeat (rewrite <- !app_assoc; cbn [app]). done.
Qed.
(** [parse] decides well-formedness: it accepts exactly the JSON texts. *)
Theorem parse_spec t v : parse t = Some v <-> json_text v t.
Proof.
  split; [|apply parse_complete]. unfold parse. destruct (skip_ws_sound t) as (w & Hw & Et).
  destruct (p_value _ _) as [[v' r]|] eqn:E; [|done]. apply p_sound in E as (t1 & E & Hv).
  destruct (skip_ws_sound r) as (w2 & Hw2 & Er). destruct (skip_ws r); [|done]. intros [= <-].
  exists w, t1, w2. rewrite app_nil_r in Er. subst w2. do 3 (split; [done|]). congruence.
Qed.

(** ** compact texts are JSON texts *)
Lemma dval_app a b : dval (a ++ b) = dval a * 10 ^ Z.of_nat (length b) + dval b.
Proof.
  unfold dval. revert a. induction b as [|d b IH] using rev_ind; intros a.
  - rewrite app_nil_r. simpl. lia.
  - rewrite app_assoc, fold_left_app, IH, (fold_left_app _ b [d] 0). simpl. rewrite app_length. simpl.
    replace (Z.of_nat (length b + 1)) with (Z.of_nat (length b) + 1) by lia. rewrite Z.pow_add_r by lia. lia.
Qed.
Lemma digits_fuel_app : forall f n acc, digits_fuel f n acc = digits_fuel f n [] ++ acc.
Proof.
  induction f as [|f IH]; intros n acc; [done|]. simpl. destruct (n <? 10); [done|].
  rewrite IH, (IH (n / 10) [n mod 10]), <- app_assoc. done.
Qed.
Lemma digits_fuel_ok : forall f n, 0 <= n -> n < 10 * 2 ^ Z.of_nat f ->
  let ds := digits_fuel f n [] in
  Forall digit ds /\ ds <> [] /\ (ds = [0] \/ head ds <> Some 0) /\ dval ds = n.
Proof.
  induction f as [|f IH]; intros n H0 Hn; cbn [digits_fuel].
  - simpl in Hn. cbn zeta. split; [repeat constructor; unfold digit; lia|]. split; [done|]. split; [|unfold dval; simpl; lia].
    destruct (decide (n = 0)) as [->|]; [by left|right; simpl; congruence].
  - destruct (Z.ltb_spec n 10).
    + cbn zeta. split; [repeat constructor; unfold digit; lia|]. split; [done|]. split; [|unfold dval; simpl; lia].
      destruct (decide (n = 0)) as [->|]; [by left|right; simpl; congruence].
    + cbn zeta. rewrite digits_fuel_app. pose proof (Z.div_mod n 10 ltac:(lia)). pose proof (Z.mod_pos_bound n 10 ltac:(lia)).
      destruct (IH (n / 10)) as (D1 & D2 & D3 & D4); [lia| |].
      { replace (Z.of_nat (S f)) with (Z.of_nat f + 1) in Hn by lia. rewrite Z.pow_add_r in Hn by lia.
        assert (0 < 2 ^ Z.of_nat f) by (apply Z.pow_pos_nonneg; lia). lia. }
      cbn zeta in *. set (ds := digits_fuel f (n / 10) []) in *. split; [|split; [|split]].
      * apply Forall_app. split; [done|]. repeat constructor; unfold digit; lia.
      * by destruct ds.
      * right. destruct D3 as [D3|D3].
        -- rewrite D3 in D4. unfold dval in D4. simpl in D4. lia.
        -- destruct ds; done.
      * rewrite dval_app, D4. simpl. unfold dval. simpl. lia.
Qed.
Lemma digits_ok n : 0 <= n ->
  Forall digit (digits n) /\ digits n <> [] /\ (digits n = [0] \/ head (digits n) <> Some 0) /\ dval (digits n) = n.
Proof.
  intros Hn. apply digits_fuel_ok; [done|]. destruct (decide (n = 0)) as [->|]; [simpl; lia|].
  rewrite Z2Nat.id by apply Z.log2_nonneg. destruct (Z.log2_spec n ltac:(lia)) as [_ H].
  rewrite Z.pow_succ_r in H by apply Z.log2_nonneg. assert (0 < 2 ^ Z.log2 n) by (apply Z.pow_pos_nonneg; [lia|apply Z.log2_nonneg]). lia.
Qed.
Lemma num_text_ok n : wf_num n -> number n (num_text n).
Proof.
  intros (H0 & Hf & He). destruct (digits_ok (nint n) H0) as (H1 & H2 & H3 & H4).
  eexists (dtext (digits (nint n))), _, []. split; [exists (digits (nint n)); eauto 10|]. split; [|split].
  - instantiate (1 := match nfrac n with [] => [] | fr => ch "." :: dtext fr end).
    destruct (nfrac n) as [|d fr]; [by left|]. right. done.
  - left. done.
  - unfold num_text. by rewrite app_nil_r.
Qed.
Lemma hexdigit_ok x : 0 <= x < 16 -> hexval (hexdigit x) = Some x.
Proof.
  intros Hx. unfold hexdigit, hexval. destruct (Z.ltb_spec x 10).
  - replace ((48 <=? 48 + x) && (48 + x <=? 57)) with true by (symmetry; lia). f_equal. lia.
  - replace ((48 <=? 97 + (x - 10)) && (97 + (x - 10) <=? 57)) with false by (symmetry; lia).
    replace ((97 <=? 97 + (x - 10)) && (97 + (x - 10) <=? 102)) with true by (symmetry; lia). f_equal. lia.
Qed.
Lemma quote_unit_ok u : 0 <= u < 65536 -> jchar [u] (quote_unit u).
Proof.
  intros Hu. unfold quote_unit. destruct (decide _) as [[-> | ->]|Hn].
  - constructor. by left.
  - constructor. right. by left.
  - destruct (decide _) as [H|H].
    + replace [u] with (utf16 u) at 1; [constructor; lia|]. unfold utf16. replace (u <? 65536) with true by (symmetry; lia). done.
    + pose proof (Z.div_mod u 16 ltac:(lia)) as E1. pose proof (Z.mod_pos_bound u 16 ltac:(lia)) as B1.
      pose proof (Z.div_mod (u / 16) 16 ltac:(lia)) as E2. pose proof (Z.mod_pos_bound (u / 16) 16 ltac:(lia)) as B2.
      pose proof (Z.div_mod (u / 256) 16 ltac:(lia)) as E3. pose proof (Z.mod_pos_bound (u / 256) 16 ltac:(lia)) as B3.
      pose proof (Z.mod_pos_bound (u / 4096) 16 ltac:(lia)) as B4.
      assert (D1 : u / 256 = u / 16 / 16) by (rewrite Z.div_div by lia; done).
      assert (D2 : u / 4096 = u / 256 / 16) by (rewrite Z.div_div by lia; done).
      assert (u / 4096 mod 16 = u / 4096) by (apply Z.mod_small; split; [apply Z.div_pos; lia|apply Z.div_lt_upper_bound; lia]).
      replace [u] with [((u / 4096 mod 16 * 16 + u / 256 mod 16) * 16 + u / 16 mod 16) * 16 + u mod 16] by (f_equal; lia).
      constructor; by apply hexdigit_ok.
Qed.
Lemma str_text_ok s : wf_str s -> jstring s (str_text s).
Proof.
  intros Hs. constructor. induction Hs as [|u s Hu _ IH]; [constructor|]. cbn [map concat].
  apply (cs_cons [u]); [by apply quote_unit_ok|done].
Qed.
Lemma text_jvalue : forall v, wf_json v -> jvalue v (text v).
Proof.
  induction v as [|b|n|s|l IH|l IH] using json_ind'; intros Hwf; inversion Hwf; subst.
  - constructor.
  - destruct b; constructor.
  - constructor. by apply num_text_ok.
  - constructor. by apply str_text_ok.
  - cbn [text]. destruct l as [|v l]; [apply (v_arr0 []); constructor|]. constructor.
    rename H0 into Hl. clear Hwf. revert v IH Hl. induction l as [|v' l IHl]; intros v IH Hl;
      inversion IH as [|? ? Hv Hvs]; inversion Hl as [|? ? Hw Hws]; subst.
    + cbn [map commas]. rewrite <- (app_nil_r (text v)). apply (e_one v (text v) [] []); try apply ws_nil. by apply Hv.
    + cbn [map commas]. apply (e_cons v (text v) [] [] (v' :: l)); try apply ws_nil; [by apply Hv|]. by apply IHl.
  - cbn [text]. destruct l as [|kv l]; [apply (v_obj0 []); constructor|]. constructor.
    rename H0 into Hl. clear Hwf. revert kv IH Hl. induction l as [|kv' l IHl]; intros [k v] IH Hl;
      inversion IH as [|? ? Hv Hvs]; inversion Hl as [|? ? Hw Hws]; subst; destruct Hw as [Hk Hw]; cbn [fst snd] in *.
    + cbn [map commas fst snd]. rewrite <- (app_nil_r (text v)). apply (m_one k (str_text k) v (text v) [] [] [] []); try apply ws_nil; [by apply str_text_ok|by apply Hv].
    + cbn [map commas fst snd]. rewrite <- app_assoc. cbn [app]. apply (m_cons k (str_text k) v (text v) [] [] [] [] (kv' :: l)); try apply ws_nil; [by apply str_text_ok|by apply Hv|].
      by apply IHl.
Qed.
Theorem text_json v : wf_json v -> json_text v (text v).
Proof. intros H. exists [], (text v), []. split; [constructor|]. split; [by apply text_jvalue|]. split; [constructor|]. by rewrite app_nil_r. Qed.
Print Assumptions parse_spec.
Print Assumptions text_json.

Example parse_example : parse (str " { ""k"" : [1 , -2.50e+3,""a\u00e9""], ""z"":null}") =
  Some (JObj [(str "k", JArr [JNum (int_num 1); JNum (MkNum true 2 [5; 0] 3); JStr [97; 233]]); (str "z", JNull)]).
Proof. reflexivity. Qed.
Example parse_example_bad : map parse [str "[,1]"; str "01"; str "[1 2]"; str "{""a"",1}"; str ""; str "-"; str "1."; str "tru"] = replicate 8 None.
Proof. reflexivity. Qed.
