(** * mu_task: what the translated source does, function by function *)
From Verif Require Import CSym SrcMqueue.
Open Scope string_scope. Open Scope Z_scope.

Section task.
Context (p : plat) (fuel : nat) (ext : string -> list val -> mem -> res (val * ty * mem))
  (ext_ptr : val -> list val -> mem -> res (val * ty * mem)).
Notation call d := (call p mqueue_prog fuel ext ext_ptr d).
(** the objects of the three static variables of mu_task.c:42-46 *)
Notation state_hook := 0%nat. Notation call_hook_obj := 1%nat. Notation transfer_hook := 2%nat.
Definition null (v : val) : bool := match v with VI 0 => true | _ => false end.
Lemma ptr_cmp_null v : defined v = Ok v -> ptr_cmp Ne v (VI 0) = Ok (negb (null v)).
Proof. destruct v as [[]|b o|]; cbn; done. Qed.
Definition set_cell_at (m : mem) (b : nat) (c : list val) : mem := MkMem (<[b := c]> (heap m)) (next m).

Ltac go := erewrite call_S by reflexivity; csteps.
Ltac cs := repeat first [rewrite ptr_cmp_null by assumption | cstep | hstep].

Lemma src_task_init d m tb c fn s info : heap m !! tb = Some c -> length c = 3%nat -> defined fn = Ok fn -> defined info = Ok info ->
  0 <= s < 4294967296 ->
  call (S d) "mu_task_init" [VP tb 0; fn; VI s; info] m = Ok (VP tb 0, Tptr (Tstruct "mu_task_t"), set_cell_at m tb [fn; VI s; info]).
Proof.
  intros H1 Hl Hf Hi Hs. destruct c as [|c0 [|c1 [|c2 [|]]]]; try discriminate Hl.
  go. rewrite ?Z.mod_small by (cbn; lia). done.
Qed.
Lemma src_get_fn d m tb fn s info : heap m !! tb = Some [fn; s; info] -> defined fn = Ok fn ->
  call (S d) "mu_task_get_fn" [VP tb 0] m = Ok (fn, Tptr Tfn, m).
Proof. intros H Hf. go. done. Qed.
Lemma src_get_state d m tb fn s info : heap m !! tb = Some [fn; VI s; info] -> 0 <= s < 4294967296 ->
  call (S d) "mu_task_get_state" [VP tb 0] m = Ok (VI s, Tint false W32, m).
Proof. intros H Hf. go. rewrite ?Z.mod_small by (cbn; lia). done. Qed.
Lemma src_get_info d m tb fn s info : heap m !! tb = Some [fn; s; info] -> defined info = Ok info ->
  call (S d) "mu_task_get_user_info" [VP tb 0] m = Ok (info, Tptr Tvoid, m).
Proof. intros H Hf. go. done. Qed.
Lemma src_set_info d m tb fn s info x : heap m !! tb = Some [fn; s; info] -> defined x = Ok x ->
  call (S d) "mu_task_set_user_info" [VP tb 0; x] m = Ok (VI 0, Tvoid, set_cell_at m tb [fn; s; x]).
Proof. intros H Hf. go. done. Qed.
Lemma src_install_state d m h v : heap m !! state_hook = Some [h] -> defined v = Ok v ->
  call (S d) "mu_task_install_set_state_hook" [v] m = Ok (VI 0, Tvoid, set_cell_at m state_hook [v]).
Proof. intros H Hf. go. done. Qed.
Lemma src_install_call d m h v : heap m !! call_hook_obj = Some [h] -> defined v = Ok v ->
  call (S d) "mu_task_install_call_hook" [v] m = Ok (VI 0, Tvoid, set_cell_at m call_hook_obj [v]).
Proof. intros H Hf. go. done. Qed.
Lemma src_install_transfer d m h v : heap m !! transfer_hook = Some [h] -> defined v = Ok v ->
  call (S d) "mu_task_install_transfer_hook" [v] m = Ok (VI 0, Tvoid, set_cell_at m transfer_hook [v]).
Proof. intros H Hf. go. done. Qed.
(** calling a task that is NULL *)
Lemma src_call_null d m : call (S d) "mu_task_call" [VI 0] m = Ok (VI 0, Tvoid, m).
Proof. go. done. Qed.
(** ... with no hook installed *)
Lemma src_call_nohook d m tb fn s info : heap m !! call_hook_obj = Some [VI 0] -> heap m !! tb = Some [fn; s; info] -> defined fn = Ok fn ->
  call (S d) "mu_task_call" [VP tb 0] m = let* '(_, _, m) := ext_ptr fn [VP tb 0] m in Ok (VI 0, Tvoid, m).
Proof. intros H1 H2 Hf. go. destruct (ext_ptr fn [VP tb 0] m) as [[[v t] m']| |]; csteps; done. Qed.
(** ... with a hook: the hook runs first; the function called is the one the task has afterwards *)
Lemma src_call_hook d m tb h : heap m !! call_hook_obj = Some [h] -> defined h = Ok h -> null h = false ->
  (forall v t m', ext_ptr h [VP tb 0] m = Ok (v, t, m') -> exists fn s info, heap m' !! tb = Some [fn; s; info] /\ defined fn = Ok fn) ->
  call (S d) "mu_task_call" [VP tb 0] m =
    let* '(_, _, m) := ext_ptr h [VP tb 0] m in
    let* fn := load_mem m tb 0 in
    let* '(_, _, m) := ext_ptr fn [VP tb 0] m in Ok (VI 0, Tvoid, m).
Proof.
  intros H1 Hh Hn Hk. erewrite call_S by reflexivity. cs. 
  destruct (ext_ptr h [VP tb 0] m) as [[[v t] m']| |] eqn:E; cs; [|done|done].
  destruct (Hk _ _ _ eq_refl) as (fn & s & info & H2 & Hf). unfold load_mem. rewrite H2. cbn [ofopt bind].
  change (ld [fn; s; info] 0) with (Ok fn). cs. destruct (ext_ptr fn [VP tb 0] m') as [[[v' t'] m2]| |]; cs; done.
Qed.
Lemma src_set_state_null d m s : call (S d) "mu_task_set_state" [VI 0; VI s] m = Ok (VI 0, Tptr (Tstruct "mu_task_t"), m).
Proof. go. done. Qed.
Lemma src_set_state_nohook d m tb fn s0 info s : heap m !! state_hook = Some [VI 0] -> heap m !! tb = Some [fn; s0; info] -> 0 <= s < 4294967296 ->
  call (S d) "mu_task_set_state" [VP tb 0; VI s] m = Ok (VP tb 0, Tptr (Tstruct "mu_task_t"), set_cell_at m tb [fn; VI s; info]).
Proof. intros H1 H2 Hs. go. rewrite ?Z.mod_small by (cbn; lia). csteps. rewrite ?Z.mod_small by (cbn; lia). done. Qed.
Lemma src_set_state_hook d m tb h s : heap m !! state_hook = Some [h] -> defined h = Ok h -> null h = false -> 0 <= s < 4294967296 ->
  (forall v t m', ext_ptr h [VP tb 0; VI s] m = Ok (v, t, m') -> exists fn s0 info, heap m' !! tb = Some [fn; s0; info]) ->
  call (S d) "mu_task_set_state" [VP tb 0; VI s] m =
    let* '(_, _, m) := ext_ptr h [VP tb 0; VI s] m in
    let* m := store_mem m tb 1 (VI s) in Ok (VP tb 0, Tptr (Tstruct "mu_task_t"), m).
Proof.
  intros H1 Hh Hn Hs Hk. erewrite call_S by reflexivity. cs. rewrite ?Z.mod_small by (cbn; lia). 
  destruct (ext_ptr h [VP tb 0; VI s] m) as [[[v t] m']| |] eqn:E; cs; [|done|done].
  destruct (Hk _ _ _ eq_refl) as (fn & s0 & info & H2). unfold store_mem. rewrite H2. cs. rewrite ?Z.mod_small by (cbn; lia). done.
Qed.
Lemma src_transfer d m h task : heap m !! transfer_hook = Some [h] -> defined h = Ok h -> defined task = Ok task ->
  call (S d) "mu_task_call_transfer_hook" [task] m =
    if null h then Ok (VI 0, Tvoid, m) else let* '(_, _, m) := ext_ptr h [task] m in Ok (VI 0, Tvoid, m).
Proof.
  intros H1 Hh Ht. erewrite call_S by reflexivity. cs. destruct (null h) eqn:Hn; cbn [negb]; cs; [done|].
  destruct (ext_ptr h [task] m) as [[[v t] m']| |] eqn:E; cs; done.
Qed.
End task.
