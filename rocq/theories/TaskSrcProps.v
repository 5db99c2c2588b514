(** * Property C111: the text of mu_task.c, run by the rules of C *)
From Verif Require Import CSym SrcMqueue TaskSrc.
Open Scope string_scope. Open Scope Z_scope.
Notation length := List.length.

Section source.
Context (p : plat) (fuel : nat) (ext : string -> list val -> mem -> res (val * ty * mem))
  (code : val -> list val -> mem -> res (val * ty * mem)).   (* what the function pointers of the user do *)
(** a call of a function of mu_task.c *)
Definition tcall_src (f : string) (vs : list val) (m : mem) : res (val * mem) :=
  let* '(v, _, m) := call p mqueue_prog fuel ext code 1 f vs m in Ok (v, m).
(** the user's function [fn], called with [args] *)
Definition user (fn : val) (args : list val) (m : mem) : res mem := let* '(_, _, m) := code fn args m in Ok m.
(** the three hook variables of mu_task.c are the objects 0, 1, 2 *)
Definition hook (m : mem) (k : nat) (h : val) : Prop := heap m !! k = Some [h] /\ defined h = Ok h.
Definition is_task (m : mem) (t : nat) (fn s info : val) : Prop := heap m !! t = Some [fn; s; info] /\ defined fn = Ok fn.
Definition with_object (m : mem) (b : nat) (c : list val) : mem := MkMem (<[b := c]> (heap m)) (next m).
Notation NULLP := (VI 0).

(** ** calling a task: NULL is ignored; the call hook, if there is one, runs first with the task as its
    only argument; then the function the task has at that point runs, once, with the task as its only argument *)
Theorem C111_call_null : forall m, tcall_src "mu_task_call" [NULLP] m = Ok (NULLP, m).
Proof. intros m. unfold tcall_src. rewrite src_call_null. done. Qed.
Theorem C111_call_runs_fn : forall m t fn s info, hook m 1 NULLP -> is_task m t fn s info ->
  tcall_src "mu_task_call" [VP t 0] m = let* m := user fn [VP t 0] m in Ok (NULLP, m).
Proof.
  intros m t fn s info [Hh _] [Ht Hf]. unfold tcall_src, user. erewrite src_call_nohook by eassumption.
  destruct (code fn [VP t 0] m) as [[[v ty'] m']| |]; done.
Qed.
Theorem C111_call_hook_first : forall m t h, hook m 1 h -> h <> NULLP ->
  (forall m', user h [VP t 0] m = Ok m' -> exists fn s info, is_task m' t fn s info) ->
  (forall m' fn s info, user h [VP t 0] m = Ok m' -> is_task m' t fn s info ->
     tcall_src "mu_task_call" [VP t 0] m = let* m := user fn [VP t 0] m' in Ok (NULLP, m)) /\
  (user h [VP t 0] m = UB -> tcall_src "mu_task_call" [VP t 0] m = UB).
Proof.
  intros m t h [Hh Hd] Hn Hk. assert (Hn' : null h = false) by (destruct h as [[]| |]; done).
  unfold tcall_src, user in *. erewrite src_call_hook; [|exact Hh|exact Hd|exact Hn'|].
  - split.
    + intros m' fn s info E [Ht Hf]. destruct (code h [VP t 0] m) as [[[v ty'] m1]| |]; cbn in E; try discriminate E. injection E as ->.
      cbn [bind]. unfold load_mem. rewrite Ht. cbn [ofopt bind]. change (ld [fn; s; info] 0) with (Ok fn). cbn [bind].
      destruct (code fn [VP t 0] m') as [[[v2 t2] m2]| |]; done.
    + intros E. destruct (code h [VP t 0] m) as [[[v ty'] m1]| |]; cbn in E; try discriminate E. done.
  - intros v t' m' E. destruct (Hk m') as (fn & s & info & Hx & Hf); [rewrite E; done|]. exists fn, s, info. done.
Qed.
(** ** setting the state: the hook, if any, runs first - it sees the old state in the task and the new one as
    its second argument - and then the state is stored; no function of the user runs besides the hook *)
Theorem C111_set_state_null : forall m s, tcall_src "mu_task_set_state" [NULLP; VI s] m = Ok (NULLP, m).
Proof. intros m s. unfold tcall_src. rewrite src_set_state_null. done. Qed.
Theorem C111_set_state : forall m t fn s0 info s, hook m 0 NULLP -> is_task m t fn s0 info -> 0 <= s < 2 ^ 32 ->
  tcall_src "mu_task_set_state" [VP t 0; VI s] m = Ok (VP t 0, with_object m t [fn; VI s; info]).
Proof. intros m t fn s0 info s [Hh _] [Ht _] Hs. unfold tcall_src. erewrite src_set_state_nohook by eassumption. done. Qed.
Theorem C111_set_state_hook_first : forall m t h s m' fn s0 info, hook m 0 h -> h <> NULLP -> 0 <= s < 2 ^ 32 ->
  user h [VP t 0; VI s] m = Ok m' -> is_task m' t fn s0 info ->
  tcall_src "mu_task_set_state" [VP t 0; VI s] m = Ok (VP t 0, with_object m' t [fn; VI s; info]).
Proof.
  intros m t h s m' fn s0 info [Hh Hd] Hn Hs E [Ht _]. assert (Hn' : null h = false) by (destruct h as [[]| |]; done).
  unfold tcall_src, user in *. destruct (code h [VP t 0; VI s] m) as [[[v ty'] m1]| |] eqn:Ec; cbn in E; try discriminate E. injection E as ->.
  erewrite src_set_state_hook; [|exact Hh|exact Hd|exact Hn'|exact Hs|rewrite Ec; intros ? ? ? [= <- <- <-]; eauto].
  rewrite Ec. cbn [bind]. unfold store_mem. rewrite Ht. done.
Qed.
(** ** the fields *)
Theorem C111_fields : forall m t fn s info x c,
  (is_task m t fn (VI s) info -> tcall_src "mu_task_get_fn" [VP t 0] m = Ok (fn, m)) /\
  (is_task m t fn (VI s) info -> 0 <= s < 2 ^ 32 -> tcall_src "mu_task_get_state" [VP t 0] m = Ok (VI s, m)) /\
  (is_task m t fn (VI s) info -> defined info = Ok info -> tcall_src "mu_task_get_user_info" [VP t 0] m = Ok (info, m)) /\
  (is_task m t fn (VI s) info -> defined x = Ok x ->
     tcall_src "mu_task_set_user_info" [VP t 0; x] m = Ok (NULLP, with_object m t [fn; VI s; x])) /\
  (heap m !! t = Some c -> length c = 3%nat -> defined fn = Ok fn -> defined info = Ok info -> 0 <= s < 2 ^ 32 ->
     tcall_src "mu_task_init" [VP t 0; fn; VI s; info] m = Ok (VP t 0, with_object m t [fn; VI s; info])).
Proof.
  intros m t fn s info x c. unfold tcall_src, is_task. repeat split.
  - intros [H Hf]. erewrite src_get_fn by eassumption. done.
  - intros [H Hf] Hs. erewrite src_get_state by eassumption. done.
  - intros [H Hf] Hi. erewrite src_get_info by eassumption. done.
  - intros [H Hf] Hx. erewrite src_set_info by eassumption. done.
  - intros H Hl Hf Hi Hs. erewrite src_task_init by eassumption. done.
Qed.
(** ** the hooks: each installer changes its own hook only *)
Theorem C111_hooks : forall m h0 h, defined h = Ok h ->
  (heap m !! 0%nat = Some [h0] -> tcall_src "mu_task_install_set_state_hook" [h] m = Ok (NULLP, with_object m 0 [h])) /\
  (heap m !! 1%nat = Some [h0] -> tcall_src "mu_task_install_call_hook" [h] m = Ok (NULLP, with_object m 1 [h])) /\
  (heap m !! 2%nat = Some [h0] -> tcall_src "mu_task_install_transfer_hook" [h] m = Ok (NULLP, with_object m 2 [h])) /\
  (forall t, hook m 2 h -> defined t = Ok t -> h <> NULLP ->
     tcall_src "mu_task_call_transfer_hook" [t] m = let* m := user h [t] m in Ok (NULLP, m)) /\
  (forall t, hook m 2 NULLP -> defined t = Ok t -> tcall_src "mu_task_call_transfer_hook" [t] m = Ok (NULLP, m)).
Proof.
  intros m h0 h Hd. unfold tcall_src, user. repeat split.
  - intros H. erewrite src_install_state by eassumption. done.
  - intros H. erewrite src_install_call by eassumption. done.
  - intros H. erewrite src_install_transfer by eassumption. done.
  - intros t [H Hh] Ht Hx. erewrite src_transfer by eassumption.
    replace (null h) with false by (destruct h as [[]| |]; done). destruct (code h [t] m) as [[[v ty'] m']| |]; done.
  - intros t [H Hh] Ht. erewrite src_transfer by eassumption. done.
Qed.
End source.
Print Assumptions C111_call_runs_fn.
Print Assumptions C111_call_hook_first.
Print Assumptions C111_set_state_hook_first.
Print Assumptions C111_fields.
Print Assumptions C111_hooks.

(** the hypotheses are met: a task (object 5) with function pointer 7, a call hook with function pointer 8
    that makes the task's function 9; each function writes its number into object 6 *)
Definition ex_code (fn : val) (args : list val) (m : mem) : res (val * ty * mem) :=
  match fn, args, heap m !! 6%nat with
  | VP n 0, VP t 0 :: _, Some l =>
    let m := MkMem (<[6%nat := (l ++ [VI (Z.of_nat n)])%list]> (heap m)) (next m) in
    if Nat.eqb n 8 then Ok (VI 0, Tvoid, MkMem (<[t := [VP 9 0; VI 0; VI 0]]> (heap m)) (next m)) else Ok (VI 0, Tvoid, m)
  | _, _, _ => UB
  end.
Definition ex_mem (h : val) : mem :=
  MkMem (<[0%nat := [VI 0]]> (<[1%nat := [h]]> (<[2%nat := [VI 0]]> (<[5%nat := [VP 7 0; VI 0; VI 0]]> (<[6%nat := []]> ∅))))) 10.
Example C111_example :
  (let* '(_, m) := tcall_src P32 0 (fun _ _ _ => UB) ex_code "mu_task_call" [VP 5 0] (ex_mem (VI 0)) in Ok (heap m !! 6%nat)) = Ok (Some [VI 7]) /\
  (let* '(_, m) := tcall_src P32 0 (fun _ _ _ => UB) ex_code "mu_task_call" [VP 5 0] (ex_mem (VP 8 0)) in Ok (heap m !! 6%nat)) = Ok (Some [VI 8; VI 9]).
Proof. vm_compute. split; reflexivity. Qed.
