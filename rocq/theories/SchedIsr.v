(** * mu_sched with interrupts inside API calls: property C48.

    The interrupt side calls mu_sched_from_isr (mu_sched.c:164-170), the main side runs the
    machine of SchedModel.v.  The only memory both sides access is the interrupt queue
    s_sched.irq_tasks; its accesses are the transitions [cstep] of SpscModel.v, one memory
    access each (sequentially consistent memory).  The two sides interleave arbitrarily; a
    real interrupt, which runs to completion, is a special case.  Between shared accesses:
    - mu_sched_step (mu_sched.c:105-129) is mu_spsc_get access by access, then, as one
      transition, the rest up to the entry of user code (private memory only: its
      interleaving with the interrupt side cannot be observed);
    - the other API calls do not access the interrupt queue and are one transition;
    - mu_sched_init and mu_sched_reset, which are not safe while interrupts arrive, are
      excluded, as is mu_sched_from_isr on the main side (a second producer). *)
From Verif Require Import CSem FifoSpec Ring QueueModel QueueProofs SpscModel SpscProofs TaskModel.
From Verif Require Import SchedModel SchedSpec SchedProofs SchedOrder SchedProps.
Notation label := SchedModel.label.

Inductive mpc :=
| MNone                              (* not inside mu_sched_step's mu_spsc_get *)
| MGet (now : Z) (pc : cpc)          (* mu_sched_step: inside mu_spsc_get *)
| MGot (now : Z) (ok : bool) (v : Z). (* mu_sched_step: mu_spsc_get has returned *)
Record istate := MkI { i_m : machine; i_p : ppc; i_c : mpc }.

Inductive ilabel :=
| IPut (t : Z)       (* the interrupt side calls mu_sched_from_isr(t) *)
| IP                 (* the interrupt side makes its next access *)
| IMain (l : label)  (* the main side: an API call, a return, a write to a task object *)
| IC                 (* mu_sched_step makes its next access to the interrupt queue *)
| ICont.             (* mu_sched_step goes on after mu_spsc_get *)

(** [Done l ev]: the call [l] completed with events [ev].  [Took now]: marks the access by
    which the mu_spsc_get of a mu_sched_step ended. *)
Inductive iout := Took (now : Z) | Done (l : label) (ev : list event).

Definition irq_of (m : machine) : spsc := sc_irq (w_sys (m_w m)).
Definition set_irq (m : machine) (q : spsc) : machine :=
  MkM (with_sys (m_w m) (with_irq (w_sys (m_w m)) q)) (m_stack m).
Definition put_out (e : sev) : list iout :=
  match e with
  | RespPut x b => [Done (LOp (OIsr x)) [ERet (RErr (if b then SCHED_NONE else SCHED_FULL))]]
  | _ => []
  end.
Definition is_step (l : label) : bool := match l with LOp (OStep _) => true | _ => false end.
Definition excluded (l : label) : bool :=
  match l with LOp OInit | LOp OReset | LOp (OIsr _) => true | _ => false end.

Definition istep (cf : config) (s : istate) (il : ilabel) : res (istate * list iout) :=
  let m := i_m s in
  match il with
  | IPut t =>
      let* '(c, e) := cstep (MkC (irq_of m) (i_p s) CIdle) (LPut t) in
      Ok (MkI (set_irq m (c_q c)) (c_p c) (i_c s), concat (map put_out e))
  | IP =>
      let* '(c, e) := cstep (MkC (irq_of m) (i_p s) CIdle) LP in
      Ok (MkI (set_irq m (c_q c)) (c_p c) (i_c s), concat (map put_out e))
  | IMain l =>
      match i_c s with
      | MNone =>
        if excluded l then Ok (s, []) else
        match l with
        | LOp (OStep now) => Ok (MkI m (i_p s) (MGet now CLoadHead), [])
        | _ => let* '(m', ev) := mstep cf m l in Ok (MkI m' (i_p s) MNone, [Done l ev])
        end
      | _ => Ok (s, [])
      end
  | IC =>
      match i_c s with
      | MGet now pc =>
        let* '(c, e) := cstep (MkC (irq_of m) (i_p s) pc) LC in
        match e with
        | [RespGet ok v] => Ok (MkI (set_irq m (c_q c)) (i_p s) (MGot now ok v), [Took now])
        | _ => Ok (MkI (set_irq m (c_q c)) (i_p s) (MGet now (c_c c)), [])
        end
      | _ => Ok (s, [])
      end
  | ICont =>
      match i_c s with
      | MGot now ok v =>
        let* '(m', ev) := settle (pmap (plift
           (step_rest cf now (if ok then SPSC_NONE else SPSC_EMPTY) (with_curr (w_sys (m_w m)) v))
           (step_call (m_w m))) (fun _ => RUnit)) (m_stack m) in
        Ok (MkI m' (i_p s) MNone, [Done (LOp (OStep now)) ev])
      | _ => Ok (s, [])
      end
  end.
Fixpoint irun (cf : config) (s : istate) (ils : list ilabel) : res (istate * list iout) :=
  match ils with
  | [] => Ok (s, [])
  | il :: ils => let* '(s, o) := istep cf s il in
                 let* '(s, os) := irun cf s ils in Ok (s, o ++ os)
  end.
Definition istart (cf : config) (tm : Z -> task) : istate := MkI (machine0 cf tm) PIdle MNone.

(** With nothing on the interrupt side, step = IMain, the accesses of mu_spsc_get, ICont:
    the same as mu_sched_step of SchedModel.v. *)
Theorem istep_alone : forall cf m now m' ev,
  mstep cf m (LOp (OStep now)) = Ok (m', ev) ->
  exists n, irun cf (MkI m PIdle MNone) (IMain (LOp (OStep now)) :: replicate n IC ++ [ICont]) =
    Ok (MkI m' PIdle MNone, [Took now; Done (LOp (OStep now)) ev]).
Proof.
  intros cf m now m' ev. cbn [mstep api]. unfold mu_sched_step, step_choose, mu_spsc_get.
  destruct m as [w stk]. destruct w as [tm h1 h2 h3 s]. destruct s as [q qi d dc cu idl]. destruct q as [sto mask head tail].
  cbn [m_w w_sys sc_irq s_head s_tail s_store s_mask m_stack].
  destruct (Z.eqb_spec head tail) as [E|E]; cbn [bind].
  - intros H. exists 2%nat. cbn [replicate app irun istep i_c i_m i_p excluded bind irq_of m_w w_sys sc_irq cstep s_head c_q c_c c_p].
    cbn [irq_of set_irq with_irq with_sys m_w w_sys sc_irq cstep s_head s_tail c_q c_c c_p s_store s_mask i_m m_stack bind].
    destruct (Z.eqb_spec head tail) as [_|?]; [|done]. cbn [bind].
    cbn [irq_of set_irq with_irq with_sys m_w w_sys sc_irq cstep s_head s_tail c_q c_c c_p s_store s_mask i_m m_stack bind i_c i_p].
    cbn [set_irq with_irq with_sys m_w w_sys sc_irq with_curr w_tasks w_set_state_hook w_call_hook w_transfer_hook sc_immed sc_deferred sc_dcount sc_curr sc_idle] in *.
    unfold step_call, with_curr, with_irq, with_sys in *. cbn [sc_irq sc_immed sc_deferred sc_dcount sc_curr sc_idle w_sys w_tasks w_set_state_hook w_call_hook w_transfer_hook] in *.
    rewrite H. done.
  - destruct (ld sto head) as [v| |] eqn:El; cbn [bind plift]; try (intros; discriminate).
    intros H. exists 6%nat.
    cbn [replicate app irun istep i_c i_m i_p excluded bind irq_of m_w w_sys sc_irq cstep s_head c_q c_c c_p].
    cbn [irq_of set_irq with_irq with_sys m_w w_sys sc_irq cstep s_head s_tail c_q c_c c_p s_store s_mask i_m m_stack bind].
    destruct (Z.eqb_spec head tail) as [?|_]; [done|]. cbn [bind].
    cbn [irq_of set_irq with_irq with_sys m_w w_sys sc_irq cstep s_head s_tail c_q c_c c_p s_store s_mask i_m m_stack bind i_c i_p].
    rewrite El. 
    cbn [irq_of set_irq with_irq with_sys m_w w_sys sc_irq cstep s_head s_tail c_q c_c c_p s_store s_mask i_m m_stack bind i_c i_p].
    unfold step_call, with_curr, with_irq, with_sys in *. cbn [sc_irq sc_immed sc_deferred sc_dcount sc_curr sc_idle w_sys w_tasks w_set_state_hook w_call_hook w_transfer_hook m_w m_stack] in *.
    rewrite H. done.
Qed.
Print Assumptions istep_alone.

(** ** Reading off the outputs *)
(** The sequential history: every call at the access by which it takes effect *)
Definition hist1 (o : iout) : list label :=
  match o with Took now => [LOp (OStep now)] | Done l _ => if is_step l then [] else [l] end.
Definition history (os : list iout) : list label := concat (map hist1 os).
(** the completed calls with their events *)
Definition result1 (o : iout) : list (label * list event) :=
  match o with Took _ => [] | Done l ev => [(l, ev)] end.
Definition results (os : list iout) : list (label * list event) := concat (map result1 os).
Definition is_isr (l : label) : bool := match l with LOp (OIsr _) => true | _ => false end.
Definition on_isr (r : list (label * list event)) := filter (fun x => is_isr (fst x) = true) r.
Definition on_main (r : list (label * list event)) := filter (fun x => is_isr (fst x) = false) r.

(** ** Proof *)
Section proof.
Context (cf : config) (Hcf : config_ok cf) (k : Z) (Hk : 1 <= k) (HkM : MAX_IRQ cf = 2 ^ k).
Notation BT := (by_time (precedes cf)).
Notation n := (MAX_IRQ cf).

Definition a_other (now : Z) (a : asched) : Z * list Z * asched :=
    let '(t, gone, a) := match due cf BT now (a_def a) with
                         | Some (t, rest) => (t, [t], a_with_def a rest)
                         | None => (NULL, [], a)
                         end in
    if decide (t <> NULL) then (t, gone, a)
    else match a_imm a with
         | t :: imm => (t, gone ++ [t], a_with_imm a imm)
         | [] => (a_idle a, gone, a)
         end.
Definition pick (now : Z) (ok : bool) (v : Z) (a : asched) : Z * list Z * asched :=
  if ok then (v, [v], a) else a_other now a.
Definition finish (now : Z) (ok : bool) (v : Z) (s : astate) : aout :=
  let '(t, gone, a) := pick now ok v (queues s) in
  if decide (t = NULL)
  then with_out (ret (with_sys (as_w s) (a_with_curr a NULL)) (as_stack s) RUnit) [] gone []
  else with_out (call (with_sys (as_w s) (a_with_curr a t)) (as_stack s) (enter (as_w s) t true)) [] gone [].
Definition set_airq (s : astate) (l : list Z) : astate := MkAs (with_sys (as_w s) (a_with_irq (queues s) l)) (as_stack s).

Lemma set_airq_id s : set_airq s (a_irq (queues s)) = s.
Proof. destruct s as [[? ? ? ? []] ?]. done. Qed.
Lemma step_finish s now : 
  astep cf BT s (LOp (OStep now)) =
  match a_irq (queues s) with
  | t :: irq => finish now true t (set_airq s irq)
  | [] => finish now false NULL s
  end.
Proof.
  cbn [astep aop]. unfold choose, finish, pick. unfold queues. destruct (a_irq (w_sys (as_w s))) as [|t irq] eqn:E; [done|].
  unfold set_airq, queues. cbn [as_w as_stack with_sys w_sys].
  destruct (decide (t = NULL)); done.
Qed.
Lemma pick_irq now ok v a l : pick now ok v (a_with_irq a l) =
  let '(t, gone, a') := pick now ok v a in (t, gone, a_with_irq a' l).
Proof.
  unfold pick, a_other. destruct ok; [done|]. cbn [a_with_irq a_def a_imm a_idle].
  destruct (due _ _ _ _) as [[t rest]|].
  - destruct (decide _); [done|]. cbn [a_with_def a_with_irq a_def a_imm a_idle]. by destruct (a_imm a).
  - rewrite decide_False by (by intros ?). cbn [a_with_irq a_imm a_idle]. by destruct (a_imm a).
Qed.
Lemma pick_keeps now ok v a : a_irq (snd (pick now ok v a)) = a_irq a.
Proof.
  unfold pick, a_other. destruct ok; [done|].
  destruct (due _ _ _ _) as [[t rest]|].
  - destruct (decide _); [done|]. cbn [a_with_def a_imm a_idle]. by destruct (a_imm a).
  - rewrite decide_False by (by intros ?). by destruct (a_imm a).
Qed.
Lemma finish_irq now ok v s l : ao_state (finish now ok v (set_airq s l)) = set_airq (ao_state (finish now ok v s)) l /\
  ao_evs (finish now ok v (set_airq s l)) = ao_evs (finish now ok v s).
Proof.
  unfold finish. unfold queues at 1 3. cbn [set_airq as_w with_sys w_sys]. rewrite pick_irq.
  fold (queues s). destruct (pick now ok v (queues s)) as [[t gone] a'].
  destruct (decide (t = NULL)); [done|]. cbn [set_airq as_w with_sys enter w_call_hook w_tasks]. unfold enter.
  cbn [with_sys w_call_hook w_tasks]. by destruct (decide _).
Qed.
Lemma finish_keeps now ok v s : a_irq (queues (ao_state (finish now ok v s))) = a_irq (queues s).
Proof.
  unfold finish. pose proof (pick_keeps now ok v (queues s)) as H. destruct (pick _ _ _ _) as [[t gone] a']. simpl in H.
  by destruct (decide _).
Qed.

(** an interrupt task is accepted or refused *)
Lemma isr_step s t : astep cf BT s (LOp (OIsr t)) =
  if decide (Z.of_nat (length (a_irq (queues s))) < n - 1)
  then MkOut (set_airq s (a_irq (queues s) ++ [t])) [ERet (RErr SCHED_NONE)] [t] [] []
  else MkOut s [ERet (RErr SCHED_FULL)] [] [] [].
Proof.
  cbn [astep aop]. rewrite (irq_capacity_pow2 n k Hk HkM). unfold queues. destruct (decide _); [done|]. by destruct s.
Qed.

(** *** the rest of a step *)
Lemma rest_ok now ok v s a : schedrep cf s a -> (ok = false -> v = NULL) ->
  exists s', step_rest cf now (if ok then SPSC_NONE else SPSC_EMPTY) (with_curr s v) = Ok s' /\ sc_irq s' = sc_irq s /\
    let '(t, _, a') := pick now ok v a in sc_curr s' = t /\ schedrep cf s' (a_with_curr a' t).
Proof.
  intros (Hi & Hq & Hc & Hd & H1 & H2) Hv. unfold step_rest, pick. destruct ok.
  { eexists. split; [done|]. split; [done|]. split; [done|]. by split_and!. }
  specialize (Hv eq_refl). subst v. unfold a_other.
  destruct Hcf as (HMD & _).
  destruct s as [irq immed d cnt curr idle]. simpl in *.
  destruct (fetch_ok cf d cnt (a_def a) now irq immed NULL idle ltac:(lia) Hd) as [E Hd'].
  unfold with_curr. cbn [sc_irq sc_immed sc_deferred sc_dcount sc_curr sc_idle]. rewrite E. cbn [bind].
  clear E. cbn [sc_irq sc_immed sc_deferred sc_dcount sc_curr sc_idle].
  set (D := due cf BT now (a_def a)) in *.
  set (l' := match D with Some (_, l') => l' | None => a_def a end) in *.
  set (t := match D with Some (t, _) => t | None => NULL end) in *.
  assert (HD : match D with Some (t, rest) => (t, [t], a_with_def a rest) | None => (NULL, [], a) end =
     (t, match D with Some (t, _) => [t] | None => [] end, a_with_def a l')).
  { subst l' t. destruct D as [[]|]; [done|]. by destruct a. }
  rewrite HD. clear HD. set (gone := match D with Some (t, _) => [t] | None => [] end).
  destruct (Z.eqb_spec t NULL) as [He|Hne]; cbn [negb].
  - rewrite decide_False by (by intros ?). cbn [a_with_def a_imm a_idle].
    unfold mu_queue_get.
    destruct (access_ok (plat_ cf) immed (a_imm a) true Hq) as [(Hm & ->)|(x & im & q' & Hm & -> & Hcq & Hq')]; rewrite Hm; cbn [bind].
    + eexists. split; [done|]. split; [done|]. split; [done|]. unfold with_immed. cbn [sc_irq sc_immed sc_deferred sc_dcount sc_curr sc_idle].
      unfold schedrep, a_with_curr. cbn [sc_irq sc_immed sc_deferred sc_dcount sc_curr sc_idle a_irq a_imm a_def a_curr a_idle a_with_def]. rewrite Hm in *. split_and!; done.
    + eexists. split; [done|]. split; [done|]. split; [done|]. unfold with_immed. cbn [sc_irq sc_immed sc_deferred sc_dcount sc_curr sc_idle].
      unfold schedrep, a_with_curr. cbn [sc_irq sc_immed sc_deferred sc_dcount sc_curr sc_idle a_irq a_imm a_def a_curr a_idle a_with_def a_with_imm]. split_and!; try done. congruence.
  - rewrite decide_True by done. eexists. split; [done|]. split; [done|]. cbn [sc_curr]. split; [done|].
    unfold schedrep, a_with_curr. cbn [sc_irq sc_immed sc_deferred sc_dcount sc_curr sc_idle a_irq a_imm a_def a_curr a_idle a_with_def]. split_and!; done.
Qed.
Lemma cont_ok now ok v m s : mrep cf m s -> (ok = false -> v = NULL) ->
  exists m', settle (pmap (plift
           (step_rest cf now (if ok then SPSC_NONE else SPSC_EMPTY) (with_curr (w_sys (m_w m)) v))
           (step_call (m_w m))) (fun _ => RUnit)) (m_stack m) = Ok (m', ao_evs (finish now ok v s)) /\
    mrep cf m' (ao_state (finish now ok v s)) /\ irq_of m' = irq_of m.
Proof.
  intros [Hw Hstk] Hv. destruct m as [w stk], s as [u fs]. cbn [m_w m_stack as_w as_stack] in *.
  pose proof Hw as (Ht & Hh1 & Hh2 & Hh3 & Hr).
  destruct (rest_ok now ok v _ _ Hr Hv) as (s' & -> & Hirq & Hch). cbn [plift]. unfold step_call, finish. unfold queues. cbn [as_w as_stack].
  destruct (pick now ok v (w_sys u)) as [[t gone] a'] eqn:Ech. destruct Hch as [Hct Hr'].
  unfold mu_task_call, enter. rewrite Hct. cbn [with_sys w_call_hook].
  destruct (Z.eqb_spec t NULL) as [->|Hne]; cbn [negb].
  - rewrite decide_True by done. eexists. split; [done|]. split; [|done]. split; [|done].
    destruct Hr' as (?&?&?&?&?&?). by split_and!.
  - rewrite decide_False by done. rewrite <- Hh2, <- Ht.
    destruct (Z.eqb_spec (w_call_hook w) NULL) as [Hz|Hnz]; cbn [negb].
    + rewrite decide_True by done. eexists. split; [done|]. split; [|done]. split; [|by constructor]. by apply (wrep_sys cf w u).
    + rewrite decide_False by done. eexists. split; [done|]. split; [|done]. split; [|by constructor]. by apply (wrep_sys cf w u).
Qed.

(** *** the other main-side transitions leave the interrupt queue alone *)
Lemma immed_irq t s e s' : mu_sched_immed cf t s = Ok (e, s') -> sc_irq s' = sc_irq s.
Proof.
  unfold mu_sched_immed. destruct (mu_queue_put _ _ _) as [[b q]| |]; cbn [bind]; try discriminate.
  destruct b; cbn [negb]; by intros [= <- <-].
Qed.
Lemma defer_irq t at_ s e s' : defer_aux cf t at_ s = Ok (e, s') -> sc_irq s' = sc_irq s.
Proof.
  unfold defer_aux. destruct (_ =? _); [by intros [= <- <-]|].
  destruct (defer_search _ _ _ _) as [i| |]; cbn [bind]; try discriminate.
  destruct (if 0 <? _ then _ else _) as [d| |]; cbn [bind]; try discriminate.
  destruct (st d i _) as [d'| |]; cbn [bind]; try discriminate. by intros [= <- <-].
Qed.
Lemma remove_irq t s e s' : mu_sched_remove_deferred_task cf t s = Ok (e, s') -> sc_irq s' = sc_irq s.
Proof.
  unfold mu_sched_remove_deferred_task. destruct (remove_loop _ _ _ _ _ _) as [[[d c] er]| |]; cbn [bind]; try discriminate.
  by intros [= <- <-].
Qed.
Lemma main_irq m s l m' ev : mrep cf m s -> excluded l = false -> is_step l = false ->
  mstep cf m l = Ok (m', ev) -> irq_of m' = irq_of m.
Proof.
  intros [Hw Hstk] He Hs. destruct m as [w stk]. cbn [m_w m_stack] in *. unfold irq_of. cbn [m_w].
  assert (Hsim : forall (r : res (sched_err * sched)), (forall e s', r = Ok (e, s') -> sc_irq s' = sc_irq (w_sys w)) ->
     settle (simple w r RErr) stk = Ok (m', ev) -> sc_irq (w_sys (m_w m')) = sc_irq (w_sys w)).
  { intros r Hr. unfold simple. destruct r as [[e s']| |]; cbn [plift settle]; try discriminate. intros [= <- <-]. by apply (Hr e). }
  destruct l as [o| |tm]; cbn [mstep m_w m_stack].
  - destruct o; try discriminate; cbn [api]; try (by intros [= <- <-]).
    + unfold plift. destruct (mu_sched_next_task _ _); cbn [settle]; try discriminate. by intros [= <- <-].
    + unfold mu_sched_transfer, mu_task_call_transfer_hook. destruct (negb _).
      * by intros [= <- <-].
      * cbn [pbind pmap]. unfold pmap. destruct (mu_sched_immed cf t (w_sys w)) as [[e s']| |] eqn:E; cbn [plift pbind settle]; try discriminate.
        intros [= <- <-]. simpl. by eapply immed_irq.
    + apply Hsim. intros e s'. apply immed_irq.
    + apply Hsim. intros e s'. apply defer_irq.
    + apply Hsim. intros e s'. apply defer_irq.
    + apply Hsim. intros e s'. apply remove_irq.
    + unfold mu_task_call. destruct (negb (t =? NULL)); [|by intros [= <- <-]]. destruct (negb _); by intros [= <- <-].
    + unfold mu_task_set_state. destruct (negb (t =? NULL)); [|by intros [= <- <-]]. destruct (negb _); by intros [= <- <-].
  - destruct Hstk as [|kk f stk fs Hk' Hstk]; [by intros [= <- <-]|]. subst kk.
    destruct f; cbn [denote settle]; try (by intros [= <- <-]).
    destruct (mu_sched_immed cf t (w_sys w)) as [[e s']| |] eqn:E; cbn [plift pbind settle]; try discriminate.
    intros [= <- <-]. simpl. by eapply immed_irq.
  - by intros [= <- <-].
Qed.
Lemma main_airq s l : excluded l = false -> is_step l = false ->
  a_irq (queues (ao_state (astep cf BT s l))) = a_irq (queues s).
Proof.
  intros He Hs. destruct s as [w stk]. unfold queues. cbn [as_w].
  assert (Him : forall stk t, a_irq (w_sys (as_w (ao_state (a_immed cf w stk t)))) = a_irq (w_sys w)).
  { intros stk' t'. unfold a_immed. by destruct (decide _). }
  assert (Hdf : forall t at_, a_irq (w_sys (as_w (ao_state (a_defer cf BT w stk t at_)))) = a_irq (w_sys w)).
  { intros t' at_. unfold a_defer. by destruct (decide _). }
  destruct l as [o| |m]; cbn [astep as_w as_stack]; [|destruct stk as [|f stk]; [done|destruct f; cbn [areturn]; try done; by rewrite Him]|done].
  destruct o; try discriminate; cbn [aop]; try done; try (by rewrite Him); try (by rewrite Hdf).
  - destruct (decide _); [by rewrite Him|done].
  - by destruct (decide _).
  - by repeat destruct (decide _).
Qed.

(** *** the invariant *)
(** [S] is the state of the specification after the linearised history; [pend] the events of
    a step that has taken effect but is not finished *)
Definition iinv (s : istate) (S : astate) (pend : list (label * list event)) : Prop :=
  match i_c s with
  | MNone => mrep cf (i_m s) S /\ inv n (MkC (irq_of (i_m s)) (i_p s) CIdle) (a_irq (queues S)) /\ pend = []
  | MGet now pc => mrep cf (i_m s) S /\ inv n (MkC (irq_of (i_m s)) (i_p s) pc) (a_irq (queues S)) /\ pc <> CIdle /\ pend = []
  | MGot now ok v => exists S0, mrep cf (i_m s) S0 /\ inv n (MkC (irq_of (i_m s)) (i_p s) CIdle) (a_irq (queues S0)) /\
      (ok = false -> v = NULL) /\
      S = ao_state (finish now ok v S0) /\ pend = [(LOp (OStep now), ao_evs (finish now ok v S0))]
  end.

Lemma set_irq_id m : set_irq m (irq_of m) = m.
Proof. destruct m as [[? ? ? ? []] ?]. done. Qed.
Lemma irq_set_irq m q : irq_of (set_irq m q) = q.
Proof. done. Qed.
Lemma mrep_set m s q l : mrep cf m s -> srep n q l -> mrep cf (set_irq m q) (set_airq s l).
Proof.
  intros [Hw Hs] Hr. split; [|done]. apply wrep_sys; [done|]. destruct Hw as (_ & _ & _ & _ & (Hi & H)).
  unfold schedrep in *. split; [|exact H]. left. split; [done|]. by apply (irq_capacity_pow2 n k).
Qed.

(** one transition of the interrupt side *)
Lemma put_step q p pc l lab : (lab = LP \/ exists t, lab = LPut t) -> inv n (MkC q p pc) l ->
  exists c e, cstep (MkC q p CIdle) lab = Ok (c, e) /\
   ((concat (map put_out e) = [] /\ inv n (MkC (c_q c) (c_p c) pc) l /\ (c_q c = q \/ srep n (c_q c) l)) \/
    (exists t, concat (map put_out e) = [Done (LOp (OIsr t)) [ERet (RErr SCHED_NONE)]] /\
       Z.of_nat (length l) < n - 1 /\ inv n (MkC (c_q c) (c_p c) pc) (l ++ [t])) \/
    (exists t, concat (map put_out e) = [Done (LOp (OIsr t)) [ERet (RErr SCHED_FULL)]] /\
       ~ Z.of_nat (length l) < n - 1 /\ inv n (MkC (c_q c) (c_p c) pc) l)).
Proof.
  intros Hlab Hi.
  destruct (cstep_ok n (MkC q p pc) l lab Hi) as (s' & e & l' & E & Hi' & Hf).
  assert (Hind : exists c, cstep (MkC q p CIdle) lab = Ok (c, e) /\ s' = MkC (c_q c) (c_p c) pc).
  { destruct Hlab as [->|[t ->]]; cbn [cstep c_p c_q c_c] in *.
    - destruct p; try (injection E as <- <-; eexists; split; [done|]; done).
      + destruct (next_tail =? s_head q); injection E as <- <-; eexists; split; done.
      + destruct (st (s_store q) t item); cbn [bind] in *; try discriminate. injection E as <- <-. eexists; split; done.
    - destruct p; injection E as <- <-; eexists; split; done. }
  destruct Hind as (c & Ec & ->). exists c, e. split; [done|].
  assert (He : concat (map ev_op e) = [] /\ concat (map put_out e) = [] \/
     exists t b, e = [RespPut t b]).
  { destruct Hlab as [->|[t ->]]; cbn [cstep c_p c_q c_c] in Ec.
    - destruct p; try (injection Ec as <- <-; simpl; eauto; fail).
      + destruct (next_tail =? s_head q); injection Ec as <- <-; simpl; eauto.
      + destruct (st (s_store q) t item); cbn [bind] in *; try discriminate. injection Ec as <- <-. by left.
    - destruct p; injection Ec as <- <-; by left. }
  destruct He as [[He1 He2]|(t & b & ->)].
  - left. rewrite He2. split; [done|]. rewrite He1 in Hf. simpl in Hf. injection Hf as ->. split; [done|]. right. by destruct Hi'.
  - right. simpl in Hf |- *. destruct (Z.ltb_spec (Z.of_nat (length l)) (n - 1)); injection Hf as <- <-.
    + left. eauto.
    + right. exists t. split; [done|]. split; [lia|done].
Qed.

Lemma arun_one S l : arun cf BT S [l] = (ao_state (astep cf BT S l), [ao_evs (astep cf BT S l)]).
Proof. done. Qed.

(** the simulation: the outputs of a transition, replayed sequentially *)
Definition sim (S : astate) (pend : list (label * list event)) (os : list iout) (S' : astate) (pend' : list (label * list event)) : Prop :=
  fst (arun cf BT S (history os)) = S' /\
  let z := combine (history os) (snd (arun cf BT S (history os))) in
  on_isr z = on_isr (results os) /\
  pend ++ on_main z = on_main (results os) ++ pend'.

Lemma isr_ok (s : istate) S pend lab il : iinv s S pend ->
  (lab = LP \/ exists t, lab = LPut t) ->
  (forall c e, cstep (MkC (irq_of (i_m s)) (i_p s) CIdle) lab = Ok (c, e) ->
     istep cf s il = Ok (MkI (set_irq (i_m s) (c_q c)) (c_p c) (i_c s), concat (map put_out e))) ->
  exists s' os S' pend', istep cf s il = Ok (s', os) /\ iinv s' S' pend' /\ sim S pend os S' pend'.
Proof.
  intros Hi Hlab Heq. destruct s as [m p c]. unfold iinv in Hi. cbn [i_m i_p i_c] in *.
  (* the state whose queue the put acts on *)
  assert (G : forall pc A, mrep cf m A -> inv n (MkC (irq_of m) p pc) (a_irq (queues A)) ->
    exists cc e A', cstep (MkC (irq_of m) p CIdle) lab = Ok (cc, e) /\
      mrep cf (set_irq m (c_q cc)) A' /\ inv n (MkC (c_q cc) (c_p cc) pc) (a_irq (queues A')) /\
      ((concat (map put_out e) = [] /\ A' = A) \/
       exists t, concat (map put_out e) = [Done (LOp (OIsr t)) (ao_evs (astep cf BT A (LOp (OIsr t))))] /\
         A' = ao_state (astep cf BT A (LOp (OIsr t))) /\ 
         ((A' = A /\ ao_evs (astep cf BT A (LOp (OIsr t))) = [ERet (RErr SCHED_FULL)] /\ ~ Z.of_nat (length (a_irq (queues A))) < n - 1) \/
          (A' = set_airq A (a_irq (queues A) ++ [t]) /\ ao_evs (astep cf BT A (LOp (OIsr t))) = [ERet (RErr SCHED_NONE)] /\ Z.of_nat (length (a_irq (queues A))) < n - 1)))).
  { intros pc A Hm Hinv. destruct (put_step _ _ _ _ lab Hlab Hinv) as (cc & e & Ec & Hcase). exists cc, e.
    assert (Hsame : forall l, inv n (MkC (c_q cc) (c_p cc) pc) l -> mrep cf (set_irq m (c_q cc)) (set_airq A l)).
    { intros l Hl. apply mrep_set; [done|]. by destruct Hl. }
    destruct Hcase as [(Ho & Hi' & _)|[(t & Ho & Hlt & Hi')|(t & Ho & Hlt & Hi')]].
    - exists A. split; [done|]. specialize (Hsame _ Hi'). rewrite set_airq_id in Hsame. split; [done|]. split; [done|]. by left.
    - exists (set_airq A (a_irq (queues A) ++ [t])). split; [done|]. split; [by apply Hsame|]. split; [done|]. right. exists t.
      rewrite isr_step. rewrite decide_True by done. cbn [ao_evs ao_state]. split; [done|]. split; [done|]. by right.
    - exists A. specialize (Hsame _ Hi'). rewrite set_airq_id in Hsame. split; [done|]. split; [done|]. split; [done|]. right. exists t.
      rewrite isr_step. rewrite decide_False by done. cbn [ao_evs ao_state]. split; [done|]. split; [done|]. by left. }
  destruct c as [|now pc|now ok v].
  - destruct Hi as (Hm & Hinv & ->). destruct (G CIdle S Hm Hinv) as (cc & e & A' & Ec & Hm' & Hinv' & Hcase).
    rewrite (Heq cc e Ec). eexists _, _, A', []. split; [done|]. split; [by split_and!|]. unfold sim.
    destruct Hcase as [[-> ->]|(t & -> & -> & _)]; [done|]. done.
  - destruct Hi as (Hm & Hinv & Hpc & ->). destruct (G pc S Hm Hinv) as (cc & e & A' & Ec & Hm' & Hinv' & Hcase).
    rewrite (Heq cc e Ec). eexists _, _, A', []. split; [done|]. split; [by split_and!|]. unfold sim.
    destruct Hcase as [[-> ->]|(t & -> & -> & _)]; [done|]. done.
  - destruct Hi as (S0 & Hm & Hinv & Hv & -> & ->). destruct (G CIdle S0 Hm Hinv) as (cc & e & A' & Ec & Hm' & Hinv' & Hcase).
    rewrite (Heq cc e Ec). eexists _, _, (ao_state (finish now ok v A')), [(LOp (OStep now), ao_evs (finish now ok v A'))].
    split; [done|]. split; [exists A'; by split_and!|]. unfold sim.
    destruct Hcase as [[-> ->]|(t & -> & HA' & Hcase)]; [done|].
    cbn [history map concat hist1 is_step app]. rewrite arun_one. cbn [fst snd combine].
    rewrite isr_step, finish_keeps.
    destruct Hcase as [(-> & Hev & Hlt)|(-> & Hev & Hlt)]; rewrite Hev.
    + rewrite decide_False by done. done.
    + rewrite decide_True by done. destruct (finish_irq now ok v S0 (a_irq (queues S0) ++ [t])) as [E1 E2]. rewrite E1, E2. done.
Qed.

Lemma istep_sim s S pend il : iinv s S pend ->
  exists s' os S' pend', istep cf s il = Ok (s', os) /\ iinv s' S' pend' /\ sim S pend os S' pend'.
Proof.
  intros Hi. destruct il as [t| |l| |].
  - eapply (isr_ok s S pend (LPut t)); [done|eauto|]. intros c e E. cbn [istep]. by rewrite E.
  - eapply (isr_ok s S pend LP); [done|eauto|]. intros c e E. cbn [istep]. by rewrite E.
  - (* main *)
    assert (Hskip : forall s', s' = s -> exists s'' os S' pend', Ok (s', @nil iout) = Ok (s'', os) /\ iinv s'' S' pend' /\ sim S pend os S' pend').
    { intros s' ->. eexists _, _, S, pend. split; [done|]. split; [done|]. unfold sim. simpl. by rewrite app_nil_r. }
    destruct s as [m p c]. cbn [istep i_c i_m i_p]. destruct c; [|by apply Hskip|by apply Hskip].
    destruct (excluded l) eqn:Hex; [by apply Hskip|].
    unfold iinv in Hi. cbn [i_c i_m i_p] in Hi. destruct Hi as (Hm & Hinv & ->).
    destruct (is_step l) eqn:Hs.
    + destruct l as [o| |]; try discriminate. destruct o; try discriminate.
      eexists _, _, S, []. split; [done|]. split; [|done]. split; [done|]. split; [|done].
      destruct Hinv as (H1 & H2 & H3). by split_and!.
    + destruct (mstep_ok cf Hcf m S l Hm) as (m' & E & Hm').
      pose proof (main_irq m S l m' _ Hm Hex Hs E) as Hirq. pose proof (main_airq S l Hex Hs) as Hai.
      assert (Hmatch : forall A (f : Z -> A) (g : A), match l with LOp (OStep now) => f now | _ => g end = g).
      { intros A f g. destruct l as [o| |]; try done. destruct o; try done; discriminate Hs. }
      rewrite Hmatch, E. cbn [bind]. eexists _, _, (ao_state (astep cf BT S l)), []. split; [done|]. split.
      * unfold iinv. cbn [i_c i_m i_p]. split; [done|]. rewrite Hirq, Hai. done.
      * unfold sim. cbn [history map concat hist1 app]. rewrite Hs. cbn [app]. rewrite arun_one. cbn [fst snd combine results map concat result1 app].
        split; [done|]. split; [done|]. by rewrite app_nil_r.
  - (* an access of mu_spsc_get *)
    assert (Hskip : forall s', s' = s -> exists s'' os S' pend', Ok (s', @nil iout) = Ok (s'', os) /\ iinv s'' S' pend' /\ sim S pend os S' pend').
    { intros s' ->. eexists _, _, S, pend. split; [done|]. split; [done|]. unfold sim. simpl. by rewrite app_nil_r. }
    destruct s as [m p c]. cbn [istep i_c i_m i_p]. destruct c as [|now pc|]; [by apply Hskip| |by apply Hskip].
    unfold iinv in Hi. cbn [i_c i_m i_p] in Hi. destruct Hi as (Hm & Hinv & Hpc & ->).
    destruct (cstep_ok n _ _ LC Hinv) as (c' & e & l' & E & Hinv' & Hf). rewrite E. cbn [bind].
    assert (Hp' : c_p c' = p).
    { destruct pc; cbn [cstep c_c c_q c_p] in E; try (injection E as <- <-; done).
      - destruct (h =? _); injection E as <- <-; done.
      - destruct (ld _ _); cbn [bind] in E; try discriminate. injection E as <- <-. done. }
    assert (He : (exists ok v, e = [RespGet ok v] /\ c_c c' = CIdle /\ (ok = false -> v = NULL)) \/ (e = [] /\ c_c c' <> CIdle)).
    { destruct pc; cbn [cstep c_c c_q c_p] in E; try done; try (injection E as <- <-; right; done).
      - destruct (h =? _); injection E as <- <-; [left|by right]. exists false, NULL. done.
      - destruct (ld _ _); cbn [bind] in E; try discriminate. injection E as <- <-. by right.
      - injection E as <- <-. left. exists true, v. done. }
    destruct c' as [q' p' pc']. cbn [c_q c_p c_c] in *. subst p'.
    destruct He as [(ok & v & -> & -> & Hv)|[-> Hpc']].
    + simpl in Hf. eexists _, _, _, _. split; [done|]. split.
      * unfold iinv. cbn [i_c i_m i_p]. exists (set_airq S l'). rewrite irq_set_irq. split_and!.
        -- apply mrep_set; [done|]. by destruct Hinv'.
        -- done.
        -- done.
        -- reflexivity.
        -- reflexivity.
      * unfold sim. cbn [history map concat hist1 app]. rewrite arun_one, step_finish. cbn [fst snd combine].
        destruct (a_irq (queues S)) as [|x l] eqn:El; simpl in Hf; injection Hf as <- <- <-.
        -- rewrite <- El, set_airq_id. done.
        -- done.
    + eexists _, _, S, []. split; [done|]. simpl in Hf. injection Hf as <-. split; [|done].
      unfold iinv. cbn [i_c i_m i_p]. rewrite irq_set_irq. split; [|done].
      rewrite <- (set_airq_id S). apply mrep_set; [done|]. by destruct Hinv'.
  - (* the rest of the step *)
    assert (Hskip : forall s', s' = s -> exists s'' os S' pend', Ok (s', @nil iout) = Ok (s'', os) /\ iinv s'' S' pend' /\ sim S pend os S' pend').
    { intros s' ->. eexists _, _, S, pend. split; [done|]. split; [done|]. unfold sim. simpl. by rewrite app_nil_r. }
    destruct s as [m p c]. cbn [istep i_c i_m i_p]. destruct c as [| |now ok v]; [by apply Hskip|by apply Hskip|].
    unfold iinv in Hi. cbn [i_c i_m i_p] in Hi. destruct Hi as (S0 & Hm & Hinv & Hv & -> & ->).
    destruct (cont_ok now ok v m S0 Hm Hv) as (m' & -> & Hm' & Hirq). cbn [bind].
    eexists _, _, _, []. split; [done|]. split.
    + unfold iinv. cbn [i_c i_m i_p]. split; [exact Hm'|]. rewrite Hirq, finish_keeps. done.
    + done.
Qed.

Lemma history_app a b : history (a ++ b) = history a ++ history b.
Proof. unfold history. by rewrite map_app, concat_app. Qed.
Lemma results_app a b : results (a ++ b) = results a ++ results b.
Proof. unfold results. by rewrite map_app, concat_app. Qed.
Lemma combine_app' {A B} (l1 l2 : list A) (r1 r2 : list B) : length l1 = length r1 ->
  combine (l1 ++ l2) (r1 ++ r2) = combine l1 r1 ++ combine l2 r2.
Proof. revert r1. induction l1 as [|x l1 IH]; intros [|y r1] H; simpl in *; try done. f_equal. apply IH. lia. Qed.

Lemma sim_trans S pend os1 S1 p1 os2 S2 p2 : sim S pend os1 S1 p1 -> sim S1 p1 os2 S2 p2 -> sim S pend (os1 ++ os2) S2 p2.
Proof.
  intros (H1 & H2 & H3) (G1 & G2 & G3). unfold sim. rewrite history_app, results_app, arun_app. cbn [fst snd].
  rewrite H1. rewrite combine_app' by (by rewrite arun_length). split; [done|]. unfold on_isr, on_main in *.
  rewrite !filter_app. split; [by rewrite H2, G2|]. by rewrite app_assoc, H3, <- !app_assoc, G3.
Qed.
Lemma irun_sim : forall ils s S pend, iinv s S pend ->
  exists s' os S' pend', irun cf s ils = Ok (s', os) /\ iinv s' S' pend' /\ sim S pend os S' pend'.
Proof.
  induction ils as [|il ils IH]; intros s S pend Hi; cbn [irun].
  - eexists _, _, S, pend. split; [done|]. split; [done|]. unfold sim. simpl. by rewrite app_nil_r.
  - destruct (istep_sim s S pend il Hi) as (s1 & o1 & S1 & p1 & -> & Hi1 & Hs1). cbn [bind].
    destruct (IH s1 S1 p1 Hi1) as (s2 & o2 & S2 & p2 & -> & Hi2 & Hs2). cbn [bind].
    eexists _, _, S2, p2. split; [done|]. split; [done|]. by eapply sim_trans.
Qed.
Lemma istart_inv tm : iinv (istart cf tm) (astate0 tm) [].
Proof.
  unfold iinv, istart. cbn [i_c i_m i_p]. pose proof (machine0_ok cf Hcf tm) as Hm. split; [done|]. split; [|done].
  destruct Hm as ((_ & _ & _ & _ & (Hi & _)) & _). destruct Hi as [[Hr _]|(Hc & _)].
  - by split_and!.
  - exfalso. rewrite (irq_capacity_pow2 n k Hk HkM) in Hc.
    assert (2 ^ 1 <= 2 ^ k) by (apply Z.pow_le_mono_r; lia). lia.
Qed.
End proof.
