(** * The repository's unit tests of mu_log, mu_task, mu_jems and mu_sched, run on the
    models (see UnitTests.v). *)
From Verif Require Import CSem FifoSpec QueueModel SpscModel TaskModel SchedModel SchedSpec JsonSpec JemsModel LogModel.
Open Scope Z_scope.

Local Ltac run := intros p; destruct p; vm_compute; reflexivity.

(** ** test_mu_log.c.  Function 7 is tprint; "log at level l" enters it or not. *)
Definition tprint : Z := 7.
(** test_mu_log.c:41-183: for each threshold, which levels reach tprint (whose output
    carries the level it reads with mu_log_get_reporting_level), and mu_log_is_reporting *)
Definition logged (threshold level : Z) : list llabel :=
  [LCall (LInit 5 tprint); LCall (LSetThreshold threshold); LCall LGetThreshold;
   LCall (LLog level 100 []); LCall LGetLevel; LRet; LCall (LIsReporting level)].
Example test_mu_log_set_reporting_threshold : forall p,
  Forall (fun '(t, l) => exists s,
    lrun p lstate0 0 (logged t l) = Ok (s, O,
      [[LReturned]; [LReturned]; [LNum t];
       if t <=? l then [LEnter tprint 100 []] else [LReturned];
       [LNum (if t <=? l then l else 0)];
       if t <=? l then [LReturned] else [];
       [LBool (t <=? l)]]))
  (list_prod [0; 1; 2; 3; 4; 5] [0; 1; 2; 3; 4; 5]).
Proof. intros p; destruct p; repeat constructor; eexists; vm_compute; reflexivity. Qed.
(** test_mu_log.c:185-189 *)
Example test_mu_log_get_logging_function :
  mu_log_get_logging_function (mu_log_init 5 tprint lstate0) = tprint.
Proof. reflexivity. Qed.
(** test_mu_log.c:191-204; -1 converted to the enum type is UINT_MAX *)
Example test_mu_log_level_name : forall p,
  map (mu_log_level_name p) [0; 1; 2; 3; 4; 5; uint_max]
  = [Ok "TRACE"; Ok "DEBUG"; Ok "INFO"; Ok "WARN"; Ok "ERROR"; Ok "FATAL"; Ok "UNKNOWN"]%string.
Proof. run. Qed.

(** ** test_mu_task.c.  The task is at address 50; its function is 60; hooks 61, 62, 63. *)
Definition w0 : world unit := MkW (fun _ => MkTask 0 0 0) 0 0 0 tt.
(** run a program whose user functions do nothing, collecting the calls *)
Fixpoint trace {S A} (m : prog S A) : list ucall * option (A * world S) :=
  match m with
  | PRet a w => ([], Some (a, w))
  | PCall c w k => let '(l, r) := trace (k w) in (c :: l, r)
  | _ => ([], None)
  end.
(** test_mu_task.c:24-34 *)
Example test_task_init :
  let '(t, w) := mu_task_init 50 60 22 70 w0 in
  (t, mu_task_get_fn 50 w, mu_task_get_state 50 w, mu_task_get_user_info 50 w) = (50, 60, 22, 70).
Proof. reflexivity. Qed.
(** test_mu_task.c:36-60 *)
Example test_task_call :
  let w := snd (mu_task_init 50 60 22 0 w0) in
  (fst (trace (mu_task_call 50 w)), fst (trace (mu_task_call 0 w)),
   fst (trace (mu_task_call 50 (mu_task_install_call_hook 61 w))))
  = ([UTask 60 50], [], [UCallHook 61 50; UTask 60 50]).
Proof. reflexivity. Qed.
(** test_mu_task.c:62-69 and 99-107 *)
Example user_info_can_be_updated :
  let w := snd (mu_task_init 50 60 22 0 w0) in
  (mu_task_get_user_info 50 w, mu_task_get_user_info 50 (mu_task_set_user_info 50 70 w)) = (0, 70).
Proof. reflexivity. Qed.
(** test_mu_task.c:71-97 *)
Example test_task_set_state :
  let w := snd (mu_task_init 50 60 22 0 (mu_task_install_set_state_hook 62 w0)) in
  let '(l1, r1) := trace (mu_task_set_state 50 33 w) in
  (mu_task_get_state 50 w, l1,
   match r1 with
   | Some (_, w) =>
     let s1 := mu_task_get_state 50 w in
     let w := mu_task_install_set_state_hook 0 w in
     let '(l2, r2) := trace (mu_task_set_state 50 44 w) in
     let '(_, r3) := trace (mu_task_set_state 50 11 w) in
     let '(_, r4) := trace (mu_task_set_state 0 11 w) in
     Some (s1, l2, option_map fst r3, option_map fst r4)
   | None => None
   end)
  = (22, [UStateHook 62 50 33], Some (33, [], Some 50, Some 0)).
Proof. reflexivity. Qed.
(** test_mu_task.c:109-124 *)
Example test_transfer_hook :
  let w := snd (mu_task_init 50 60 0 0 w0) in
  (fst (trace (mu_task_call_transfer_hook 50 (mu_task_install_transfer_hook 0 w))),
   fst (trace (mu_task_call_transfer_hook 50 (mu_task_install_transfer_hook 63 w))))
  = ([], [UTransferHook 63 50]).
Proof. reflexivity. Qed.

(** ** test_mu_jems.c.  MAX_LEVEL is 10, the level structs are uninitialised. *)
Definition j0 (p : plat) : res jems :=
  mu_jems_init (replicate 10 (MkLevel None None)) 10 33 0 (MkJ [] 0 0 0 0 []).
(** the text sent, and curr_level and item_count after each call *)
Definition text (j : jems) : list Z := map (fun '(_, c, _) => c) (sent j).
Fixpoint steps (p : plat) (j : jems) (cs : list call) : res (list (Z * Z) * jems) :=
  match cs with
  | [] => Ok ([], j)
  | c :: cs => let* j := exec p j c in
               let* n := mu_jems_item_count j in
               let* '(l, j') := steps p j cs in Ok ((mu_jems_curr_level j, n) :: l, j')
  end.
Definition jtest (p : plat) (cs : list call) : res (list (Z * Z) * list Z) :=
  let* j := j0 p in let* '(l, j) := steps p j cs in Ok (l, text j).
Definition quoted (s : String.string) : list Z := [34] ++ str s ++ [34].
Arguments quoted s%string_scope.
Definition key : list Z := cstr "key".
(** 1.5 = 3 * 2^-1; 1.234 = 0x1.3be76c8b43958p+0 = 5557441940175192 * 2^-52; 2.0 *)
Definition d1_5 : spec_float := S754_finite false 6755399441055744 (-52).
Definition d1_234 : spec_float := S754_finite false 5557441940175192 (-52).
Definition d2_0 : spec_float := S754_finite false 4503599627370496 (-51).
Definition PI_100 : list Z := str
  "3.1415926535897932384626433832795028841971693993751058209749445923078164062862089986280348253421170679".

(** test_mu_jems.c:51-163 *)
Example test_mu_jems_values : forall p,
  jtest p [CReset] = Ok ([(0, 0)], []) /\
  jtest p [CVal CObjectOpen; CObjectClose] = Ok ([(1, 0); (0, 1)], str "{}") /\
  jtest p [CVal CArrayOpen; CArrayClose] = Ok ([(1, 0); (0, 1)], str "[]") /\
  jtest p [CVal (CNumber d1_5)] = Ok ([(0, 1)], str "1.500000") /\
  jtest p [CVal (CNumber d2_0)] = Ok ([(0, 1)], str "2") /\
  jtest p [CVal (CInteger (-2))] = Ok ([(0, 1)], str "-2") /\
  jtest p [CVal (CString (cstr "woof"))] = Ok ([(0, 1)], quoted "woof") /\
  jtest p [CVal (CBool true)] = Ok ([(0, 1)], str "true") /\
  jtest p [CVal (CBool false)] = Ok ([(0, 1)], str "false") /\
  jtest p [CVal CTrue] = Ok ([(0, 1)], str "true") /\
  jtest p [CVal CFalse] = Ok ([(0, 1)], str "false") /\
  jtest p [CVal CNull] = Ok ([(0, 1)], str "null").
Proof. intros p; destruct p; vm_compute; repeat split. Qed.
(** test_mu_jems.c:165-170 *)
Example test_mu_jems_literal : forall p,
  jtest p [CVal (CLiteral PI_100 (Z.of_nat (List.length PI_100)))] = Ok ([(0, 1)], PI_100).
Proof. run. Qed.
(** test_mu_jems.c:172-202; 34 is a double quote, 92 a backslash, 10 and 13 newline and return *)
Example test_mu_jems_strings : forall p,
  jtest p [CVal (CString (str "say " ++ [34] ++ str "hey" ++ [34] ++ cstr "!"))]
    = Ok ([(0, 1)], [34] ++ str "say " ++ [92; 34] ++ str "hey" ++ [92; 34] ++ str "!" ++ [34]) /\
  jtest p [CVal (CString (str "forward / and back " ++ [92] ++ cstr " slash"))]
    = Ok ([(0, 1)], [34] ++ str "forward / and back " ++ [92; 92] ++ str " slash" ++ [34]) /\
  jtest p [CVal (CString (str "newline " ++ [10] ++ str " and return " ++ [13] ++ cstr " oh my"))]
    = Ok ([(0, 1)], [34] ++ str "newline \u000a and return \u000d oh my" ++ [34]) /\
  jtest p [CVal (CString [1; 32; 126; 127; 128; 0])]
    = Ok ([(0, 1)], [34] ++ str "\u0001 ~\u007f\u0080" ++ [34]).
Proof. intros p; destruct p; vm_compute; repeat split. Qed.
(** test_mu_jems.c:204-309 *)
Definition jtext p cs := let* '(_, t) := jtest p cs in Ok t.
Example test_mu_jems_keys : forall p,
  Forall (fun '(cs, t) => jtext p ([CVal CObjectOpen] ++ cs ++ [CObjectClose])
                          = Ok (str "{" ++ quoted "key" ++ str ":" ++ t ++ str "}"))
  [([CKey key CObjectOpen; CObjectClose], str "{}");
   ([CKey key CArrayOpen; CArrayClose], str "[]");
   ([CKey key (CNumber d1_234)], str "1.234000");
   ([CKey key (CInteger 1234)], str "1234");
   ([CKey key (CString (cstr "value"))], quoted "value");
   ([CKey key (CBytes (cstr "value") 5)], quoted "value");
   ([CKey key (CBool true)], str "true"); ([CKey key CTrue], str "true");
   ([CKey key CFalse], str "false"); ([CKey key CNull], str "null");
   ([CKey key (CLiteral PI_100 (Z.of_nat (List.length PI_100)))], PI_100)].
Proof. intros p; destruct p; repeat constructor; vm_compute; reflexivity. Qed.
(** test_mu_jems.c:311-347 *)
Example test_mu_jems_composite : forall p,
  jtest p [CVal CObjectOpen; CVal (CString (cstr "colors")); CVal CArrayOpen; CVal (CInteger 1);
           CVal (CInteger 2); CVal (CInteger 3); CArrayClose; CVal (CString (cstr "valid")); CVal CTrue;
           CObjectClose]
  = Ok ([(1, 0); (1, 1); (2, 0); (2, 1); (2, 2); (2, 3); (1, 2); (1, 3); (1, 4); (0, 1)],
        str "{" ++ quoted "colors" ++ str ":[1,2,3]," ++ quoted "valid" ++ str ":true}").
Proof. run. Qed.

(** ** test_mu_sched.c, with the default sizes of test/mu_platform.h:75-85 and the time
    functions of test_mu_sched.c:397-408 (uint32_t, signed 32-bit difference) *)
Definition test_cf (p : plat) : config :=
  MkConfig p 20 8 20 (fun a b => wrap_signed 4294967296 (a - b) <? 0) (fun t dt => (t + dt) mod 4294967296).
(** this configuration is among those the theorems quantify over *)
Example test_cf_ok : forall p, config_ok (test_cf p).
Proof. intros p; destruct p; unfold config_ok, valid_cap, int_max; vm_compute; intuition congruence. Qed.
(** tasks: 1, 2, 3 and 9 = s_idle_task, 5 = s_basic_task; their functions are 101, ... *)
Definition test_tm : Z -> task := fun t => MkTask (100 + t) 0 0.
(** setUp; then the test *)
Definition stest (p : plat) (ls : list label) : res (list (list event)) :=
  let* '(_, es) := mrun (test_cf p) (machine0 (test_cf p) test_tm) (LOp OInit :: LOp (OSetIdle 9) :: ls) in
  Ok (skipn 2 es).
(** one step that runs [t], whose function returns at once *)
Definition step_at (now : Z) : list label := [LOp (OStep now); LReturn].
Definition ran (t : Z) : list (list event) := [[ECall (UTask (100 + t) t)]; [ERet RUnit]].
Definition ok : list event := [ERet (RErr SCHED_NONE)].
Definition full : list event := [ERet (RErr SCHED_FULL)].

(** idle_task_runs_if_sched_is_empty, idle_task_is_accessible *)
Example test_sched_idle : forall p,
  stest p (step_at 0 ++ [LOp OGetIdle]) = Ok (ran 9 ++ [[ERet (RTask 9)]]).
Proof. run. Qed.
(** priorities_favor_isr_over_deferred_over_immed *)
Example test_sched_priorities : forall p,
  stest p ([LOp (OImmed 1); LOp (OIsr 2); LOp (ODeferFor 3 0 0)] ++ step_at 0 ++ step_at 0 ++ step_at 0 ++ step_at 0)
  = Ok ([ok; ok; ok] ++ ran 2 ++ ran 3 ++ ran 1 ++ ran 9).
Proof. run. Qed.
(** reset_empties_all_queues *)
Example test_sched_reset : forall p,
  stest p ([LOp (OImmed 1); LOp (OIsr 2); LOp (ODeferFor 3 0 0); LOp OReset] ++ step_at 0)
  = Ok ([ok; ok; ok; [ERet RUnit]] ++ ran 9).
Proof. run. Qed.
(** fill_to_overflowing_from_isr, _immed, _deferred *)
Example test_sched_overflow : forall p,
  stest p (replicate 8 (LOp (OIsr 1))) = Ok (replicate 7 ok ++ [full]) /\
  stest p (replicate 21 (LOp (OImmed 1))) = Ok (replicate 20 ok ++ [full]) /\
  stest p (replicate 21 (LOp (ODeferFor 1 0 1))) = Ok (replicate 20 ok ++ [full]).
Proof. intros p; destruct p; vm_compute; repeat split. Qed.
(** immediate_task_runs_first_then_idle_task, mu_sched_immediate_preserves_order,
    mu_sched_from_isr_preserves_order, isr_tasks_run_before_regular_tasks *)
Example test_sched_order : forall p,
  stest p ([LOp (OImmed 1)] ++ step_at 0 ++ step_at 0) = Ok ([ok] ++ ran 1 ++ ran 9) /\
  stest p ([LOp (OImmed 1); LOp (OImmed 2)] ++ step_at 0 ++ step_at 0 ++ step_at 0)
    = Ok ([ok; ok] ++ ran 1 ++ ran 2 ++ ran 9) /\
  stest p ([LOp (OIsr 1); LOp (OIsr 2)] ++ step_at 0 ++ step_at 0 ++ step_at 0)
    = Ok ([ok; ok] ++ ran 1 ++ ran 2 ++ ran 9) /\
  stest p ([LOp (OImmed 1); LOp (OIsr 2)] ++ step_at 0 ++ step_at 0 ++ step_at 0)
    = Ok ([ok; ok] ++ ran 2 ++ ran 1 ++ ran 9).
Proof. intros p; destruct p; vm_compute; repeat split. Qed.
(** mu_sched_wait_returns_no_error, mu_sched_transfer_calls_transfer_hook *)
Example test_sched_wait_transfer : forall p,
  stest p [LOp (OWait 1); LOp (OHooks 0 0 63); LOp (OTransfer 1); LReturn]
  = Ok [ok; [ERet RUnit]; [ECall (UTransferHook 63 1)]; ok].
Proof. run. Qed.
(** deferred_tasks_with_same_time_maintain_strict_ordering_a, _b,
    defer_until_tasks_run_when_their_times_arrive, defer_for_tasks_run_when_their_times_arrive *)
Example test_sched_deferred : forall p,
  stest p ([LOp (ODefer 1 10); LOp (ODefer 2 10)] ++ step_at 10 ++ step_at 10) = Ok ([ok; ok] ++ ran 1 ++ ran 2) /\
  stest p ([LOp (ODefer 2 10); LOp (ODefer 1 10)] ++ step_at 10 ++ step_at 10) = Ok ([ok; ok] ++ ran 2 ++ ran 1) /\
  stest p ([LOp (ODefer 2 12); LOp (ODefer 1 10)] ++ step_at 8 ++ step_at 10 ++ step_at 12)
    = Ok ([ok; ok] ++ ran 9 ++ ran 1 ++ ran 2) /\
  stest p ([LOp (ODeferFor 1 8 2); LOp (ODeferFor 2 8 4)] ++ step_at 8 ++ step_at 10 ++ step_at 12)
    = Ok ([ok; ok] ++ ran 9 ++ ran 1 ++ ran 2).
Proof. intros p; destruct p; vm_compute; repeat split. Qed.
(** deferred_tasks_can_be_removed *)
Example test_sched_remove : forall p,
  stest p ([LOp (ODefer 1 10); LOp (ODefer 2 12); LOp (ORemove 2); LOp (ORemove 2)] ++ step_at 8 ++ step_at 10 ++ step_at 12)
  = Ok ([ok; ok; ok; [ERet (RErr SCHED_NOT_FOUND)]] ++ ran 9 ++ ran 1 ++ ran 9).
Proof. run. Qed.
(** current_task_is_bound_inside_mu_sched_step, next_deferred_task_is_accessible *)
Example test_sched_current_next : forall p,
  stest p [LOp (OImmed 5); LOp (OStep 0); LOp OCurrent; LReturn; LOp OCurrent;
           LOp ONext; LOp (ODeferFor 1 0 1); LOp ONext]
  = Ok [ok; [ECall (UTask 105 5)]; [ERet (RTask 5)]; [ERet RUnit]; [ERet (RTask 0)];
        [ERet (RTask 0)]; ok; [ERet (RTask 1)]].
Proof. run. Qed.
