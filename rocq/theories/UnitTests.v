(** * The repository's own unit tests, run on the models.

    These are tests, not proofs: they check the transcription.  Each [Example] is one
    test function of /repo/test/test_mu_*/test_mu_*.c, evaluated by the kernel for a
    32-bit and a 64-bit [size_t]: the left-hand side makes the calls of the test in
    order and collects what the test asserts, the right-hand side is what the test
    expects.  The tests whose run is undefined behaviour in the model say so. *)
From Verif Require Import CSem FifoSpec ArrayModel QueueModel MqueueModel SpscModel BisyncModel BbufModel BvecModel.

Local Ltac run := intros p; destruct p; vm_compute; reflexivity.

(** ** test_mu_array.c; objects a, b, c, d are 97..100 *)

(** test_mu_array.c:31-37 *)
Example test_mu_array_init :
  let a := mu_array_init [7; 8; 9] 3 in
  (mu_array_capacity a, mu_array_count a, mu_array_is_empty a, mu_array_is_full a) = (3, 0, true, false).
Proof. reflexivity. Qed.

Definition astat (a : marray) := (mu_array_is_empty a, mu_array_is_full a, mu_array_count a).

(** test_mu_array.c:39-69 *)
Example test_mu_array_push : forall p,
  (let a := mu_array_init [7; 8; 9] 3 in
   let* '(r1, a1) := mu_array_push p a 97 in
   let* '(r2, a2) := mu_array_push p a1 98 in
   let* '(r3, a3) := mu_array_push p a2 99 in
   let* '(r4, a4) := mu_array_push p a3 100 in
   Ok [(r1, astat a1); (r2, astat a2); (r3, astat a3); (r4, astat a4)])
  = Ok [(true, (false, false, 1)); (true, (false, false, 2)); (true, (false, true, 3));
        (false, (false, true, 3))].
Proof. run. Qed.

Fixpoint apush (p : plat) (a : marray) (xs : list Z) : res marray :=
  match xs with
  | [] => Ok a
  | x :: xs => let* '(_, a) := mu_array_push p a x in apush p a xs
  end.

(** test_mu_array.c:71-104 *)
Example test_mu_array_pop : forall p,
  (let* a := apush p (mu_array_init [7; 8; 9] 3) [97; 98; 99] in
   let* '(r1, v1, a1) := mu_array_pop p a in
   let* '(r2, v2, a2) := mu_array_pop p a1 in
   let* '(r3, v3, a3) := mu_array_pop p a2 in
   let* '(r4, v4, a4) := mu_array_pop p a3 in
   Ok (astat a, [(r1, v1, astat a1); (r2, v2, astat a2); (r3, v3, astat a3)], r4))
  = Ok ((false, true, 3), [(true, Some 99, (false, false, 2)); (true, Some 98, (false, false, 1));
        (true, Some 97, (true, false, 0))], false).
Proof. run. Qed.

(** test_mu_array.c:106-136 *)
Example test_mu_array_peek : forall p,
  (let* a := apush p (mu_array_init [7; 8; 9] 3) [97; 98; 99] in
   let* k1 := mu_array_peek p a in let* '(r1, v1, a) := mu_array_pop p a in
   let* k2 := mu_array_peek p a in let* '(r2, v2, a) := mu_array_pop p a in
   let* k3 := mu_array_peek p a in let* '(r3, v3, a) := mu_array_pop p a in
   let* '(r4, _) := mu_array_peek p a in
   Ok ([k1; (r1, v1); k2; (r2, v2); k3; (r3, v3)], r4))
  = Ok ([(true, Some 99); (true, Some 99); (true, Some 98); (true, Some 98);
         (true, Some 97); (true, Some 97)], false).
Proof. run. Qed.

(** test_mu_array.c:138-158 *)
Example test_mu_array_ref : forall p,
  (let* a := apush p (mu_array_init [7; 8; 9] 3) [97; 98] in
   let* k0 := mu_array_ref a 0 in let* k1 := mu_array_ref a 1 in
   let* '(r2, _) := mu_array_ref a 2 in let* '(r3, _) := mu_array_ref a 3 in
   Ok (k0, k1, r2, r3))
  = Ok ((true, Some 97), (true, Some 98), false, false).
Proof. run. Qed.

Definition ains (p : plat) (pre : list Z) (x i : Z) : res (bool * list Z * Z) :=
  let* a := apush p (mu_array_init [0; 0; 0] 3) pre in
  let* '(r, a) := mu_array_insert p a x i in Ok (r, a_store a, mu_array_count a).

(** test_mu_array.c:160-224 *)
Example test_mu_array_insert : forall p,
  (let* r1 := ains p [] 97 0 in
   let* r2 := ains p [97] 98 0 in
   let* r3 := ains p [97; 98] 99 2 in
   let* r4 := ains p [97; 98; 99] 100 3 in
   let* r5 := ains p [97; 98; 99] 100 0 in
   let* r6 := ains p [] 100 1 in Ok [r1; r2; r3; r4; r5; r6])
  = Ok [(true, [97; 0; 0], 1); (true, [98; 97; 0], 2); (true, [97; 98; 99], 3);
        (false, [97; 98; 99], 3); (false, [97; 98; 99], 3); (false, [0; 0; 0], 0)].
Proof. run. Qed.

Definition adel (p : plat) (size : nat) (pre : list Z) (i : Z) : res (bool * option Z * list Z) :=
  let* a := apush p (mu_array_init (replicate size 0) 3) pre in
  let* '(r, v, a) := mu_array_delete p a i in Ok (r, v, take 2 (a_store a)).

(** test_mu_array.c:226-285, the cases "tail", "beyond capacity", "beyond tail", "empty" *)
Example test_mu_array_delete : forall p,
  (let* r3 := adel p 3 [97; 98; 99] 2 in
   let* r4 := adel p 3 [97; 98; 99] 3 in
   let* r5 := adel p 3 [97; 98] 2 in
   let* r6 := adel p 3 [] 0 in Ok [r3; r4; r5; r6])
  = Ok [(true, Some 99, [97; 98]); (false, None, [97; 98]); (false, None, [97; 98]); (false, None, [0; 0])].
Proof. run. Qed.

(** test_mu_array.c:234-252, the cases "head" and "middle": with the three-slot storage
    of the test, mu_array_delete reads one slot past it ... *)
Example test_mu_array_delete_head_ub : forall p, adel p 3 [97; 98; 99] 0 = UB.
Proof. run. Qed.
Example test_mu_array_delete_middle_ub : forall p, adel p 3 [97; 98; 99] 1 = UB.
Proof. run. Qed.
(** ... and with one slot more behind it, what the test asserts holds (it does not
    look at the count) *)
Example test_mu_array_delete_spare : forall p,
  (let* r1 := adel p 4 [97; 98; 99] 0 in let* r2 := adel p 4 [97; 98; 99] 1 in Ok [r1; r2])
  = Ok [(true, Some 97, [98; 99]); (true, Some 98, [97; 99])].
Proof. run. Qed.

(** test_mu_array.c:287-308 and 310-331; TEST_ASSERT_EQUAL_INT compares as int, so
    MU_ARRAY_NOT_FOUND is compared with itself *)
Example test_mu_array_index : forall p,
  (let* a := apush p (mu_array_init [0; 0; 0; 0; 0] 5) [97; 98; 99; 98; 97] in
   let* i1 := mu_array_index p a 97 in let* i2 := mu_array_index p a 98 in
   let* i3 := mu_array_index p a 99 in let* i4 := mu_array_index p a 100 in
   let* j1 := mu_array_rindex p a 97 in let* j2 := mu_array_rindex p a 98 in
   let* j3 := mu_array_rindex p a 99 in let* j4 := mu_array_rindex p a 100 in
   Ok ([i1; i2; i3; i4], [j1; j2; j3; j4]))
  = Ok ([0; 1; 2; MU_ARRAY_NOT_FOUND p], [4; 3; 2; MU_ARRAY_NOT_FOUND p]).
Proof. run. Qed.

(** test_mu_array.c:22-29 int_compare, on the pointed-to ints *)
Definition int_compare (x y : Z) : Z := if x <? y then -1 else if y <? x then 1 else 0.

(** test_mu_array.c:333-361 *)
Example test_mu_array_sort : forall p,
  (let* a := mu_array_sort p int_compare (mu_array_init [0; 0; 0] 3) in
   let* b := apush p (mu_array_reset a) [3; 1; 2] in
   let* b := mu_array_sort p int_compare b in
   let* c := apush p (mu_array_reset b) [1; 2; 3] in
   let* c := mu_array_sort p int_compare c in
   Ok (mu_array_count a, a_store b, a_store c))
  = Ok (0, [1; 2; 3], [1; 2; 3]).
Proof. run. Qed.

(** test_mu_array.c:363-401 *)
Example test_mu_array_insert_sorted : forall p,
  (let* '(r1, a1) := mu_array_insert_sorted p int_compare (mu_array_init [0; 0; 0] 3) 2 in
   let* '(r2, a2) := mu_array_insert_sorted p int_compare a1 3 in
   let* '(r3, a3) := mu_array_insert_sorted p int_compare a2 1 in
   let* '(r4, a4) := mu_array_insert_sorted p int_compare a3 4 in
   let* b := apush p (mu_array_init [0; 0; 0] 3) [1; 3] in
   let* '(r5, b) := mu_array_insert_sorted p int_compare b 2 in
   Ok ([(r1, a_store a1, mu_array_count a1); (r2, a_store a2, mu_array_count a2);
        (r3, a_store a3, mu_array_count a3); (r5, a_store b, mu_array_count b)], r4))
  = Ok ([(true, [2; 0; 0], 1); (true, [2; 3; 0], 2); (true, [1; 2; 3], 3); (true, [1; 2; 3], 3)], false).
Proof. run. Qed.

(** ** test_mu_queue.c *)
Definition qstat (q : mqueue) := (mu_queue_is_empty q, mu_queue_is_full q, mu_queue_count q).
Fixpoint qput (p : plat) (q : mqueue) (xs : list Z) : res (list (bool * (bool * bool * Z)) * mqueue) :=
  match xs with
  | [] => Ok ([], q)
  | x :: xs => let* '(r, q) := mu_queue_put p q x in
               let* '(l, q') := qput p q xs in Ok ((r, qstat q) :: l, q')
  end.

(** test_mu_queue.c:17-23 *)
Example test_queue_init :
  let q := mu_queue_init [7; 8; 9] 3 in (mu_queue_capacity q, qstat q) = (3, (true, false, 0)).
Proof. reflexivity. Qed.
(** test_mu_queue.c:25-55 *)
Example test_queue_put : forall p,
  (let* '(l, _) := qput p (mu_queue_init [7; 8; 9] 3) [97; 98; 99; 100] in Ok l)
  = Ok [(true, (false, false, 1)); (true, (false, false, 2)); (true, (false, true, 3)); (false, (false, true, 3))].
Proof. run. Qed.

(** test_mu_queue.c:57-90 *)
Example test_queue_get : forall p,
  (let* '(_, q) := qput p (mu_queue_init [7; 8; 9] 3) [97; 98; 99] in
   let* '(r1, v1, q1) := mu_queue_get p q in
   let* '(r2, v2, q2) := mu_queue_get p q1 in
   let* '(r3, v3, q3) := mu_queue_get p q2 in
   let* '(r4, v4, q4) := mu_queue_get p q3 in
   Ok ([(r1, v1, qstat q1); (r2, v2, qstat q2); (r3, v3, qstat q3)], r4))
  = Ok ([(true, 97, (false, false, 2)); (true, 98, (false, false, 1)); (true, 99, (true, false, 0))], false).
Proof. run. Qed.

(** test_mu_queue.c:92-118 *)
Example test_queue_peek : forall p,
  (let* '(_, q) := qput p (mu_queue_init [7; 8; 9] 3) [97; 98; 99] in
   let* '(r1, v1, q) := mu_queue_peek p q in let* '(_, _, q) := mu_queue_get p q in
   let* '(r2, v2, q) := mu_queue_peek p q in let* '(_, _, q) := mu_queue_get p q in
   let* '(r3, v3, q) := mu_queue_peek p q in let* '(_, _, q) := mu_queue_get p q in
   let* '(r4, v4, q) := mu_queue_peek p q in
   Ok ([(r1, v1); (r2, v2); (r3, v3)], r4))
  = Ok ([(true, 97); (true, 98); (true, 99)], false).
Proof. run. Qed.

(** test_mu_queue.c:120-153 *)
Example test_queue_wraparaound : forall p,
  (let q := mu_queue_init [7; 8; 9] 3 in
   let* '(r1, q1) := mu_queue_put p q 97 in let* '(s1, v1, q2) := mu_queue_get p q1 in
   let* '(r2, q3) := mu_queue_put p q2 98 in let* '(s2, v2, q4) := mu_queue_get p q3 in
   let* '(r3, q5) := mu_queue_put p q4 99 in let* '(s3, v3, q6) := mu_queue_get p q5 in
   let* '(r4, q7) := mu_queue_put p q6 100 in
   Ok (map q_index [q; q1; q2; q3; q4; q5; q6; q7], [r1; r2; r3; r4; s1; s2; s3], [v1; v2; v3]))
  = Ok ([0; 1; 1; 2; 2; 0; 0; 1], [true; true; true; true; true; true; true], [97; 98; 99]).
Proof. run. Qed.

(** test_mu_queue.c:156-177 *)
Example test_queue_reset : forall p,
  (let* '(_, q) := qput p (mu_queue_init [7; 8; 9] 3) [97; 98; 99] in
   Ok (qstat q, qstat (mu_queue_reset q)))
  = Ok ((false, true, 3), (true, false, 0)).
Proof. run. Qed.

(** ** test_mu_mqueue.c; mu_task_call is faked there: it records its argument *)
Definition fake_call (t : Z) (m : mmq) (w : list Z) : res (mmq * list Z) := Ok (m, w ++ [t]).
Definition mput p m w x := mu_mqueue_put p fake_call (fun w => w) m w x.
Definition mget p m w := mu_mqueue_get p fake_call (fun _ w => w) m w.
Definition mpeek p m w := mu_mqueue_peek p fake_call (fun _ w => w) m w.
Definition mstat (m : mmq) := (mu_mqueue_count m, mu_mqueue_is_empty m, mu_mqueue_is_full m).

(** test_mu_mqueue.c:19-29 *)
Example test_mqueue_init :
  let m := mu_mqueue_init [7; 8; 9] 3 0 0 in (mu_mqueue_capacity m, mstat m) = (3, (0, true, false)).
Proof. reflexivity. Qed.

(** test_mu_mqueue.c:31-60 *)
Example test_mqueue_count : forall p,
  (let m0 := mu_mqueue_init [7; 8; 9] 3 0 0 in
   let* '(r1, m1, w) := mput p m0 [] 97 in
   let* '(r2, m2, w) := mput p m1 w 98 in
   let* '(r3, m3, w) := mput p m2 w 99 in
   let* '(r4, m4, w) := mput p m3 w 100 in
   Ok (mstat m0, [(r1, mstat m1); (r2, mstat m2); (r3, mstat m3); (r4, mstat m4)]))
  = Ok ((0, true, false), [(true, (1, false, false)); (true, (2, false, false)); (true, (3, false, true));
                           (false, (3, false, true))]).
Proof. run. Qed.

(** test_mu_mqueue.c:62-107 *)
Example test_mqueue_ordering : forall p,
  (let m := mu_mqueue_init [7; 8; 9] 3 0 0 in
   let* '(r1, m, w) := mput p m [] 97 in let* '(r2, m, w) := mput p m w 98 in
   let* '(r3, m, w) := mput p m w 99 in let* '(r4, m, w) := mput p m w 100 in
   let c4 := mu_mqueue_count m in
   let* '(s1, v1, m, w) := mget p m w in let d1 := mu_mqueue_count m in
   let* '(s2, v2, m, w) := mget p m w in let d2 := mu_mqueue_count m in
   let* '(r5, m, w) := mput p m w 101 in let c5 := mu_mqueue_count m in
   let* '(r6, m, w) := mput p m w 102 in let c6 := mu_mqueue_count m in
   let* '(s3, v3, m, w) := mget p m w in let d3 := mu_mqueue_count m in
   let* '(s4, v4, m, w) := mget p m w in let d4 := mu_mqueue_count m in
   let* '(s5, v5, m, w) := mget p m w in let d5 := mu_mqueue_count m in
   let* '(s6, v6, m, w) := mget p m w in let d6 := mu_mqueue_count m in
   Ok ([r1; r2; r3; r4], c4, [(s1, v1, d1); (s2, v2, d2)], [(r5, c5); (r6, c6)],
       [(s3, v3, d3); (s4, v4, d4); (s5, v5, d5); (s6, v6, d6)]))
  = Ok ([true; true; true; false], 3, [(true, 97, 2); (true, 98, 1)], [(true, 2); (true, 3)],
        [(true, 99, 2); (true, 101, 1); (true, 102, 0); (false, NULL, 0)]).
Proof. run. Qed.

(** test_mu_mqueue.c:109-124 *)
Example test_mqueue_peek : forall p,
  (let m := mu_mqueue_init [7; 8; 9] 3 0 0 in
   let* '(s1, v1, m, w) := mpeek p m [] in let c1 := mu_mqueue_count m in
   let* '(r, m, w) := mput p m w 97 in
   let* '(s2, v2, m, w) := mpeek p m w in
   Ok ((s1, v1, c1), r, (s2, v2, mu_mqueue_count m)))
  = Ok ((false, NULL, 0), true, (true, 97, 1)).
Proof. run. Qed.

(** test_mu_mqueue.c:126-155; on_put is task 55 *)
Example test_mqueue_on_put : forall p,
  (let m := mu_mqueue_init [7; 8; 9] 3 55 0 in
   let* '(r1, m, w1) := mput p m [] 97 in let* '(r2, m, w2) := mput p m w1 98 in
   let* '(r3, m, w3) := mput p m w2 99 in let* '(r4, m, w4) := mput p m w3 100 in
   Ok [(r1, w1); (r2, w2); (r3, w3); (r4, w4)])
  = Ok [(true, [55]); (true, [55; 55]); (true, [55; 55; 55]); (false, [55; 55; 55])].
Proof. run. Qed.

(** test_mu_mqueue.c:157-189; on_get is task 66 *)
Example test_mqueue_on_get : forall p,
  (let m := mu_mqueue_init [7; 8; 9] 3 0 66 in
   let* '(r1, m, w) := mput p m [] 97 in let* '(r2, m, w) := mput p m w 98 in
   let* '(r3, m, w0) := mput p m w 99 in
   let* '(s1, _, m, w1) := mget p m w0 in let* '(s2, _, m, w2) := mget p m w1 in
   let* '(s3, _, m, w3) := mget p m w2 in let* '(s4, _, m, w4) := mget p m w3 in
   Ok (w0, [(s1, w1); (s2, w2); (s3, w3); (s4, w4)]))
  = Ok ([], [(true, [66]); (true, [66; 66]); (true, [66; 66; 66]); (false, [66; 66; 66])]).
Proof. run. Qed.

(** ** test_mu_spsc.c *)
Definition junk_spsc : spsc := MkS [] 12 34 56.

(** test_mu_spsc.c:15-24 *)
Example test_spsc_init :
  let '(r, q) := mu_spsc_init junk_spsc [7; 8; 9; 10] 4 in
  (r, mu_spsc_capacity q, fst (mu_spsc_init q [7; 8; 9; 10] 5)) = (SPSC_NONE, 3, SPSC_SIZE).
Proof. reflexivity. Qed.

(** test_mu_spsc.c:26-39 *)
Example test_spsc_put :
  (let q := snd (mu_spsc_init junk_spsc [7; 8; 9; 10] 4) in
   let* '(r1, q) := mu_spsc_put q 97 in let* '(r2, q) := mu_spsc_put q 98 in
   let* '(r3, q) := mu_spsc_put q 99 in let* '(r4, q) := mu_spsc_put q 100 in Ok [r1; r2; r3; r4])
  = Ok [SPSC_NONE; SPSC_NONE; SPSC_NONE; SPSC_FULL].
Proof. reflexivity. Qed.

(** test_mu_spsc.c:41-62 *)
Example test_spsc_get :
  (let q := snd (mu_spsc_init junk_spsc [7; 8; 9; 10] 4) in
   let* '(r1, q) := mu_spsc_put q 97 in let* '(r2, q) := mu_spsc_put q 98 in
   let* '(r3, q) := mu_spsc_put q 99 in
   let* '(s1, v1, q) := mu_spsc_get q in let* '(s2, v2, q) := mu_spsc_get q in
   let* '(s3, v3, q) := mu_spsc_get q in let* '(s4, v4, q) := mu_spsc_get q in
   Ok ([r1; r2; r3], [(s1, v1); (s2, v2); (s3, v3); (s4, v4)]))
  = Ok ([SPSC_NONE; SPSC_NONE; SPSC_NONE],
        [(SPSC_NONE, 97); (SPSC_NONE, 98); (SPSC_NONE, 99); (SPSC_EMPTY, NULL)]).
Proof. reflexivity. Qed.

(** test_mu_spsc.c:64-92 *)
Example test_spsc_ordering :
  (let q := snd (mu_spsc_init junk_spsc [7; 8; 9; 10] 4) in
   let* '(r1, q) := mu_spsc_put q 97 in let* '(r2, q) := mu_spsc_put q 98 in
   let* '(r3, q) := mu_spsc_put q 99 in let* '(s1, v1, q) := mu_spsc_get q in
   let* '(r4, q) := mu_spsc_put q 100 in let* '(s2, v2, q) := mu_spsc_get q in
   let* '(r5, q) := mu_spsc_put q 101 in let* '(s3, v3, q) := mu_spsc_get q in
   let* '(s4, v4, q) := mu_spsc_get q in let* '(s5, v5, q) := mu_spsc_get q in
   let* '(s6, _, q) := mu_spsc_get q in
   Ok ([r1; r2; r3; r4; r5], [(s1, v1); (s2, v2); (s3, v3); (s4, v4); (s5, v5)], s6))
  = Ok (replicate 5 SPSC_NONE,
        [(SPSC_NONE, 97); (SPSC_NONE, 98); (SPSC_NONE, 99); (SPSC_NONE, 100); (SPSC_NONE, 101)], SPSC_EMPTY).
Proof. reflexivity. Qed.

(** ** test_mu_bisync.c *)
(** test_mu_bisync.c:15-25 *)
Example test_mu_bisync_encode_normal : forall p,
  mu_bisync_encode p (replicate 11 0) 11 [1; 2; 3; 4; 5; 1] 6 = Ok (11, [1; 16; 1; 2; 3; 16; 4; 5; 16; 1; 4]).
Proof. run. Qed.

(** test_mu_bisync.c:27-37; the expected output begins with the SOH *)
Example test_mu_bisync_decode_normal : forall p,
  mu_bisync_decode p (replicate 6 0) 6 [1; 2; 3; 16; 4; 5; 16; 1; 4] 9 = Ok (6, [1; 2; 3; 4; 5; 1]).
Proof. run. Qed.

(** test_mu_bisync.c:39-48 *)
Example test_mu_bisync_encode_oflow : forall p,
  Forall (fun c => exists d, mu_bisync_encode p (replicate 11 0) c [1; 2; 3; 4; 5; 1] 6 = Ok (MU_BISYNC_ERR_OFLOW, d))
    [0; 1; 2; 10].
Proof. intros p; destruct p; repeat constructor; eexists; vm_compute; reflexivity. Qed.

(** test_mu_bisync.c:50-57 *)
Example test_mu_bisync_decode_oflow : forall p,
  Forall (fun c => exists d, mu_bisync_decode p (replicate 6 0) c [1; 2; 3; 16; 4; 5; 16; 1; 4] 9
                             = Ok (MU_BISYNC_ERR_OFLOW, d)) [4; 5].
Proof. intros p; destruct p; repeat constructor; eexists; vm_compute; reflexivity. Qed.

(** test_mu_bisync.c:59-66 *)
Example test_mu_bisync_decode_format : forall p,
  (exists d, mu_bisync_decode p (replicate 7 99) 7 [2; 3; 16; 4; 5; 16; 1; 6] 8 = Ok (MU_BISYNC_ERR_FORMAT, d)) /\
  (exists d, mu_bisync_decode p (replicate 7 99) 7 [1; 2; 3; 16; 4; 5; 16; 1; 6] 9 = Ok (MU_BISYNC_ERR_FORMAT, d)).
Proof. intros p; destruct p; split; eexists; vm_compute; reflexivity. Qed.
