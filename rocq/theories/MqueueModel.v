(** * Model of mulib/mu_mqueue.c (all functions).

    Notification tasks are identified by [Z] (NULL = 0).  [call t m w] is what
    happens when [mu_task_call(t)] runs: it may use the queue [m] again and changes
    the rest of the world [w]. *)
From Verif Require Import CSem QueueModel.

(** mu_mqueue.h: mu_mqueue_t { storage, capacity, count, index, on_put, on_get } *)
Record mmq := MkM { m_store : list Z; m_cap : Z; m_cnt : Z; m_index : Z; m_on_put : Z; m_on_get : Z }.

Section model.
Context (p : plat) {W : Type} (call : Z -> mmq -> W -> res (mmq * W)).

(** mu_mqueue.c:58-62 *)
Definition mu_mqueue_reset (m : mmq) : mmq := MkM (m_store m) (m_cap m) 0 0 (m_on_put m) (m_on_get m).
(** mu_mqueue.c:48-56 *)
Definition mu_mqueue_init (storage : list Z) (capacity on_put on_get : Z) : mmq :=
  mu_mqueue_reset (MkM storage capacity 0 0 on_put on_get).
(** mu_mqueue.c:64 *)
Definition mu_mqueue_capacity (m : mmq) : Z := m_cap m.
(** mu_mqueue.c:66 *)
Definition mu_mqueue_count (m : mmq) : Z := m_cnt m.
(** mu_mqueue.c:68 *)
Definition mu_mqueue_is_empty (m : mmq) : bool := m_cnt m =? 0.
(** mu_mqueue.c:70-72 *)
Definition mu_mqueue_is_full (m : mmq) : bool := m_cnt m =? m_cap m.

(** mu_mqueue.c:74-90.  [upd] records in the world that the queue update of this
    call is complete (bookkeeping for the theorems, no C counterpart). *)
Definition mu_mqueue_put (upd : W -> W) (m : mmq) (w : W) (element : Z) : res (bool * mmq * W) :=
  if negb (mu_mqueue_is_full m) then
    let* s := st (m_store m) (m_index m) element in
    let* i := umod (to_size p (m_index m + 1)) (m_cap m) in
    let m := MkM s (m_cap m) (to_size p (m_cnt m + 1)) i (m_on_put m) (m_on_get m) in
    let w := upd w in
    if negb (m_on_put m =? 0) then
      let* '(m, w) := call (m_on_put m) m w in
      Ok (true, m, w)
    else Ok (true, m, w)
  else Ok (false, m, w).

(** mu_mqueue.c:103-123.  [upd e w] records that the update is complete and that [e]
    was stored in [*element]. *)
Definition maccess_queue (upd : Z -> W -> W) (m : mmq) (w : W) (fetch : bool) : res (bool * Z * mmq * W) :=
  if negb (mu_mqueue_is_empty m) then
    let idx := to_size p (to_size p (m_cap m + m_index m) - m_cnt m) in
    let idx := if m_cap m <=? idx then to_size p (idx - m_cap m) else idx in
    let* e := ld (m_store m) idx in
    if fetch then
      let m := MkM (m_store m) (m_cap m) (to_size p (m_cnt m - 1)) (m_index m) (m_on_put m) (m_on_get m) in
      let w := upd e w in
      if negb (m_on_get m =? 0) then
        let* '(m, w) := call (m_on_get m) m w in
        Ok (true, e, m, w)
      else Ok (true, e, m, w)
    else Ok (true, e, m, w)
  else Ok (false, 0, m, w).

(** mu_mqueue.c:92-94 *)
Definition mu_mqueue_get (upd : Z -> W -> W) (m : mmq) (w : W) := maccess_queue upd m w true.
(** mu_mqueue.c:96-98 *)
Definition mu_mqueue_peek (upd : Z -> W -> W) (m : mmq) (w : W) := maccess_queue upd m w false.
End model.
