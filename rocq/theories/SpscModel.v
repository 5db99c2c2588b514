(** * Model of mulib/mu_spsc.c (all functions), sequential and at the
    granularity of single shared-memory accesses. *)
From Verif Require Import CSem FifoSpec.

(** mu_spsc.h: MU_SPSC_ERR_NONE, _EMPTY, _FULL, _SIZE *)
Inductive spsc_err := SPSC_NONE | SPSC_EMPTY | SPSC_FULL | SPSC_SIZE.

(** mu_spsc.h: mu_spsc_t { uint16_t mask; volatile uint16_t head, tail; item *store; } *)
Record spsc := MkS { s_store : list Z; s_mask : Z; s_head : Z; s_tail : Z }.

Definition to_u16 (x : Z) : Z := x mod 65536.

(** mu_spsc.c:38 *)
Definition IS_POWER_OF_TWO (n : Z) : bool := Z.land n (n - 1) =? 0.

(** mu_spsc.c:56-60 *)
Definition mu_spsc_reset (q : spsc) : spsc_err * spsc :=
  (SPSC_NONE, MkS (s_store q) (s_mask q) 0 0).

(** mu_spsc.c:46-54 *)
Definition mu_spsc_init (q : spsc) (store : list Z) (store_size : Z) : spsc_err * spsc :=
  if (store_size <? 2) || negb (IS_POWER_OF_TWO store_size) then (SPSC_SIZE, q)
  else mu_spsc_reset (MkS store (to_u16 (store_size - 1)) (s_head q) (s_tail q)).

(** mu_spsc.c:62 *)
Definition mu_spsc_capacity (q : spsc) : Z := s_mask q.

(** mu_spsc.c:67-79 *)
Definition mu_spsc_put (q : spsc) (item : Z) : res (spsc_err * spsc) :=
  let next_tail := to_u16 (Z.land (s_tail q + 1) (s_mask q)) in
  if next_tail =? s_head q then Ok (SPSC_FULL, q)
  else
    let* s := st (s_store q) (s_tail q) item in
    Ok (SPSC_NONE, MkS s (s_mask q) (s_head q) next_tail).

(** mu_spsc.c:84-96; the second component is stored in [*item] *)
Definition mu_spsc_get (q : spsc) : res (spsc_err * Z * spsc) :=
  if s_head q =? s_tail q then Ok (SPSC_EMPTY, NULL, q)
  else
    let* v := ld (s_store q) (s_head q) in
    Ok (SPSC_NONE, v, MkS (s_store q) (s_mask q) (to_u16 (Z.land (s_head q + 1) (s_mask q))) (s_tail q)).

(** ** Two threads.  One transition = one access to shared memory (head, tail or
    a slot; [mask] and [store] are constant after init).  mu_spsc.c:67-79 *)
Inductive ppc :=
| PIdle
| PLoadTail (item : Z)                    (* line 69: read q->tail *)
| PLoadHead (item next_tail : Z)          (* line 71: read q->head *)
| PLoadTail2 (item next_tail : Z)         (* line 74: read q->tail *)
| PWriteSlot (item next_tail t : Z)       (* line 74: write q->store[tail] *)
| PStoreTail (item next_tail : Z).        (* line 75: write q->tail *)

(** mu_spsc.c:84-96 *)
Inductive cpc :=
| CIdle
| CLoadHead                               (* line 87: read q->head *)
| CLoadTail (h : Z)                       (* line 87: read q->tail *)
| CLoadHead2                              (* line 91: read q->head *)
| CReadSlot (h : Z)                       (* line 91: read q->store[head] *)
| CLoadHead3 (v : Z)                      (* line 92: read q->head *)
| CStoreHead (v h : Z).                   (* line 92: write q->head *)

Record conc := MkC { c_q : spsc; c_p : ppc; c_c : cpc }.

(** Scheduler choices: start a call, or let a thread make its next access.
    Choices that do not apply (e.g. starting a call while one runs) do nothing. *)
Inductive label := LPut (item : Z) | LGet | LP | LC.

(** Visible events: invocations, and responses with the result.  A response is
    emitted by the last access of its call. *)
Inductive sev := InvPut (x : Z) | RespPut (x : Z) (ok : bool) | InvGet | RespGet (ok : bool) (v : Z).

Definition cstep (s : conc) (l : label) : res (conc * list sev) :=
  let q := c_q s in
  match l with
  | LPut item =>
    match c_p s with
    | PIdle => Ok (MkC q (PLoadTail item) (c_c s), [InvPut item])
    | _ => Ok (s, [])
    end
  | LGet =>
    match c_c s with
    | CIdle => Ok (MkC q (c_p s) CLoadHead, [InvGet])
    | _ => Ok (s, [])
    end
  | LP =>
    match c_p s with
    | PIdle => Ok (s, [])
    | PLoadTail item =>
        Ok (MkC q (PLoadHead item (to_u16 (Z.land (s_tail q + 1) (s_mask q)))) (c_c s), [])
    | PLoadHead item nt =>
        if nt =? s_head q then Ok (MkC q PIdle (c_c s), [RespPut item false])
        else Ok (MkC q (PLoadTail2 item nt) (c_c s), [])
    | PLoadTail2 item nt => Ok (MkC q (PWriteSlot item nt (s_tail q)) (c_c s), [])
    | PWriteSlot item nt t =>
        let* st' := st (s_store q) t item in
        Ok (MkC (MkS st' (s_mask q) (s_head q) (s_tail q)) (PStoreTail item nt) (c_c s), [])
    | PStoreTail item nt =>
        Ok (MkC (MkS (s_store q) (s_mask q) (s_head q) nt) PIdle (c_c s), [RespPut item true])
    end
  | LC =>
    match c_c s with
    | CIdle => Ok (s, [])
    | CLoadHead => Ok (MkC q (c_p s) (CLoadTail (s_head q)), [])
    | CLoadTail h =>
        if h =? s_tail q then Ok (MkC q (c_p s) CIdle, [RespGet false NULL])
        else Ok (MkC q (c_p s) CLoadHead2, [])
    | CLoadHead2 => Ok (MkC q (c_p s) (CReadSlot (s_head q)), [])
    | CReadSlot h => let* v := ld (s_store q) h in Ok (MkC q (c_p s) (CLoadHead3 v), [])
    | CLoadHead3 v => Ok (MkC q (c_p s) (CStoreHead v (to_u16 (Z.land (s_head q + 1) (s_mask q)))), [])
    | CStoreHead v h =>
        Ok (MkC (MkS (s_store q) (s_mask q) h (s_tail q)) (c_p s) CIdle, [RespGet true v])
    end
  end.

Fixpoint crun (s : conc) (ls : list label) : res (conc * list sev) :=
  match ls with
  | [] => Ok (s, [])
  | l :: ls => let* '(s, e1) := cstep s l in
               let* '(s, e2) := crun s ls in Ok (s, e1 ++ e2)
  end.
