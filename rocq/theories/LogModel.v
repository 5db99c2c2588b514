(** * Model of mulib/mu_log.c (all functions).

    [mu_log_level_t] is an enum without negative members: its values are those of
    [unsigned int] (as gcc and clang represent it), here numbers 0 .. 2^32-1.  Function
    and string pointers are numbers, 0 is NULL; the variable arguments are a list of
    numbers.  The logging function is user code and may call the library: a history is a
    list of labels, where [LRet] is "the innermost running logging function returns". *)
From Verif Require Import CSem FifoSpec.
From Coq Require Export String.
Open Scope Z_scope.

(** mu_log.h:48-57 MU_LOG_LEVELS / mu_log_level_t *)
Definition MU_LOG_LEVEL_TRACE : Z := 0.
Definition MU_LOG_LEVEL_DEBUG : Z := 1.
Definition MU_LOG_LEVEL_INFO : Z := 2.
Definition MU_LOG_LEVEL_WARN : Z := 3.
Definition MU_LOG_LEVEL_ERROR : Z := 4.
Definition MU_LOG_LEVEL_FATAL : Z := 5.
Definition uint_max : Z := 4294967295.

(** mu_log.c:40-43 s_level_names, N_LOG_LEVELS *)
Definition s_level_names : list string := ["TRACE"; "DEBUG"; "INFO"; "WARN"; "ERROR"; "FATAL"]%string.
Definition N_LOG_LEVELS (p : plat) : Z :=
  (Z.of_nat (List.length s_level_names) * ptr_bytes p) / ptr_bytes p.

(** mu_log.c:45-51: the static variables *)
Record lstate := MkL { s_reporting_threshold : Z; s_reporting_level : Z; s_logging_fn : Z }.
(** static storage is zero-initialised *)
Definition lstate0 : lstate := MkL 0 0 NULL.

(** mu_log.c:64-70 *)
Definition mu_log_set_reporting_threshold (t : Z) (s : lstate) : lstate :=
  MkL t (s_reporting_level s) (s_logging_fn s).
Definition mu_log_get_reporting_threshold (s : lstate) : Z := s_reporting_threshold s.
(** mu_log.c:72-78 *)
Definition mu_log_set_logging_function (fn : Z) (s : lstate) : lstate :=
  MkL (s_reporting_threshold s) (s_reporting_level s) fn.
Definition mu_log_get_logging_function (s : lstate) : Z := s_logging_fn s.
(** mu_log.c:59-62 *)
Definition mu_log_init (t fn : Z) (s : lstate) : lstate :=
  mu_log_set_logging_function fn (mu_log_set_reporting_threshold t s).
(** mu_log.c:80-82 *)
Definition mu_log_get_reporting_level (s : lstate) : Z := s_reporting_level s.
(** mu_log.c:84-86 *)
Definition mu_log_is_reporting (l : Z) (s : lstate) : bool := s_reporting_threshold s <=? l.
(** mu_log.c:88-94; the comparison is done in size_t *)
Definition mu_log_level_name (p : plat) (l : Z) : res string :=
  if to_size p l <? N_LOG_LEVELS p then ld s_level_names l else Ok "UNKNOWN"%string.
(** mu_log.c:96-104 up to and including the call of the logging function: [Some (fn, fmt,
    ap)] is the call [s_logging_fn(fmt, ap)] (after which mu_log only executes va_end and
    returns), [None] means that mu_log returned without calling anything. *)
Definition mu_log (l fmt : Z) (args : list Z) (s : lstate) : lstate * option (Z * Z * list Z) :=
  if mu_log_is_reporting l s && negb (s_logging_fn s =? NULL) then
    (MkL (s_reporting_threshold s) l (s_logging_fn s), Some (s_logging_fn s, fmt, args))
  else (s, None).

(** ** Histories *)
Inductive lop :=
| LInit (t fn : Z) | LSetThreshold (t : Z) | LGetThreshold | LSetFn (fn : Z) | LGetFn
| LGetLevel | LIsReporting (l : Z) | LName (l : Z) | LLog (l fmt : Z) (args : list Z).
(** an API call (by the main program or, if one is running, by the logging function), or
    the return of the innermost running logging function *)
Inductive llabel := LCall (o : lop) | LRet.
Inductive lev :=
| LEnter (fn fmt : Z) (args : list Z)   (* the logging function is called *)
| LReturned                             (* a call without a result returns *)
| LNum (x : Z) | LBool (b : bool) | LStr (s : string).

(** [n]: how many logging functions are running *)
Definition lstep (p : plat) (s : lstate) (n : nat) (l : llabel) : res (lstate * nat * list lev) :=
  match l with
  | LRet => match n with O => Ok (s, O, []) | S n => Ok (s, n, [LReturned]) end
  | LCall (LInit t fn) => Ok (mu_log_init t fn s, n, [LReturned])
  | LCall (LSetThreshold t) => Ok (mu_log_set_reporting_threshold t s, n, [LReturned])
  | LCall LGetThreshold => Ok (s, n, [LNum (mu_log_get_reporting_threshold s)])
  | LCall (LSetFn fn) => Ok (mu_log_set_logging_function fn s, n, [LReturned])
  | LCall LGetFn => Ok (s, n, [LNum (mu_log_get_logging_function s)])
  | LCall LGetLevel => Ok (s, n, [LNum (mu_log_get_reporting_level s)])
  | LCall (LIsReporting l) => Ok (s, n, [LBool (mu_log_is_reporting l s)])
  | LCall (LName l) => let* x := mu_log_level_name p l in Ok (s, n, [LStr x])
  | LCall (LLog l fmt args) =>
    match mu_log l fmt args s with
    | (s, Some (fn, fmt, ap)) => Ok (s, S n, [LEnter fn fmt ap])
    | (s, None) => Ok (s, n, [LReturned])
    end
  end.
Fixpoint lrun (p : plat) (s : lstate) (n : nat) (h : list llabel) : res (lstate * nat * list (list lev)) :=
  match h with
  | [] => Ok (s, n, [])
  | l :: h =>
    let* '(s, n, e) := lstep p s n l in
    let* '(s, n, es) := lrun p s n h in Ok (s, n, e :: es)
  end.
