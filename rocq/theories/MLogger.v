(** Model of src/Logger.cc.

    A message is the text that [vsnprintf] makes of the format and its arguments; formatting itself
    is not modelled.  The text is a C string: it holds no zero byte.  Levels are the numbers of
    Logger.hh:19-25.  Callbacks are numbered; the default callback (Logger.cc:26-57), which prints to
    stderr, is one of them. *)

From Verif Require Import MBase MText.
Local Open Scope N_scope.

(** Logger.hh:19-25 *)
Definition ERROR : N := 0. Definition WARNING : N := 1. Definition INFO : N := 2. Definition DEBUG : N := 3. Definition TRACE : N := 4.

(** Logger.cc:21-24: the buffer, the callback and the level. *)
Record logger := mkLog { lg_buf : bytes; lg_cb : option N; lg_level : N }.
(** Logger.cc:21-24, the values at the start of the program. *)
Definition logger_new : logger := mkLog [] None INFO.

(** What a callback does: it looks at the message it was given (a pointer to the buffer), or
    logs a message itself. *)
Inductive act :=
| ADone
| ASee (k : bytes -> act)
| ALog (lvl : N) (name text : bytes) (k : act).

(** What was seen: the callback, the level, the name and the text that the message held. *)
Record seen := mkSeen { sn_cb : N; sn_level : N; sn_name : bytes; sn_text : bytes }.

(** Logger.cc:78: [vsnprintf] with [sizeof zk_global_logger_buffer - 1 = 4095] writes at most 4094
    bytes and the end of the string. *)
Definition fill (s : logger) (text : bytes) : logger := mkLog (take 4094 text) (lg_cb s) (lg_level s).

Section Callbacks.
(** The registered callbacks: what each does with a message of the given level and name. *)
Variable handler : N -> N -> bytes -> act.

(** Running a callback; [log] is what logging inside of it does. *)
Fixpoint run_act (log : N -> bytes -> bytes -> logger -> outcome (list seen * logger)) (h lvl : N) (name : bytes) (a : act) (s : logger)
  : outcome (list seen * logger) :=
  match a with
  | ADone => Ret ([], s)
  | ASee k => obind (run_act log h lvl name (k (lg_buf s)) s) (fun r => Ret (mkSeen h lvl name (lg_buf s) :: fst r, snd r))
  | ALog l n t k => obind (log l n t s) (fun r1 => obind (run_act log h lvl name k (snd r1)) (fun r2 => Ret (fst r1 ++ fst r2, snd r2)))
  end.

(** Logger.cc:68-80 [log], [logv]; [fuel] bounds how deep callbacks log. *)
Fixpoint log (fuel : nat) (lvl : N) (name text : bytes) (s : logger) : outcome (list seen * logger) :=
  match fuel with
  | O => Fuel
  | S f =>
      match lg_cb s with
      | None => Ret ([], s)
      | Some h =>
          if lg_level s <? lvl then Ret ([], s)
          else run_act (log f) h lvl name (handler h lvl name) (fill s text)
      end
  end.

(** What a host does with the logger.  Logger.cc:82-91 [set] (with an empty [std::function]: [None])
    and [set_default]. *)
Inductive lop := LSet (lvl : N) (cb : option N) | LLog (lvl : N) (name text : bytes).
Definition set_logger (lvl : N) (cb : option N) (s : logger) : logger := mkLog (lg_buf s) cb lvl.
Fixpoint log_run (fuel : nat) (ops : list lop) (s : logger) : outcome (list seen * logger) :=
  match ops with
  | [] => Ret ([], s)
  | LSet l cb :: r => log_run fuel r (set_logger l cb s)
  | LLog l n t :: r => obind (log fuel l n t s) (fun r1 => obind (log_run fuel r (snd r1)) (fun r2 => Ret (fst r1 ++ fst r2, snd r2)))
  end.
End Callbacks.

(** Logger.cc:59-63 [use_logger]: sets the level INFO; the host's callback gets one text made of
    name and message. *)
Definition use_logger (cb : N) (s : logger) : logger := set_logger INFO (Some cb) s.
Definition joined (v : seen) : bytes := sn_name v ++ lit ": " ++ sn_text v.
(** Logger.cc:65-67 [use_default_logger] *)
Definition use_default_logger (default : N) (s : logger) : logger := set_logger INFO (Some default) s.

(* ------------------------------------------------------------------ *)
(** * Threads *)

(** Several threads that log, with a callback that looks at its message once.  A call that passes
    the tests of Logger.cc:76-77 has two steps: it fills the buffer, and the callback looks at the buffer.
    Neither is synchronised with other threads, so that filling the buffer while the
    call of another thread is between its two steps is a data race. *)
Record call := mkCall { cl_level : N; cl_name : bytes; cl_text : bytes }.
(** The calls each thread still has to make; the first of the thread [who] is between its steps. *)
Record tstate := mkT { t_log : logger; t_calls : list (list call); t_inside : list N; t_seen : list (N * seen) }.
Definition passes (s : logger) (c : call) : option N :=
  match lg_cb s with Some h => if lg_level s <? cl_level c then None else Some h | None => None end.
Fixpoint set_nth {A} (l : list A) (i : nat) (x : A) : list A :=
  match l, i with
  | [], _ => []
  | _ :: r, O => x :: r
  | y :: r, S j => y :: set_nth r j x
  end.
(** One step of the thread [i]; nothing if it has nothing left to do. *)
Definition thread_step (i : N) (s : tstate) : outcome tstate :=
  match nth_N (t_calls s) i with
  | Some (c :: r) =>
      let done := set_nth (t_calls s) (N.to_nat i) r in
      match passes (t_log s) c with
      | None => Ret (mkT (t_log s) done (t_inside s) (t_seen s))
      | Some h =>
          if existsb (N.eqb i) (t_inside s) then
            Ret (mkT (t_log s) done (filter (fun j => negb (j =? i)) (t_inside s))
                     (t_seen s ++ [(i, mkSeen h (cl_level c) (cl_name c) (lg_buf (t_log s)))]))
          else match t_inside s with
               | [] => Ret (mkT (fill (t_log s) (cl_text c)) (t_calls s) [i] (t_seen s))
               | _ => Undef
               end
      end
  | _ => Ret s
  end.
Fixpoint schedule (l : list N) (s : tstate) : outcome tstate :=
  match l with
  | [] => Ret s
  | i :: r => obind (thread_step i s) (schedule r)
  end.
