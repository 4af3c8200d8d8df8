(** What a host relies on when it sets a callback for log messages. *)

From Verif Require Import MBase MLogger.
Local Open Scope N_scope.

(** A callback that does not log itself. *)
Inductive only_looks : act -> Prop :=
| looks_done : only_looks ADone
| looks_see k : (forall b, only_looks (k b)) -> only_looks (ASee k).
(** How often it looks at the message [t]. *)
Fixpoint looks (a : act) (t : bytes) : nat :=
  match a with
  | ADone => 0
  | ASee k => S (looks (k t) t)
  | ALog _ _ _ k => looks k t
  end.

(** The level and the callback that were set last. *)
Definition in_force (before : list lop) : N * option N :=
  fold_left (fun cur o => match o with LSet l cb => (l, cb) | LLog _ _ _ => cur end) before (INFO, None).
Section Delivered.
Variable handler : N -> N -> bytes -> act.
(** What is seen of one message, given the level and callback in force. *)
Definition message (cur : N * option N) (lvl : N) (name text : bytes) : list seen :=
  match snd cur with
  | Some h => if lvl <=? fst cur then repeat (mkSeen h lvl name text) (looks (handler h lvl name) text) else []
  | None => []
  end.
(** What is seen of the messages in [ops], after the host did [before]. *)
Fixpoint delivered (before ops : list lop) : list seen :=
  match ops with
  | [] => []
  | LSet l cb :: r => delivered (before ++ [LSet l cb]) r
  | LLog l n t :: r => message (in_force before) l n t ++ delivered (before ++ [LLog l n t]) r
  end.
End Delivered.
(** The messages fit into the buffer. *)
Definition short (t : bytes) : Prop := len t <= 4094.
Definition texts_short (ops : list lop) : Prop := Forall (fun o => match o with LLog _ _ t => short t | LSet _ _ => True end) ops.

(** What a thread's callbacks are to see of its calls. *)
Definition due (s : logger) (calls : list call) : list seen :=
  flat_map (fun c => match passes s c with Some h => [mkSeen h (cl_level c) (cl_name c) (cl_text c)] | None => [] end) calls.
Definition seen_by (i : N) (l : list (N * seen)) : list seen := map snd (filter (fun p => fst p =? i) l).
(** The texts of all calls fit into the buffer. *)
Definition calls_short (calls : list (list call)) : Prop := Forall (Forall (fun c => short (cl_text c))) calls.
