(** addon/daedalus.cc: the choices of a dialogue ([IInfo::add_choice], [IInfo::remove_choice]). *)

From Verif Require Import MBase.
Local Open Scope N_scope.

(** daedalus.hh:343-346 [IInfoChoice]. *)
Record choice := mkChoice { ch_text : bytes; ch_function : Z }.

(** daedalus.cc:300-302: [choices.insert(choices.begin(), ch)].  Running out of memory is not modelled. *)
Definition add_choice (l : list choice) (c : choice) : list choice := c :: l.

(** [std::vector::erase] of the element [i] places behind the first; there has to be one. *)
Fixpoint erase_at (l : list choice) (i : N) : outcome (list choice) :=
  match l with
  | [] => Undef
  | c :: r => if i =? 0 then Ret r else match erase_at r (i - 1) with Ret r' => Ret (c :: r') | Throw e => Throw e | Undef => Undef | Fuel => Fuel end
  end.
(** daedalus.cc:304-306.  [index] is converted to a signed number; those that become negative lie
    before the first choice, which is undefined like those behind the last. *)
Definition remove_choice (l : list choice) (index : N) : outcome (list choice) :=
  if index <? 2 ^ 63 then erase_at l index else Undef.

(** A call of one of the two. *)
Inductive choice_call := CAdd (c : choice) | CRemove (index : N).
Definition choice_step (l : list choice) (k : choice_call) : outcome (list choice) :=
  match k with CAdd c => Ret (add_choice l c) | CRemove i => remove_choice l i end.
(** What a host does to one dialogue, call by call. *)
Fixpoint choice_run (l : list choice) (h : list choice_call) : outcome (list choice) :=
  match h with
  | [] => Ret l
  | k :: r => match choice_step l k with Ret l' => choice_run l' r | Throw e => Throw e | Undef => Undef | Fuel => Fuel end
  end.
