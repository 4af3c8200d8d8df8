(** Specification vocabulary for stack traces. *)

From Verif Require Import MBase MStream MDaedalus MVm SSym.
Local Open Scope N_scope.

(** An instance, if there is one, knows its C++ type; its symbol exists, if it has one. *)
Definition typed (s : vm) (c : option N) : Prop :=
  match c with None => True | Some k => exists n t, nth_N (v_heap s) k = Some n /\ n_type n = Some t end.
Definition named (s : vm) (c : option N) : Prop :=
  match c with None => True | Some k => exists n, nth_N (v_heap s) k = Some n /\ (n_sym n = none32 \/ exists y, nth_N (v_syms s) (n_sym n) = Some y) end.
(** What a reference refers to can be read, with the current instance as context; a function
    variable holds a symbol. *)
Definition shown_symbol (s : vm) (i idx : N) (x : sym) : Prop :=
  (s_type x = T_FLOAT -> exists v, read_el KFlt i idx (v_inst s) s = VRet v s) /\
  (s_type x = T_INT -> exists v, read_el KInt i idx (v_inst s) s = VRet v s) /\
  (s_type x = T_STRING -> exists v, read_el KStr i idx (v_inst s) s = VRet v s) /\
  (s_type x = T_FUNCTION -> exists z y, rd_int i idx (v_inst s) s = VRet z s /\ nth_N (v_syms s) (uint 32 z) = Some y) /\
  (s_type x = T_INSTANCE -> exists c, rd_inst i s = VRet c s /\ typed s c).
Definition shown (s : vm) (f : frame) : Prop :=
  if f_ref f then exists i x, f_val f = FSym i /\ nth_N (v_syms s) i = Some x /\ shown_symbol s i (f_idx f) x
  else match f_val f with FInst c => typed s c | _ => True end.
(** Everything a stack trace shows can be shown. *)
Definition traceable (s : vm) : Prop :=
  (forall c, In c (v_calls s) -> exists x, nth_N (v_syms s) (c_fun c) = Some x) /\
  (forall k, k < v_sp s -> k < stack_size /\ exists f, v_slots s k = Some f /\ shown s f) /\
  (forall i, In (Some i) (v_glob s) -> exists c, rd_inst i s = VRet c s /\ named s c) /\
  named s (v_inst s).
