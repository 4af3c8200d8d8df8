(** Specification vocabulary for creating script instances. *)

From Verif Require Import MBase MStream MDaedalus MVm SVm.
Local Open Scope N_scope.

(** The class a symbol leads to: itself, or that of its parent. *)
Inductive class_above (l : list sym) : N -> N -> Prop :=
| above_here : forall i x, nth_N l i = Some x -> s_type x = T_CLASS -> class_above l i i
| above_parent : forall i x c, nth_N l i = Some x -> s_type x <> T_CLASS -> class_above l (s_parent x) c -> class_above l i c.

(** The symbol [i] is bound to the instance [v]. *)
Definition bound (s : vm) (i : N) (v : option N) : Prop :=
  exists x, nth_N (v_syms s) i = Some x /\ s_type x = T_INSTANCE /\ s_val x = SInst v.
(** The symbol SELF, which the machine looks up when it is made. *)
Definition self_of (s : vm) : option N := nth 1 (v_glob s) None.

(** [t] is the C++ type the class of the instance [f] is registered for. *)
Definition made_as (s : vm) (f t : N) : Prop :=
  exists x c y, nth_N (v_syms s) f = Some x /\ s_type x = T_INSTANCE /\ class_above (v_syms s) (s_parent x) c /\
    nth_N (v_syms s) c = Some y /\ s_reg y = Some t.

(** Two states agree but for one symbol's value and one instance's type and symbol. *)
Definition rest_same (f n : N) (s s' : vm) : Prop :=
  (forall j, j <> f -> nth_N (v_syms s') j = nth_N (v_syms s) j) /\
  (forall m, m <> n -> nth_N (v_heap s') m = nth_N (v_heap s) m) /\
  v_inst s' = v_inst s /\ v_pc s' = v_pc s /\ v_calls s' = v_calls s /\ v_sp s' = v_sp s /\
  (forall i, v_slots s' i = v_slots s i) /\ v_glob s' = v_glob s.

(** The types of parameters and results other than functions. *)
Definition plain_type (ty : N) : Prop := ty = T_INT \/ ty = T_FLOAT \/ ty = T_STRING \/ ty = T_INSTANCE.
