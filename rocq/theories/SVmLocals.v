(** Specification vocabulary: local variables and recursion. *)

From Verif Require Import MBase MStream MDaedalus MVm.
Local Open Scope N_scope.

(** The symbols read the same wherever a script can read them; strings are not compared. *)
Definition same_numbers (x y : sym) : Prop :=
  (s_type x = T_INT \/ s_type x = T_FUNCTION -> forall k, k < s_count x -> sym_get_int y k None = sym_get_int x k None) /\
  (s_type x = T_FLOAT -> forall k, k < s_count x -> sym_get_float y k None = sym_get_float x k None) /\
  (s_type x = T_INSTANCE -> sym_get_inst y = sym_get_inst x).
(** The local variables of a function that is already running. *)
Definition locals_size (s : vm) (f : N) (x : sym) : N :=
  fold_right N.add 0 (map (fun i => match nth_N (v_syms s) i with Some l => saved_size l | None => 0 end) (locals_of (v_syms s) f x)).
