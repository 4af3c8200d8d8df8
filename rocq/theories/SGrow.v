(** Specification vocabulary for growing symbols. *)

From Coq Require Import ZArith.
From Verif Require Import MBase MStream MDaedalus.
Local Open Scope N_scope.

(** A variable of the script that is no member of a class: integers, floats or strings, as many
    as declared. *)
Definition holds_values (x : sym) : Prop :=
  is_member x = false /\
  match s_val x with
  | SInts l => (s_type x = T_INT \/ s_type x = T_FUNCTION) /\ len l = s_count x
  | SFloats l => s_type x = T_FLOAT /\ len l = s_count x
  | SStrs l => s_type x = T_STRING /\ len l = s_count x
  | SInst _ => False
  end.
(** Nothing but the number of elements and their values differs. *)
Definition same_declaration (x y : sym) : Prop :=
  s_name y = s_name x /\ s_addr y = s_addr x /\ s_parent y = s_parent x /\ s_coff y = s_coff x /\ s_type y = s_type x /\
  s_flags y = s_flags x /\ s_gen y = s_gen x /\ s_pos y = s_pos x /\ s_moff y = s_moff x /\ s_csize y = s_csize x /\
  s_rtype y = s_rtype x /\ s_reg y = s_reg x.
(** Element [k] reads the same, whatever it is read as. *)
Definition same_element (x y : sym) (k : N) : Prop :=
  forall c, sym_get_int y k c = sym_get_int x k c /\ sym_get_float y k c = sym_get_float x k c /\ sym_get_string y k c = sym_get_string x k c.
(** Element [k] is 0 or empty. *)
Definition empty_element (y : sym) (k : N) : Prop :=
  forall c, (s_type y = T_INT \/ s_type y = T_FUNCTION -> sym_get_int y k c = Ret 0%Z) /\
            (s_type y = T_FLOAT -> sym_get_float y k c = Ret 0) /\ (s_type y = T_STRING -> sym_get_string y k c = Ret []).
