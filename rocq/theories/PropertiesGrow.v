(** Property C137: growing symbols. *)

From Coq Require Import ZArith Lia.
From Verif Require Import MBase MStream MDaedalus MVm SVm SVmOps SGrow LBase LGrow PropertiesDaedalus.
Local Open Scope N_scope.

(** ** C137 *)
(** The elements it had are kept, the new ones are 0 or empty, and nothing else changes. *)
Theorem C137_grown : forall x n, holds_values x -> s_count x + n < 2 ^ 32 ->
  exists y, sym_grow x n = Ret y /\ same_declaration x y /\ s_count y = s_count x + n /\ holds_values y /\
    (forall k, k < s_count x -> same_element x y k) /\ (forall k, s_count x <= k -> k < s_count x + n -> empty_element y k).
Proof. exact grown. Qed.
Print Assumptions C137_grown.
(** Behind them there is nothing. *)
Theorem C137_end : forall x n y, holds_values x -> s_count x + n < 2 ^ 32 -> sym_grow x n = Ret y ->
  forall k, s_count x + n <= k -> forall c, (s_type x = T_INT -> sym_get_int y k c = Throw IllegalIndexAccess) /\
   (s_type x = T_FLOAT -> sym_get_float y k c = Throw IllegalIndexAccess) /\ (s_type x = T_STRING -> sym_get_string y k c = Throw IllegalIndexAccess).
Proof. exact grown_end. Qed.
Print Assumptions C137_end.
(** It does not matter in how many steps a symbol grows. *)
Theorem C137_twice : forall x n m, holds_values x -> s_count x + n + m < 2 ^ 32 ->
  match sym_grow x n with Ret y => sym_grow y m = sym_grow x (n + m) | _ => False end.
Proof. exact grow_twice. Qed.
Print Assumptions C137_twice.
(** Instances are refused. *)
Theorem C137_instance : forall x n v, s_val x = SInst v -> sym_grow x n = Throw IllegalTypeAccess.
Proof. exact grow_instance. Qed.
Print Assumptions C137_instance.
(** Members of a class, which have no values of their own, are not: a null pointer is read. *)
Theorem C137_member_refuted : exists s i x, reachable s /\ nth_N (v_syms s) i = Some x /\ is_member x = true /\ s_type x = T_INT /\ sym_grow x 1 = Undef.
Proof.
  exists (boot opaque_script 0), 3, (match nth_N (v_syms (boot opaque_script 0)) 3 with Some x => x | None => klass [] end).
  split; [apply boot_reachable; vm_compute; reflexivity|]. split; [vm_compute; reflexivity|]. split; [vm_compute; reflexivity|]. split; vm_compute; reflexivity.
Qed.
Print Assumptions C137_member_refuted.
Definition two_ints : sym := a_sym (lit "A") T_INT 0 2 (SInts [Some 7%Z; Some (-1)%Z]) none32 T_VOID.
Example C137_example : holds_values two_ints /\
  match sym_grow two_ints 3 with Ret y => map (fun k => sym_get_int y k None) [0; 1; 2; 4; 5] = [Ret 7%Z; Ret (-1)%Z; Ret 0%Z; Ret 0%Z; Throw IllegalIndexAccess] | _ => False end.
Proof. split; [split; [reflexivity|split; [left; reflexivity|reflexivity]]|vm_compute; reflexivity]. Qed.
