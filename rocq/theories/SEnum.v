(** Specification vocabulary for the enumeration of instances. *)

From Coq Require Import Sorted.
From Verif Require Import MBase MStream MDaedalus MVm SInst.
Local Open Scope N_scope.

(** Symbol [i] is an instance declared in the script, and its class, found by following parents as
    for the creation of instances, is [cls]. *)
Definition declared (l : list sym) (i : N) (x : sym) : Prop := nth_N l i = Some x /\ s_type x = T_INSTANCE /\ is_const x = true.
Definition declared_as (l : list sym) (cls i : N) : Prop := exists x, declared l i x /\ class_above l (s_parent x) cls.

(** [p] is a prototype made directly from the class. *)
Definition prototype_of (l : list sym) (cls p : N) : Prop := exists y, nth_N l p = Some y /\ s_type y = T_PROTOTYPE /\ s_parent y = cls.
(** Instances have a class or a prototype as parent, prototypes a class, and prototypes come before
    what is made from them. *)
Definition shallow (l : list sym) : Prop := forall i x, nth_N l i = Some x ->
  (s_type x = T_INSTANCE -> is_const x = true -> exists y, nth_N l (s_parent x) = Some y /\
     (s_type y = T_CLASS \/ (s_type y = T_PROTOTYPE /\ s_parent x < i))) /\
  (s_type x = T_PROTOTYPE -> exists y, nth_N l (s_parent x) = Some y /\ s_type y = T_CLASS).
