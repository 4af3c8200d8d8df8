(** Property C134: the enumeration of instances. *)

From Coq Require Import Lia Sorted.
From Verif Require Import MBase MStream MDaedalus MVm SVm SVmProps SDaedalus SInst SEnum LBase LEnum PropertiesDaedalus.
Local Open Scope N_scope.

(** ** C134 *)
(** The callback is called once for each constant instance made directly from the class or from a
    prototype that is made directly from the class and comes before it, in the order of the script. *)
Theorem C134_enumerated : forall sc name cls, find_by_name (sc_names sc) name = Some cls ->
  StronglySorted N.lt (enumerate_instances sc name) /\
  forall i, In i (enumerate_instances sc name) <->
    exists x, declared (sc_syms sc) i x /\ (s_parent x = cls \/ (prototype_of (sc_syms sc) cls (s_parent x) /\ s_parent x < i)).
Proof. exact enumerated. Qed.
Print Assumptions C134_enumerated.
(** For a name that does not exist it is not called. *)
Theorem C134_unknown : forall sc name, find_by_name (sc_names sc) name = None -> enumerate_instances sc name = [].
Proof. exact enumerated_none. Qed.
Print Assumptions C134_unknown.
(** Only instances of the class are enumerated. *)
Theorem C134_sound : forall sc name cls y i, find_by_name (sc_names sc) name = Some cls ->
  nth_N (sc_syms sc) cls = Some y -> s_type y = T_CLASS ->
  In i (enumerate_instances sc name) -> declared_as (sc_syms sc) cls i.
Proof. exact enumerated_sound. Qed.
Print Assumptions C134_sound.
(** All of them are, where prototypes are made from classes and come first.  Missing: prototypes of
    prototypes, prototypes that come later. *)
Theorem C134_complete_partial : forall sc name cls y i, find_by_name (sc_names sc) name = Some cls ->
  nth_N (sc_syms sc) cls = Some y -> s_type y = T_CLASS -> shallow (sc_syms sc) ->
  (In i (enumerate_instances sc name) <-> declared_as (sc_syms sc) cls i).
Proof. exact enumerated_complete. Qed.
Print Assumptions C134_complete_partial.

(** An instance of a prototype of a prototype; one that comes before its prototype. *)
Definition a_prototype (name : bytes) (parent : N) : sym :=
  mkSym name (SInts []) 0 parent (-1) 0 T_PROTOTYPE F_CONST false [0; 0; 0; 0; 0] none32 none32 T_VOID None.
Definition enum_script (l : list sym) : script := a_script (register_as_opaque (klass (lit "C") :: l) 0) (assemble [RSR]).
Definition deep_script : script := enum_script [a_prototype (lit "P") 0; a_prototype (lit "Q") 1; an_instance (lit "I") 1 0; an_instance (lit "J") 2 0].
Definition late_script : script := enum_script [an_instance (lit "I") 2 0; a_prototype (lit "P") 0; an_instance (lit "J") 2 0].
(** The host can create such instances as instances of the class, but they are not enumerated. *)
Theorem C134_deep_refuted : exists sc i, script_ok sc /\ declared_as (sc_syms sc) 0 i /\ made_as (boot sc 0) i opaque_type /\
  find_by_name (sc_names sc) (lit "C") = Some 0 /\ ~ In i (enumerate_instances sc (lit "C")).
Proof.
  exists deep_script, 4. split; [apply script_okb_ok; vm_compute; reflexivity|].
  assert (A : forall l, l = sc_syms deep_script \/ l = v_syms (boot deep_script 0) -> class_above l 2 0).
  { intros l [-> | ->]; (eapply above_parent; [vm_compute; reflexivity|vm_compute; discriminate|]);
    (eapply above_parent; [vm_compute; reflexivity|vm_compute; discriminate|]); (eapply above_here; vm_compute; reflexivity). }
  split; [eexists; split; [split; [vm_compute; reflexivity|split; vm_compute; reflexivity]|apply A; auto]|].
  split; [eexists; eexists; eexists; split; [vm_compute; reflexivity|split; [reflexivity|split; [apply A; auto|split; vm_compute; reflexivity]]]|].
  split; [vm_compute; reflexivity|]. vm_compute. intuition discriminate.
Qed.
Print Assumptions C134_deep_refuted.
Theorem C134_late_refuted : exists sc i, script_ok sc /\ declared_as (sc_syms sc) 0 i /\ made_as (boot sc 0) i opaque_type /\
  find_by_name (sc_names sc) (lit "C") = Some 0 /\ ~ In i (enumerate_instances sc (lit "C")).
Proof.
  exists late_script, 1. split; [apply script_okb_ok; vm_compute; reflexivity|].
  assert (A : forall l, l = sc_syms late_script \/ l = v_syms (boot late_script 0) -> class_above l 2 0).
  { intros l [-> | ->]; (eapply above_parent; [vm_compute; reflexivity|vm_compute; discriminate|]); (eapply above_here; vm_compute; reflexivity). }
  split; [eexists; split; [split; [vm_compute; reflexivity|split; vm_compute; reflexivity]|apply A; auto]|].
  split; [eexists; eexists; eexists; split; [vm_compute; reflexivity|split; [reflexivity|split; [apply A; auto|split; vm_compute; reflexivity]]]|].
  split; [vm_compute; reflexivity|]. vm_compute. intuition discriminate.
Qed.
Print Assumptions C134_late_refuted.
Example C134_example : enumerate_instances deep_script (lit "c") = [3] /\ enumerate_instances late_script (lit "C") = [3] /\
  shallow (sc_syms (enum_script [a_prototype (lit "P") 0; an_instance (lit "I") 1 0; an_instance (lit "J") 0 0])) /\
  enumerate_instances (enum_script [a_prototype (lit "P") 0; an_instance (lit "I") 1 0; an_instance (lit "J") 0 0]) (lit "C") = [2; 3].
Proof.
  split; [vm_compute; reflexivity|]. split; [vm_compute; reflexivity|]. split; [|vm_compute; reflexivity].
  intros i x X. assert (B : i < 4) by (apply LVm.nth_N_lt in X; exact X).
  assert (Q : i = 0 \/ i = 1 \/ i = 2 \/ i = 3) by lia.
  destruct Q as [-> | [-> | [-> | ->]]]; vm_compute in X; injection X as <-; (split; [intros T C|intros T]); try discriminate;
    (eexists; split; [vm_compute; reflexivity|]); try reflexivity; first [left; reflexivity|right; split; vm_compute; reflexivity].
Qed.
