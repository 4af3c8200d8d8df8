(** Property C139: the choices of a dialogue. *)

From Coq Require Import List ZArith Lia.
From Verif Require Import MBase MChoice SChoice LChoice.
Import ListNotations.
Local Open Scope N_scope.

(** ** C139 *)
(** A choice that is added is shown first; the others keep their order behind it. *)
Theorem C139_add : forall l c, shown (add_choice l c) 0 = Some c /\ forall k, shown (add_choice l c) (S k) = shown l k.
Proof. exact add_first. Qed.
Print Assumptions C139_add.
(** A choice that is there can be removed: exactly it is gone, and those behind it move up. *)
Theorem C139_remove_partial : forall l i, N.of_nat (List.length l) < 2 ^ 63 -> i < N.of_nat (List.length l) -> exists l', remove_choice l i = Ret l' /\
  S (List.length l') = List.length l /\ (forall k, (k < N.to_nat i)%nat -> shown l' k = shown l k) /\ (forall k, (N.to_nat i <= k)%nat -> shown l' k = shown l (S k)).
Proof. exact remove_ok. Qed.
Print Assumptions C139_remove_partial.
(** Removing the first choice undoes adding it. *)
Theorem C139_undo : forall l c, remove_choice (add_choice l c) 0 = Ret l.
Proof. exact add_remove. Qed.
Print Assumptions C139_undo.
(** After any calls that succeed the choices stand newest first, and there are as many as were
    added and not removed. *)
Theorem C139_history : forall h l, choice_run [] h = Ret l -> newest_first h l /\ (List.length l + removes h)%nat = adds h.
Proof. exact history_gen. Qed.
Print Assumptions C139_history.
(** They succeed exactly if each removes a choice that is there at that time. *)
Theorem C139_defined : forall h l, N.of_nat (List.length l + List.length h) < 2 ^ 63 ->
  (in_range (List.length l) h <-> exists l', choice_run l h = Ret l').
Proof. exact history_defined. Qed.
Print Assumptions C139_defined.
(** Removing a choice that is not there is not refused: whatever the dialogue, and also for the
    index one behind the last, it is undefined behaviour. *)
Theorem C139_missing_refuted : forall l i, N.of_nat (List.length l) <= i -> remove_choice l i = Undef.
Proof. exact remove_bad. Qed.
Print Assumptions C139_missing_refuted.

Definition choice_a : choice := mkChoice [Coq.Init.Byte.x41] 1.
Definition choice_b : choice := mkChoice [Coq.Init.Byte.x42] 2.
Definition choice_c : choice := mkChoice [Coq.Init.Byte.x43] 3.
(** Three choices are added and the one in the middle is removed. *)
Example C139_example : choice_run [] [CAdd choice_a; CAdd choice_b; CAdd choice_c; CRemove 1] = Ret [choice_c; choice_a] /\
  in_range 0 [CAdd choice_a; CAdd choice_b; CAdd choice_c; CRemove 1] /\ choice_run [] [CAdd choice_a; CRemove 1] = Undef.
Proof. repeat split; cbn; lia. Qed.
Print Assumptions C139_example.
