(** What the choices of a dialogue should be (C139). *)

From Coq Require Import List.
From Verif Require Import MBase MChoice.
Import ListNotations.

(** The choice a player sees at a place, counted from 0. *)
Definition shown (l : list choice) (k : nat) : option choice := nth_error l k.

Definition adds (h : list choice_call) : nat := List.length (filter (fun k => match k with CAdd _ => true | CRemove _ => false end) h).
Definition removes (h : list choice_call) : nat := List.length (filter (fun k => match k with CAdd _ => false | CRemove _ => true end) h).

(** The choices that are shown were added by calls of the history, each by its own; the later call
    stands first. *)
Definition newest_first (h : list choice_call) (l : list choice) : Prop :=
  exists time : nat -> nat,
    (forall i j, (i < j)%nat -> (j < List.length l)%nat -> (time j < time i)%nat) /\
    (forall i c, shown l i = Some c -> nth_error h (time i) = Some (CAdd c)).

(** No call removes a choice that is not there: [n] choices are there before. *)
Fixpoint in_range (n : nat) (h : list choice_call) : Prop :=
  match h with
  | [] => True
  | CAdd _ :: r => in_range (S n) r
  | CRemove i :: r => (N.to_nat i < n)%nat /\ in_range (n - 1) r
  end.
