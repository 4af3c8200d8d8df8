(** Code that only reads: it neither asks for the position or the end nor changes the position. *)

From Verif Require Import MBase MStream SStream MSource.
Local Open Scope N_scope.

Fixpoint only_reads {A} (p : rprog A) : Prop :=
  match p with
  | PEnd _ => True
  | POp (ORead n) k => n < 2 ^ 63 /\ forall r, only_reads (k r)
  | POp _ _ => False
  end.
