(** What errors are expected to say. *)

From Verif Require Import MBase MError.

(** [a] occurs in [l]. *)
Definition occurs (a l : bytes) : Prop := exists p q, l = p ++ a ++ q.
(** An error and those it was caused by. *)
Inductive origin : failure -> failure -> Prop :=
| origin_same : forall f, origin f f
| origin_next : forall t g c f, origin f g -> origin f (Caused t g c).
(** None of its texts has a NUL. *)
Definition clean (l : bytes) : Prop := ~ In x00 l.
Fixpoint clean_failure (f : failure) : Prop :=
  match f with
  | Other w => clean w
  | Parser t c => clean t /\ match c with Some c => clean c | None => True end
  | Caused t g c => clean t /\ clean_failure g /\ match c with Some c => clean c | None => True end
  end.
Definition type_of (f : failure) : option bytes := match f with Other _ => None | Parser t _ | Caused t _ _ => Some t end.
Definition context_of (f : failure) : option bytes := match f with Other _ => None | Parser _ c | Caused _ _ c => c end.
