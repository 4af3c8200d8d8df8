(** Specification vocabulary: exceptions of failed loads. *)

From Verif Require Import MBase MArchive.

(** Exceptions of the library itself (derived from zenkit::Error); the others are
    [std::out_of_range] and, as [OtherExn], other exceptions of the C++ library. *)
Definition own_error (e : exn) : Prop := match e with OutOfRange | OtherExn => False | _ => True end.
(** Whatever the reader throws is among these. *)
Definition throws_only {S A} (es : list exn) (m : M S A) : Prop := forall s e, m s = Throw e -> In e es.
