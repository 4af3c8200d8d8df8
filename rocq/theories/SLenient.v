(** Specification vocabulary for the lenient exception handler. *)

From Verif Require Import MBase MStream MDaedalus MVm.
Local Open Scope N_scope.

(** The host has registered the library's lenient handler. *)
Definition lenient (h : host) : Prop := h_handler h = Some lenient_handler.
(** Instructions whose result is a value on the stack: the operators and the pushes. *)
Definition gives_value (op : N) : Prop :=
  In op [0; 1; 2; 3; 4; 5; 6; 7; 8; 11; 12; 13; 14; 15; 16; 17; 18; 30; 31; 32; 33; 64; 65; 67; 245].
