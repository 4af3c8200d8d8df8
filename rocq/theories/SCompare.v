(** When two values are the same (C140). *)

From Coq Require Import List ZArith.
From Verif Require Import MBase MStream MArchive MModel MMrm.
Local Open Scope Z_scope.

(** The parts of an IEEE-754 single precision number. *)
Definition negative (x : N) : bool := (2 ^ 31 <=? x)%N.
Definition exponent (x : N) : N := ((x / 2 ^ 23) mod 256)%N.
Definition fraction (x : N) : N := (x mod 2 ^ 23)%N.
Definition not_a_number (x : N) : Prop := exponent x = 255%N /\ fraction x <> 0%N.
Definition infinite (x : N) : Prop := exponent x = 255%N /\ fraction x = 0%N.
Definition finite (x : N) : Prop := exponent x <> 255%N.
(** The exact value of a finite one, as a multiple of 2^-149. *)
Definition value (x : N) : Z :=
  (if negative x then -1 else 1) *
  (if N.eqb (exponent x) 0 then Z.of_N (fraction x) else (Z.of_N (fraction x) + 2 ^ 23) * 2 ^ (Z.of_N (exponent x) - 1)).

(** The same number: infinity of the same sign or the same value. *)
Definition same_number (a b : N) : Prop :=
  (infinite a /\ infinite b /\ negative a = negative b) \/ (finite a /\ finite b /\ value a = value b).

Definition float_bits (x : N) : Prop := (x < 2 ^ 32)%N.
(** All coordinates are floats. *)
Definition glyph_floats (g : glyph) : list N := [v2x (gl_uv0 g); v2y (gl_uv0 g); v2x (gl_uv1 g); v2y (gl_uv1 g)].
Definition asample_floats (s : asample) : list N :=
  [v3x (as_position s); v3y (as_position s); v3z (as_position s); q_x (as_rotation s); q_y (as_rotation s); q_z (as_rotation s); q_w (as_rotation s)].
Definition floats (l : list N) : Prop := Forall float_bits l.
Definition same_numbers (a b : list N) : Prop := Forall2 same_number a b.
