(** Specification vocabulary for floats written as text. *)

From Verif Require Import MBase MStream MText.
Local Open Scope N_scope.

(** The 32 bits of a float that is neither an infinity nor "not a number". *)
Definition finite (x : N) : bool := (x <? 2 ^ 32) && negb (f_exp x =? 255).
Definition finite_vec2 (v : vec2) : bool := finite (v2x v) && finite (v2y v).
(** The magnitude [m * 2 ^ e] of the float is [j / 64] for some integer [j]: both sides are given
    multiplied by 2^200, because [e] is -149 or more. *)
Definition sixty_fourths (x : N) : Prop :=
  let (m, e) := f_mag x in exists j, (Z.of_N m * 2 ^ (e + 200) = j * (2 ^ 200 / 64))%Z.
(** The magnitude of the float is 16 or more. *)
Definition at_least_16 (x : N) : Prop := let (m, e) := f_mag x in (16 * 2 ^ 200 <= Z.of_N m * 2 ^ (e + 200))%Z.
