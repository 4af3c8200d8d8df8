(** The comparison operators ([operator==]) of the values the library hands out. *)

From Verif Require Import MBase MStream MText MArchive MModel MMesh MMrm.
Local Open Scope N_scope.

(** The comparison of two floats in C++ on IEEE-754 hardware, on their bits: what is no number is
    equal to nothing, and the two zeros are equal. *)
Definition f_nan (x : N) : bool := (f_exp x =? 255) && negb (f_man x =? 0).
Definition f_zero (x : N) : bool := (f_exp x =? 0) && (f_man x =? 0).
Definition float_eq (a b : N) : bool := negb (f_nan a) && negb (f_nan b) && ((a =? b) || (f_zero a && f_zero b)).

(** Misc.hh:42-44 *)
Definition vec2_eq (a b : vec2) : bool := float_eq (v2x a) (v2x b) && float_eq (v2y a) (v2y b).
(** Misc.hh:78-80 *)
Definition vec3_eq (a b : vec3) : bool := float_eq (v3x a) (v3x b) && float_eq (v3y a) (v3y b) && float_eq (v3z a) (v3z b).
(** Misc.hh:176-178 ([Vec4], Misc.hh:114-116, is the same) *)
Definition quat_eq (a b : quat) : bool :=
  float_eq (q_x a) (q_x b) && float_eq (q_y a) (q_y b) && float_eq (q_z a) (q_z b) && float_eq (q_w a) (q_w b).
(** Misc.hh:213-215, 276-279: column by column, element by element. *)
Fixpoint mat_eq (a b : mat) : bool :=
  match a, b with
  | [], [] => true
  | x :: r, y :: s => float_eq x y && mat_eq r s
  | _, _ => false
  end.
(** Misc.hh:149-151 *)
Definition color_eq (a b : color) : bool := (c_r a =? c_r b) && (c_g a =? c_g b) && (c_b a =? c_b b) && (c_a a =? c_a b).
(** Font.cc:8-10 *)
Definition glyph_eq (a b : glyph) : bool := (gl_width a =? gl_width b) && vec2_eq (gl_uv0 a) (gl_uv0 b) && vec2_eq (gl_uv1 a) (gl_uv1 b).
(** ModelAnimation.cc:66-68 *)
Definition asample_eq (a b : asample) : bool := vec3_eq (as_position a) (as_position b) && quat_eq (as_rotation a) (as_rotation b).
(** Mesh.cc:26-31 *)
Definition pflags_eq (a b : pflags) : bool :=
  (pf_portal a =? pf_portal b) && Bool.eqb (pf_occluder a) (pf_occluder b) && Bool.eqb (pf_sector a) (pf_sector b) &&
  Bool.eqb (pf_relight a) (pf_relight b) && Bool.eqb (pf_outdoor a) (pf_outdoor b) && Bool.eqb (pf_ghost a) (pf_ghost b) &&
  Bool.eqb (pf_lit a) (pf_lit b) && Z.eqb (pf_sector_index a) (pf_sector_index b) && Bool.eqb (pf_lod a) (pf_lod b) &&
  (pf_axis a =? pf_axis b).
(** [std::string::operator==] *)
Fixpoint str_eq (a b : bytes) : bool :=
  match a, b with
  | [], [] => true
  | x :: r, y :: s => Byte.eqb x y && str_eq r s
  | _, _ => false
  end.
(** vobs/Trigger.hh:352-354: name and delay. *)
Definition target_eq (a b : bytes * N) : bool := str_eq (fst a) (fst b) && float_eq (snd a) (snd b).
