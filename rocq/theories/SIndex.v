(** What is said about indexing: the components of a value in the order of its constructor's
    or its names' order. *)

From Verif Require Import MBase MStream MArchive MMrm MIndex.
Local Open Scope N_scope.

Definition names2 (v : vec2) (i : N) : N := if i =? 0 then v2x v else v2y v.
Definition names3 (v : vec3) (i : N) : N := if i =? 0 then v3x v else if i =? 1 then v3y v else v3z v.
Definition names4 (v : vec4) (i : N) : N :=
  if i =? 0 then v4x v else if i =? 1 then v4y v else if i =? 2 then v4z v else v4w v.
Definition names_color (c : color) (i : N) : N :=
  if i =? 0 then c_r c else if i =? 1 then c_g c else if i =? 2 then c_b c else c_a c.
(** The three of a quaternion that an index reaches *)
Definition names_quat (q : quat) (i : N) : N := if i =? 0 then q_x q else if i =? 1 then q_y q else q_z q.

(** Every part of a colour is a byte. *)
Definition is_color (c : color) : Prop := c_r c < 256 /\ c_g c < 256 /\ c_b c < 256 /\ c_a c < 256.
(** [a] is in no channel below [b]. *)
Definition as_bright (a b : color) : Prop := c_r b <= c_r a /\ c_g b <= c_g a /\ c_b b <= c_b a /\ c_a b <= c_a a.
Definition white : color := mkColor 255 255 255 255.
