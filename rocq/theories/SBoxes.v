(** Specification vocabulary for dates and boxes. *)

From Coq Require Import QArith.
From Verif Require Import MBase MStream SStream MBoxes.
Local Open Scope N_scope.

Definition vec3_ok (v : vec3) : Prop := f32 (v3x v) /\ f32 (v3y v) /\ f32 (v3z v).
Definition vec2_ok (v : vec2) : Prop := f32 (v2x v) /\ f32 (v2y v).

Definition date_ok (d : date) : Prop :=
  d_year d < 2 ^ 32 /\ d_month d < 2 ^ 16 /\ d_day d < 2 ^ 16 /\ d_hour d < 2 ^ 16 /\
  d_minute d < 2 ^ 16 /\ d_second d < 2 ^ 16.

Definition aabb_ok (b : aabb) : Prop := vec3_ok (bb_min b) /\ vec3_ok (bb_max b).

(** Every coordinate is a float and no box has more children than the count field holds. *)
Inductive obb_ok : obb -> Prop :=
| obb_ok_intro c a0 a1 a2 hw ch :
    vec3_ok c -> vec3_ok a0 -> vec3_ok a1 -> vec3_ok a2 -> vec3_ok hw ->
    len ch < 2 ^ 16 -> Forall obb_ok ch -> obb_ok (Obb c a0 a1 a2 hw ch).

(** The corners of an oriented box: center plus or minus each axis times its half width. *)
Definition is_sign (s : Q) : Prop := s = 1%Q \/ s = (-1)%Q.
Definition corner (o : qobb) (s0 s1 s2 : Q) : qvec :=
  let h := q_half o in
  mkQ3 (qx (q_center o) + s0 * qx h * qx (q_axis0 o) + s1 * qy h * qx (q_axis1 o) + s2 * qz h * qx (q_axis2 o))
       (qy (q_center o) + s0 * qx h * qy (q_axis0 o) + s1 * qy h * qy (q_axis1 o) + s2 * qz h * qy (q_axis2 o))
       (qz (q_center o) + s0 * qx h * qz (q_axis0 o) + s1 * qy h * qz (q_axis1 o) + s2 * qz h * qz (q_axis2 o)).
Definition box_contains (b : qvec * qvec) (p : qvec) : Prop :=
  (qx (fst b) <= qx p <= qx (snd b))%Q /\ (qy (fst b) <= qy p <= qy (snd b))%Q /\
  (qz (fst b) <= qz p <= qz (snd b))%Q.
(** Any box containing all corners contains the box. *)
Definition box_tight (o : qobb) (b : qvec * qvec) : Prop :=
  forall b', (forall s0 s1 s2, is_sign s0 -> is_sign s1 -> is_sign s2 -> box_contains b' (corner o s0 s1 s2)) ->
    (qx (fst b') <= qx (fst b) /\ qy (fst b') <= qy (fst b) /\ qz (fst b') <= qz (fst b) /\
     qx (snd b) <= qx (snd b') /\ qy (snd b) <= qy (snd b') /\ qz (snd b) <= qz (snd b'))%Q.
(** Some corner is positive in x, one in y, one in z. *)
Definition has_positive_corners (o : qobb) : Prop :=
  (exists s0 s1 s2, is_sign s0 /\ is_sign s1 /\ is_sign s2 /\ (flt_min <= qx (corner o s0 s1 s2))%Q) /\
  (exists s0 s1 s2, is_sign s0 /\ is_sign s1 /\ is_sign s2 /\ (flt_min <= qy (corner o s0 s1 s2))%Q) /\
  (exists s0 s1 s2, is_sign s0 /\ is_sign s1 /\ is_sign s2 /\ (flt_min <= qz (corner o s0 s1 s2))%Q).
(** The coordinates a float can hold. *)
Definition float_box : qvec * qvec :=
  (mkQ3 (- flt_max) (- flt_max) (- flt_max), mkQ3 flt_max flt_max flt_max).
(** A box of half width 1 around the origin, and one around (-10,-10,-10). *)
Definition unit_obb : qobb :=
  mkQobb (mkQ3 0 0 0) (mkQ3 1 0 0) (mkQ3 0 1 0) (mkQ3 0 0 1) (mkQ3 1 1 1).
Definition far_obb : qobb :=
  mkQobb (mkQ3 (-10) (-10) (-10)) (mkQ3 1 0 0) (mkQ3 0 1 0) (mkQ3 0 0 1) (mkQ3 1 1 1).
