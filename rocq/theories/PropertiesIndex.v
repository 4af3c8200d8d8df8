(** Properties C143 and C144: components by index, products of colours. *)

From Coq Require Import Lia.
From Verif Require Import MBase MStream MArchive MMrm MIndex SIndex LIndex.
Local Open Scope N_scope.

(** ** C143 *)
(** Vectors and colours: index [i] is the component with the [i]-th name, *)
Theorem C143_vectors :
  (forall v i, i < 2 -> vec2_at v i = Ret (names2 v i)) /\ (forall v i, i < 3 -> vec3_at v i = Ret (names3 v i)) /\
  (forall v i, i < 4 -> vec4_at v i = Ret (names4 v i)) /\ (forall c i, i < 4 -> color_at c i = Ret (names_color c i)).
Proof. exact vectors_at. Qed.
Print Assumptions C143_vectors.
(** and storing there changes that component and no other. *)
Theorem C143_vectors_store :
  (forall v i x, i < 2 -> exists v', vec2_put v i x = Ret v' /\ forall j, j < 2 -> names2 v' j = if j =? i then x else names2 v j) /\
  (forall v i x, i < 3 -> exists v', vec3_put v i x = Ret v' /\ forall j, j < 3 -> names3 v' j = if j =? i then x else names3 v j) /\
  (forall v i x, i < 4 -> exists v', vec4_put v i x = Ret v' /\ forall j, j < 4 -> names4 v' j = if j =? i then x else names4 v j) /\
  (forall c i x, i < 4 -> exists c', color_put c i x = Ret c' /\ forall j, j < 4 -> names_color c' j = if j =? i then x else names_color c j).
Proof. exact vectors_put. Qed.
Print Assumptions C143_vectors_store.
(** Matrices: [m[c][r]] is the element of that column and row, *)
Theorem C143_matrices : forall m c r,
  (length m = 9%nat -> c < 3 -> r < 3 -> mat3_at m c r = Ret (nth (N.to_nat (3 * c + r)) m 0)) /\
  (length m = 16%nat -> c < 4 -> r < 4 -> mat4_at m c r = Ret (nth (N.to_nat (4 * c + r)) m 0)).
Proof. exact mats_at. Qed.
Print Assumptions C143_matrices.
(** and transposing exchanges the two indices. *)
Theorem C143_transposed : forall m c r,
  (length m = 9%nat -> c < 3 -> r < 3 -> mat3_at (transpose3 m) c r = mat3_at m r c) /\
  (length m = 16%nat -> c < 4 -> r < 4 -> mat4_at (transpose4 m) c r = mat4_at m r c).
Proof. exact mats_transposed. Qed.
Print Assumptions C143_transposed.
(** Quaternions: the indices 0 to 2 are x, y and z, for reading and for storing; *)
Theorem C143_quaternions_partial :
  (forall q i, i < 3 -> quat_at q i = Ret (names_quat q i)) /\
  (forall q i x, i < 3 -> exists q', quat_put q i x = Ret q' /\ q_w q' = q_w q /\
     forall j, j < 3 -> names_quat q' j = if j =? i then x else names_quat q j).
Proof. exact (conj quat_three putq). Qed.
Print Assumptions C143_quaternions_partial.
(** index 3 of every quaternion, which has four components, is beyond the object, *)
Theorem C143_fourth_refuted : forall q, quat_at q 3 = Undef /\ forall x, quat_put q 3 x = Undef.
Proof. exact (fun q => quat_past q 3 (N.le_refl 3)). Qed.
Print Assumptions C143_fourth_refuted.
(** and no index reaches w: quaternions that differ in it are the same by index. *)
Theorem C143_w_refuted : forall x y z w w' i, quat_at (mkQuat x y z w) i = quat_at (mkQuat x y z w') i.
Proof. exact quat_w_lost. Qed.
Print Assumptions C143_w_refuted.
Example C143_example :
  vec3_at (mkV3 10 20 30) 2 = Ret 30 /\ quat_at (mkQuat 10 20 30 40) 0 = Ret 10 /\ quat_at (mkQuat 10 20 30 40) 3 = Undef /\
  color_put (mkColor 1 2 3 4) 3 9 = Ret (mkColor 1 2 3 9) /\ vec3_at (mkV3 10 20 30) 3 = Undef /\
  mat3_at [1; 2; 3; 4; 5; 6; 7; 8; 9] 1 2 = Ret 6 /\ mat3_at (transpose3 [1; 2; 3; 4; 5; 6; 7; 8; 9]) 1 2 = Ret 8.
Proof. vm_compute. repeat (split; [reflexivity |]). reflexivity. Qed.

(** ** C144 *)
(** The products of colours are colours, commute and associate; scaling is the product with a grey,
    and scaling by one changes nothing. *)
Theorem C144_laws : forall a b c,
  is_color (color_mul a b) /\ color_mul a b = color_mul b a /\
  color_mul (color_mul a b) c = color_mul a (color_mul b c) /\
  (forall k, color_scale a k = color_mul a (mkColor k k k k)) /\
  (is_color a -> color_scale a 1 = a).
Proof. exact color_laws. Qed.
Print Assumptions C144_laws.
(** While no channel overflows each is multiplied. *)
Theorem C144_exact_partial : forall a k, c_r a * k < 256 -> c_g a * k < 256 -> c_b a * k < 256 -> c_a a * k < 256 ->
  color_scale a k = mkColor (c_r a * k) (c_g a * k) (c_b a * k) (c_a a * k).
Proof. exact color_exact. Qed.
Print Assumptions C144_exact_partial.
(** Otherwise it wraps: doubling any colour with a red of 128 or more makes the red darker, *)
Theorem C144_brighter_refuted : forall c, is_color c -> 128 <= c_r c -> ~ as_bright (color_scale c 2) c.
Proof. exact doubling. Qed.
Print Assumptions C144_brighter_refuted.
(** and white is not neutral: it turns every red but 0 into 256 minus it. *)
Theorem C144_white_refuted : forall c, is_color c -> 0 < c_r c -> c_r (color_mul c white) = 256 - c_r c.
Proof. exact by_white. Qed.
Print Assumptions C144_white_refuted.
Example C144_example : is_color (mkColor 200 100 3 255) /\ color_scale (mkColor 200 100 3 255) 2 = mkColor 144 200 6 254 /\
  color_mul white white = mkColor 1 1 1 1 /\ color_scale (mkColor 20 10 3 25) 10 = mkColor 200 100 30 250.
Proof. split; [unfold is_color; cbn; lia |]. vm_compute. repeat (split; [reflexivity |]). reflexivity. Qed.
