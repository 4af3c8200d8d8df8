(** Lemmas for C143 and C144. *)

From Coq Require Import Lia.
From Verif Require Import MBase MStream MArchive MMrm MIndex SIndex LBase.
Local Open Scope N_scope.

Lemma two : forall i, i < 2 -> i = 0 \/ i = 1. Proof. lia. Qed.
Lemma three : forall i, i < 3 -> i = 0 \/ i = 1 \/ i = 2. Proof. lia. Qed.
Lemma four : forall i, i < 4 -> i = 0 \/ i = 1 \/ i = 2 \/ i = 3. Proof. lia. Qed.

Ltac each := intuition (subst; reflexivity).

Lemma vectors_at :
  (forall v i, i < 2 -> vec2_at v i = Ret (names2 v i)) /\ (forall v i, i < 3 -> vec3_at v i = Ret (names3 v i)) /\
  (forall v i, i < 4 -> vec4_at v i = Ret (names4 v i)) /\ (forall c i, i < 4 -> color_at c i = Ret (names_color c i)).
Proof.
  split; [intros v i I; apply two in I; each |]. split; [intros v i I; apply three in I; each |].
  split; intros v i I; apply four in I; each.
Qed.

Ltac other I J ti tj := apply ti in I; apply tj in J; intuition (subst; try reflexivity; try contradiction).

Lemma put2 : forall v i x, i < 2 -> exists v', vec2_put v i x = Ret v' /\ forall j, j < 2 -> names2 v' j = if j =? i then x else names2 v j.
Proof. intros v i x I. apply two in I. destruct I as [-> | ->]; eexists; (split; [reflexivity |]); intros j J; apply two in J; each. Qed.
Lemma put3 : forall v i x, i < 3 -> exists v', vec3_put v i x = Ret v' /\ forall j, j < 3 -> names3 v' j = if j =? i then x else names3 v j.
Proof. intros v i x I. apply three in I. destruct I as [-> | [-> | ->]]; eexists; (split; [reflexivity |]); intros j J; apply three in J; each. Qed.
Lemma put4 : forall v i x, i < 4 -> exists v', vec4_put v i x = Ret v' /\ forall j, j < 4 -> names4 v' j = if j =? i then x else names4 v j.
Proof. intros v i x I. apply four in I. destruct I as [-> | [-> | [-> | ->]]]; eexists; (split; [reflexivity |]); intros j J; apply four in J; each. Qed.
Lemma putc : forall v i x, i < 4 -> exists v', color_put v i x = Ret v' /\ forall j, j < 4 -> names_color v' j = if j =? i then x else names_color v j.
Proof. intros v i x I. apply four in I. destruct I as [-> | [-> | [-> | ->]]]; eexists; (split; [reflexivity |]); intros j J; apply four in J; each. Qed.
Lemma putq : forall q i x, i < 3 -> exists q', quat_put q i x = Ret q' /\ q_w q' = q_w q /\
  forall j, j < 3 -> names_quat q' j = if j =? i then x else names_quat q j.
Proof. intros q i x I. apply three in I. destruct I as [-> | [-> | ->]]; eexists; (split; [reflexivity |]); (split; [reflexivity |]); intros j J; apply three in J; each. Qed.

Lemma vectors_put :
  (forall v i x, i < 2 -> exists v', vec2_put v i x = Ret v' /\ forall j, j < 2 -> names2 v' j = if j =? i then x else names2 v j) /\
  (forall v i x, i < 3 -> exists v', vec3_put v i x = Ret v' /\ forall j, j < 3 -> names3 v' j = if j =? i then x else names3 v j) /\
  (forall v i x, i < 4 -> exists v', vec4_put v i x = Ret v' /\ forall j, j < 4 -> names4 v' j = if j =? i then x else names4 v j) /\
  (forall c i x, i < 4 -> exists c', color_put c i x = Ret c' /\ forall j, j < 4 -> names_color c' j = if j =? i then x else names_color c j).
Proof. exact (conj put2 (conj put3 (conj put4 putc))). Qed.

Lemma quat_three : forall q i, i < 3 -> quat_at q i = Ret (names_quat q i).
Proof. intros q i I. apply three in I. each. Qed.

Lemma quat_past : forall q i, 3 <= i -> quat_at q i = Undef /\ forall x, quat_put q i x = Undef.
Proof.
  intros q i I. unfold quat_at, quat_put, cell_at, cell_put, quat_pointer.
  rewrite nth_N_None by (unfold quat_fields, len; cbn [length]; lia). split; [reflexivity |]. intros x.
  replace (1 + i <? len (quat_fields q)) with false; [reflexivity |].
  symmetry. apply N.ltb_ge. unfold quat_fields, len. cbn [length]. lia.
Qed.

Lemma quat_w_lost : forall x y z w w' i, quat_at (mkQuat x y z w) i = quat_at (mkQuat x y z w') i.
Proof.
  intros. destruct (N.lt_ge_cases i 3) as [I | I].
  - rewrite !quat_three by exact I. reflexivity.
  - rewrite (proj1 (quat_past _ _ I)), (proj1 (quat_past (mkQuat x y z w') _ I)). reflexivity.
Qed.

Lemma mats_at : forall m c r,
  (length m = 9%nat -> c < 3 -> r < 3 -> mat3_at m c r = Ret (nth (N.to_nat (3 * c + r)) m 0)) /\
  (length m = 16%nat -> c < 4 -> r < 4 -> mat4_at m c r = Ret (nth (N.to_nat (4 * c + r)) m 0)).
Proof.
  intros m c r. split; intros L C R.
  - do 9 (destruct m as [| ? m]; [discriminate |]). destruct m; [| discriminate].
    apply three in C. apply three in R.
    destruct C as [-> | [-> | ->]]; destruct R as [-> | [-> | ->]]; reflexivity.
  - do 16 (destruct m as [| ? m]; [discriminate |]). destruct m; [| discriminate].
    apply four in C. apply four in R.
    destruct C as [-> | [-> | [-> | ->]]]; destruct R as [-> | [-> | [-> | ->]]]; reflexivity.
Qed.

Lemma mats_transposed : forall m c r,
  (length m = 9%nat -> c < 3 -> r < 3 -> mat3_at (transpose3 m) c r = mat3_at m r c) /\
  (length m = 16%nat -> c < 4 -> r < 4 -> mat4_at (transpose4 m) c r = mat4_at m r c).
Proof.
  intros m c r. split; intros L C R.
  - do 9 (destruct m as [| ? m]; [discriminate |]). destruct m; [| discriminate].
    apply three in C. apply three in R.
    destruct C as [-> | [-> | ->]]; destruct R as [-> | [-> | ->]]; reflexivity.
  - do 16 (destruct m as [| ? m]; [discriminate |]). destruct m; [| discriminate].
    apply four in C. apply four in R.
    destruct C as [-> | [-> | [-> | ->]]]; destruct R as [-> | [-> | [-> | ->]]]; reflexivity.
Qed.

Lemma u8_small : forall n, n < 256 -> u8 n = n.
Proof. intros. apply N.mod_small. exact H. Qed.
Lemma u8_below : forall n, u8 n < 256.
Proof. intros. apply N.mod_lt. discriminate. Qed.
Lemma u8_mul_l : forall a b, u8 (u8 a * b) = u8 (a * b).
Proof. intros. unfold u8. apply N.mul_mod_idemp_l. discriminate. Qed.
Lemma u8_mul_r : forall a b, u8 (a * u8 b) = u8 (a * b).
Proof. intros. unfold u8. apply N.mul_mod_idemp_r. discriminate. Qed.

Lemma color_laws : forall a b c,
  is_color (color_mul a b) /\ color_mul a b = color_mul b a /\
  color_mul (color_mul a b) c = color_mul a (color_mul b c) /\
  (forall k, color_scale a k = color_mul a (mkColor k k k k)) /\
  (is_color a -> color_scale a 1 = a).
Proof.
  intros a b c. split; [repeat apply conj; apply u8_below |].
  split; [unfold color_mul; f_equal; f_equal; lia |].
  split; [unfold color_mul; cbn [c_r c_g c_b c_a]; rewrite !u8_mul_l, !u8_mul_r, <- !N.mul_assoc; reflexivity |].
  split; [reflexivity |]. intros (R & G & B & A). destruct a; unfold color_scale; cbn in *.
  rewrite !N.mul_1_r, !u8_small by assumption. reflexivity.
Qed.

Lemma color_exact : forall a k, c_r a * k < 256 -> c_g a * k < 256 -> c_b a * k < 256 -> c_a a * k < 256 ->
  color_scale a k = mkColor (c_r a * k) (c_g a * k) (c_b a * k) (c_a a * k).
Proof. intros. unfold color_scale. rewrite !u8_small by assumption. reflexivity. Qed.

(** Doubling a channel of at least 128 makes it darker. *)
Lemma doubling : forall c, is_color c -> 128 <= c_r c -> ~ as_bright (color_scale c 2) c.
Proof.
  intros c (R & _) P (Q & _). unfold color_scale in Q. cbn [c_r] in Q. unfold u8 in Q.
  replace (c_r c * 2) with ((c_r c * 2 - 256) + 1 * 2 ^ 8) in Q by (change (2 ^ 8) with 256; lia).
  rewrite N.mod_add in Q by discriminate.
  rewrite N.mod_small in Q by (change (2 ^ 8) with 256; lia). lia.
Qed.

(** White is not neutral: a channel below 256 times 255 is its negation. *)
Lemma by_white : forall c, is_color c -> 0 < c_r c -> c_r (color_mul c white) = 256 - c_r c.
Proof.
  intros c (R & _) P. unfold color_mul, white. cbn [c_r]. unfold u8.
  replace (c_r c * 255) with ((256 - c_r c) + (c_r c - 1) * 2 ^ 8) by (change (2 ^ 8) with 256; lia).
  rewrite N.mod_add by discriminate. apply N.mod_small. change (2 ^ 8) with 256. lia.
Qed.
