(** Property C140: comparing values. *)

From Coq Require Import List ZArith Lia.
From Verif Require Import MBase MStream SStream MArchive MModel SFormat MMesh MMrm MCompare SCompare LCompare.
Import ListNotations.
Local Open Scope N_scope.

(** ** C140 *)
(** Colors and polygon flags are equal exactly if they hold the same. *)
Theorem C140_colors : forall a b, color_eq a b = true <-> a = b.
Proof. exact color_eq_spec. Qed.
Print Assumptions C140_colors.
Theorem C140_flags : forall a b, pflags_eq a b = true <-> a = b.
Proof. exact pflags_eq_spec. Qed.
Print Assumptions C140_flags.
(** Glyphs, samples, matrices and trigger targets are equal exactly if what is no float is the same
    and the floats are the same numbers. *)
Theorem C140_glyphs : forall a b, floats (glyph_floats a) -> floats (glyph_floats b) ->
  (glyph_eq a b = true <-> gl_width a = gl_width b /\ same_numbers (glyph_floats a) (glyph_floats b)).
Proof. exact glyph_eq_spec. Qed.
Print Assumptions C140_glyphs.
Theorem C140_samples : forall a b, floats (asample_floats a) -> floats (asample_floats b) ->
  (asample_eq a b = true <-> same_numbers (asample_floats a) (asample_floats b)).
Proof. exact asample_eq_spec. Qed.
Print Assumptions C140_samples.
Theorem C140_matrices : forall a b, floats a -> floats b -> (mat_eq a b = true <-> same_numbers a b).
Proof. exact mat_eq_spec. Qed.
Print Assumptions C140_matrices.
Theorem C140_targets : forall a b, float_bits (snd a) -> float_bits (snd b) -> (target_eq a b = true <-> fst a = fst b /\ same_number (snd a) (snd b)).
Proof. exact target_eq_spec. Qed.
Print Assumptions C140_targets.
(** The order of the two does not matter, and what is equal to the same is equal. *)
Theorem C140_symmetric : (forall a b, glyph_eq a b = glyph_eq b a) /\ (forall a b, asample_eq a b = asample_eq b a) /\ (forall a b, mat_eq a b = mat_eq b a).
Proof. exact (conj glyph_sym (conj asample_sym mat_sym)). Qed.
Print Assumptions C140_symmetric.
Theorem C140_transitive : (forall a b c, glyph_eq a b = true -> glyph_eq b c = true -> glyph_eq a c = true) /\
  (forall a b c, asample_eq a b = true -> asample_eq b c = true -> asample_eq a c = true) /\
  (forall a b c, mat_eq a b = true -> mat_eq b c = true -> mat_eq a c = true).
Proof. exact (conj glyph_trans (conj asample_trans mat_trans)). Qed.
Print Assumptions C140_transitive.
(** A value is equal to itself exactly if all its floats are numbers. *)
Theorem C140_itself_partial : (forall a, glyph_eq a a = true <-> Forall (fun x => ~ not_a_number x) (glyph_floats a)) /\
  (forall a, asample_eq a a = true <-> Forall (fun x => ~ not_a_number x) (asample_floats a)) /\
  (forall a, mat_eq a a = true <-> Forall (fun x => ~ not_a_number x) a).
Proof. exact (conj glyph_self (conj asample_self mat_self)). Qed.
Print Assumptions C140_itself_partial.

(** A font can be saved and loaded without a change and hold a glyph that is not equal to itself. *)
Definition nan_font : font := mkFont [Coq.Init.Byte.x46] 18 [mkGlyph 7 (mkV2 0 2143289344) (mkV2 2 3)].
Theorem C140_itself_refuted : exists f g, font_ok f /\ resaved (font_save f) font_load = Ret f /\ fo_glyphs f = [g] /\ glyph_eq g g = false.
Proof.
  exists nan_font, (mkGlyph 7 (mkV2 0 2143289344) (mkV2 2 3)). split; [|split; [vm_compute; reflexivity | split; reflexivity]].
  split; [repeat constructor; discriminate|]. split; [reflexivity|]. split; [reflexivity|]. constructor; [|constructor]. repeat split; reflexivity.
Qed.
Print Assumptions C140_itself_refuted.
(** Two glyphs can be equal and be stored as different bytes: the two zeros. *)
Theorem C140_stored_refuted : exists a b, floats (glyph_floats a) /\ floats (glyph_floats b) /\ glyph_eq a b = true /\ glyph_floats a <> glyph_floats b.
Proof.
  exists (mkGlyph 7 (mkV2 0 1) (mkV2 2 3)), (mkGlyph 7 (mkV2 2147483648 1) (mkV2 2 3)).
  split; [repeat constructor|]. split; [repeat constructor|]. split; [reflexivity | discriminate].
Qed.
Print Assumptions C140_stored_refuted.

(** 1.5 and 1.5; 0.5 and 2.0; infinity. *)
Example C140_example : same_number 1069547520 1069547520 /\ ~ same_number 1056964608 1073741824 /\ same_number 2139095040 2139095040 /\
  ~ same_number 2139095040 4286578688 /\ same_number 0 2147483648 /\ ~ same_number 2143289344 2143289344.
Proof.
  repeat match goal with |- _ /\ _ => split end;
    rewrite <- float_eq_spec by reflexivity; vm_compute; solve [reflexivity | discriminate].
Qed.
Print Assumptions C140_example.
