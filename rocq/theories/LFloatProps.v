(** Floats in text archives. *)

From Coq Require Import String Lia.
From Verif Require Import MBase MStream MBoxes MText MClasses MArchive SStream SArchive SFloat LBase LFloatText LArchProps.
Local Open Scope N_scope.

Lemma float_entry_ok x : finite x = true -> at_least_16 x \/ sixty_fourths x -> entry_ok AAscii (EFloat x) = true.
Proof.
  intros F C. pose proof (six_decimals x F C) as S. unfold entry_ok, entry_fit, text_ok. cbn [entry_wf]. unfold b32.
  rewrite S, N.eqb_refl. unfold finite in F. apply andb_prop in F as [F _]. rewrite F. reflexivity.
Qed.
Lemma float_entries e save l :
  Forall (fun x => key_ok AAscii (fst x) = true /\ finite (snd x) = true /\ (at_least_16 (snd x) \/ sixty_fourths (snd x))) l ->
  entries_fit AAscii e (map (fun x => (fst x, EFloat (snd x))) l) ->
  entries_come_back AAscii e save (map (fun x => (fst x, EFloat (snd x))) l).
Proof.
  intros H. apply ascii_entries. apply Forall_forall. intros y Hy. apply in_map_iff in Hy as (x & <- & Hx).
  rewrite Forall_forall in H. destruct (H x Hx) as (A & B & C). cbn [fst snd]. split; [exact A | apply float_entry_ok; assumption].
Qed.
Lemma float_entries_not : exists e save, finite 1098907637 = true /\ ~ entries_come_back AAscii e save [(lit "x", EFloat 1098907637)].
Proof.
  exists no_env, false. split; [vm_compute; reflexivity|]. one.
Qed.
