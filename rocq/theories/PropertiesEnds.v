(** How loading meshes and models ends, whatever the bytes are: C93 and C95. *)

From Coq Require Import String Lia.
From Verif Require Import MBase MStream SStream MBoxes MTexture MText MClasses MArchive SArchive MVob MMaterial MMesh MModel MMrm.
From Verif Require Import SFormat SArchEnd SMeshEnd LMeshEndX.
From Verif Require PropertiesMesh PropertiesMrm.
Local Open Scope N_scope.

(** ** C93: loading a mesh is safe.  The file is loaded from any position. *)
(** It ends, in files without the word that marks archives of text; *)
Theorem C93_ends_partial : forall b p m wide, len b < 2 ^ 62 -> p <= len b -> lacks (lit "ASCII") b ->
  mesh_load m wide (mkR b p) <> Fuel.
Proof. exact mesh_ends. Qed.
Print Assumptions C93_ends_partial.
(** and it returns a mesh or throws if there is no mark of safe binary archives either, and the
    lightmaps name textures that exist. *)
Theorem C93_safe_partial : forall b p m wide, len b < 2 ^ 62 -> p <= len b ->
  lacks (lit "ASCII") b -> lacks (lit "BIN_SAFE") b -> ~ wrong_lightmap b ->
  answers (mesh_load m wide (mkR b p)).
Proof. exact mesh_safe. Qed.
Print Assumptions C93_safe_partial.
(** A saved mesh with three lightmaps, and its first half. *)
Definition demo_file : bytes := Eval vm_compute in
  match file_of (mesh_save PropertiesMesh.same_as_listed PropertiesMesh.demo_env PropertiesMesh.demo_env G1 PropertiesMesh.demo) with
  | Ret b => b | _ => [] end.
Example C93_ends_example :
  lacks (lit "ASCII") demo_file /\ lacks (lit "BIN_SAFE") demo_file /\ ~ wrong_lightmap demo_file /\
  (exists q, chunk_at demo_file 45094 q) /\ ~ wrong_lightmap (take 200 demo_file).
Proof.
  split; [apply occurs_lacks; vm_compute; reflexivity|]. split; [apply occurs_lacks; vm_compute; reflexivity|].
  split; [apply right_lightmaps; vm_compute; reflexivity|]. split.
  { do 2 eexists. split; [|reflexivity]. instantiate (1 := ltac:(let x := eval vm_compute in (hd 0 (places (le_enc 2 45094) demo_file 0)) in exact x)).
    vm_compute. reflexivity. }
  apply right_lightmaps. vm_compute. reflexivity.
Qed.
(** A mesh whose material is in an archive of text that stops before the material's end is read for
    ever: at the end of the file no number of turns is enough for the search for the end. *)
Theorem C93_text_refuted : exists b, len b < 600 /\
  (forall m wide, mesh_load m wide (mkR b 0) = Fuel) /\
  (forall n, skip_loop n AAscii 1 (mkRar (mkR b (len b)) []) = Fuel).
Proof. exact text_mesh_loops. Qed.
Print Assumptions C93_text_refuted.

(** ** C95: loading multi-resolution meshes, soft skins, morph meshes, model meshes and models. *)
Theorem C95_meshes_end_partial : forall b p, len b < 2 ^ 32 -> p <= len b -> lacks (lit "ASCII") b ->
  (forall m, mrm_load m (mkR b p) <> Fuel) /\ (forall k, skin_load k (mkR b p) <> Fuel) /\
  (forall m, morph_load m (mkR b p) <> Fuel) /\ (forall m, mm_load m (mkR b p) <> Fuel) /\
  (forall h m, model_load h m (mkR b p) <> Fuel).
Proof. exact model_ends. Qed.
Print Assumptions C95_meshes_end_partial.
Theorem C95_meshes_safe_partial : forall b p, len b < 2 ^ 32 -> p <= len b ->
  lacks (lit "ASCII") b -> lacks (lit "BIN_SAFE") b ->
  (forall m, answers (mrm_load m (mkR b p))) /\ (forall k, answers (skin_load k (mkR b p))) /\
  (forall m, answers (morph_load m (mkR b p))).
Proof. exact model_safe. Qed.
Print Assumptions C95_meshes_safe_partial.
(** A model mesh with two attachments and a soft skin. *)
Example C95_ends_example :
  lacks (lit "ASCII") PropertiesMrm.demo_mm_bytes /\ lacks (lit "BIN_SAFE") PropertiesMrm.demo_mm_bytes /\
  lacks (lit "BIN_SAFE") (take 300 PropertiesMrm.demo_skin_bytes).
Proof. repeat split; apply occurs_lacks; vm_compute; reflexivity. Qed.
Theorem C95_text_refuted : exists b, len b < 600 /\
  (forall m, mrm_load m (mkR b 0) = Fuel) /\
  (forall n, skip_loop n AAscii 1 (mkRar (mkR b (len b)) []) = Fuel).
Proof. exact text_mrm_loops. Qed.
Print Assumptions C95_text_refuted.
