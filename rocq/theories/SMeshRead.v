(** Specification vocabulary for mesh files this library does not write: materials with more
    members than it knows, objects that are no materials, and lightmaps with images of their own. *)

From Coq Require Import String.
From Verif Require Import MBase MStream SStream MBoxes SBoxes MTexture MText MClasses MArchive SArchive MVob MMaterial MMesh SMesh SFormat.
Local Open Scope N_scope.

(** A lightmap with an image of its own; [ow_file] is the bytes of the image. *)
Record own_lightmap := mkOwn {
  ow_origin : vec3; ow_a : vec3; ow_b : vec3; ow_file : bytes; ow_image : texture }.
Definition own_ok (x : own_lightmap) : Prop :=
  vec3_ok (ow_origin x) /\ vec3_ok (ow_a x) /\ vec3_ok (ow_b x) /\ reads (tex_load tex_new) (ow_file x) (ow_image x).
Definition vec3_bytes (v : vec3) : bytes := le_enc 4 (v3x v) ++ le_enc 4 (v3y v) ++ le_enc 4 (v3z v).
Definition own_bytes (x : own_lightmap) : bytes :=
  vec3_bytes (ow_origin x) ++ vec3_bytes (ow_a x) ++ vec3_bytes (ow_b x) ++ ow_file x.
(** The section of a mesh file *)
Definition own_section (l : list own_lightmap) : bytes := le_enc 4 (len l) ++ flat_map own_bytes l.

(** A material as a file of some game stores it, followed by members the library does not know. *)
Record stored_material := mkStored { sm_game : game; sm_material : material; sm_more : bytes }.
Definition stored_ok (x : stored_material) : Prop := mat_ok (sm_game x) (sm_material x).
Definition stored_size (x : stored_material) : N := mat_size (sm_game x) (sm_material x) + len (sm_more x).
Definition stored_bytes (i : N) (x : stored_material) : bytes :=
  (material_name (sm_material x) ++ [x00]) ++ mat_head (sm_game x) i (stored_size x) ++
  mat_body (sm_game x) (sm_material x) ++ sm_more x.
Fixpoint stored_all (i : N) (l : list stored_material) : bytes :=
  match l with [] => [] | x :: l' => stored_bytes i x ++ stored_all (i + 1) l' end.
(** The head of the section of materials: the head of an archive that says it has [objects]
    objects, and the number of materials. *)
Definition materials_head (e : wenv) (objects n : N) : bytes :=
  header_text ABinary e false ++ count_text 10 objects ++ le_enc 4 n.
(** The head of some object in a binary archive *)
Definition object_head (size version i : N) (name class : bytes) : bytes :=
  le_enc 4 size ++ le_enc 2 version ++ le_enc 4 i ++ (name ++ [x00]) ++ (class ++ [x00]).
