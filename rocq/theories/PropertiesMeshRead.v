(** Properties of mesh files this library does not write: C123. *)

From Coq Require Import String Lia.
From Verif Require Import MBase MStream SStream MBoxes SBoxes MTexture STexture MText MClasses MArchive SArchive MVob MMaterial MMesh SMesh SFormat SMeshRead MBsp.
From Verif Require Import LBase LStream LTexture LMeshRead.
Local Open Scope N_scope.

(** ** C123 *)
(** Materials are read whatever members follow those the library knows, each by the version of
    its game; [objects] is the number of objects the head of the archive states. *)
Theorem C123_materials_partial : forall wide e objects l, env_ok e -> objects < 1000000000 -> Forall stored_ok l -> len l mod 256 <> 10 ->
  len (materials_head e objects (len l) ++ stored_all 0 l) < 2 ^ 32 - 100 ->
  of_file (mesh_load mesh_new wide)
    (chunk_bytes (M_MATERIAL, materials_head e objects (len l) ++ stored_all 0 l) ++ chunk_bytes (M_END, []))
  = Ret (with_materials (map sm_material l) mesh_new).
Proof. exact materials_loaded. Qed.
Print Assumptions C123_materials_partial.

(** A file that has an object of another class among its materials is refused, wherever it is
    and whatever follows. *)
Theorem C123_other_objects_partial : forall wide m e objects n l name size ver i oname cls rest after,
  env_ok e -> objects < 1000000000 -> Forall stored_ok l -> len l < n -> n mod 256 <> 10 -> n < 2 ^ 32 ->
  no_eol name -> size < 2 ^ 32 -> ver < 2 ^ 16 -> i < 2 ^ 32 -> no_eol oname -> no_eol cls -> cls <> lit "zCMaterial" ->
  let section := materials_head e objects n ++ stored_all 0 l ++ (name ++ [x00]) ++ object_head size ver i oname cls ++ rest in
  len section < 2 ^ 32 -> len (chunk_bytes (M_MATERIAL, section) ++ after) < max_size ->
  of_file (mesh_load m wide) (chunk_bytes (M_MATERIAL, section) ++ after) = Throw ParserError.
Proof. exact materials_refused. Qed.
Print Assumptions C123_other_objects_partial.

(** Lightmaps that are stored each with its image come back with their own images, and no two
    of them share one. *)
Theorem C123_own_images : forall wide l, Forall own_ok l -> len (own_section l) < 2 ^ 32 - 100 ->
  exists m, of_file (mesh_load mesh_new wide) (chunk_bytes (M_LIGHTMAPS, own_section l) ++ chunk_bytes (M_END, [])) = Ret m /\
    Forall2 (fun x k => lm_origin k = ow_origin x /\ lm_normal_a k = ow_a x /\ lm_normal_b k = ow_b x /\
                        nth_N (me_images m) (lm_image k) = Some (ow_image x)) l (me_lightmaps m) /\
    NoDup (map lm_image (me_lightmaps m)).
Proof. exact own_lightmaps_loaded. Qed.
Print Assumptions C123_own_images.

(** Ten materials are not read, for the reason of C47: the first byte of their number is taken
    for the end of a line. *)
Definition read_env : wenv := mkEnv (lit "2024-02-29 12:00:00") (lit "zenkit").
Definition unnamed : stored_material :=
  mkStored G1 (mk_material [] 0 (mkColor 0 0 0 0) 0 [] (mkV2 0 0) 0 0 (mkV2 0 0)
    false false false [] 0 false false 0 0 0 0 0 false 0 (mkV2 0 0)) [].
Definition wood (g : game) (more : bytes) : stored_material :=
  mkStored g (mk_material (lit "WOOD") 3 (mkColor 1 2 3 4) 5 (lit "WOOD.TGA") (mkV2 0 0) 0 0 (mkV2 0 0)
    true false false [] 0 false false 0 0 0 0 0 false 0 (mkV2 1 2)) more.
Lemma wood_ok g more : stored_ok (wood g more).
Proof. unfold stored_ok. cbn [sm_game sm_material wood]. destruct g; vm_compute; repeat split; discriminate. Qed.
Theorem C123_ten_refuted : Forall stored_ok (repeat unnamed 10) /\
  exists m, of_file (mesh_load mesh_new false)
    (chunk_bytes (M_MATERIAL, materials_head read_env 10 10 ++ stored_all 0 (repeat unnamed 10)) ++ chunk_bytes (M_END, [])) = Ret m /\
    me_materials m = [].
Proof.
  split.
  - apply Forall_forall. intros x Hx. apply repeat_spec in Hx. subst x. vm_compute. repeat split; discriminate.
  - eexists. split; [vm_compute; reflexivity | reflexivity].
Qed.
Print Assumptions C123_ten_refuted.

Definition read_image : texture := mkTex R5G6B5 (tx_palette tex_new) 1 1 1 1 1 7 [[x01; x02]].
Definition read_own (k : N) : own_lightmap :=
  mkOwn (mkV3 k 2 3) (mkV3 1 0 0) (mkV3 0 1 0)
    (lit "ZTEX" ++ le_enc 4 0 ++ le_enc 4 R5G6B5 ++ le_enc 4 1 ++ le_enc 4 1 ++ le_enc 4 1 ++ le_enc 4 1 ++ le_enc 4 1 ++ le_enc 4 7 ++ [x01; x02])
    read_image.
(** Materials of both games, one with three bytes the library does not know; two lightmaps; a
    file with a foreign object after the first material. *)
Example C123_nonvacuous :
  Forall stored_ok [wood G1 [x01; x02; x03]; wood G2 []] /\ env_ok read_env /\
  len (materials_head read_env 2 2 ++ stored_all 0 [wood G1 [x01; x02; x03]; wood G2 []]) < 2 ^ 32 - 100 /\
  of_file (mesh_load mesh_new false)
    (chunk_bytes (M_MATERIAL, materials_head read_env 2 2 ++ stored_all 0 [wood G1 [x01; x02; x03]; wood G2 []]) ++ chunk_bytes (M_END, []))
  = Ret (with_materials [sm_material (wood G1 []); sm_material (wood G2 [])] mesh_new) /\
  Forall own_ok [read_own 1; read_own 2] /\ len (own_section [read_own 1; read_own 2]) < 2 ^ 32 - 100 /\
  no_eol (lit "zCVob") /\ lit "zCVob" <> lit "zCMaterial".
Proof.
  split. { constructor; [apply wood_ok|]. constructor; [apply wood_ok | constructor]. }
  split; [split; repeat constructor; discriminate|]. split; [reflexivity|]. split; [vm_compute; reflexivity|].
  split.
  { assert (T : LTexture.tex_ok read_image).
    { eapply (tex_load_ok (mkR (ow_file (read_own 1)) 0)). vm_compute. reflexivity. }
    constructor; [|constructor; [|constructor]].
    all: (repeat split; try reflexivity; exact (tex_reads tex_new read_image T eq_refl)). }
  split; [reflexivity|]. split; [repeat constructor; discriminate | discriminate].
Qed.

(** ** C92 *)
(** A mesh of Gothic 2 that is loaded into one that held polygons of Gothic 1 has flags its file
    does not hold. *)
Definition one_polygon (fl : pflags) : mesh :=
  with_geometry [mkPoly 0 0 fl 0 0 0 zero3] [] [] mesh_new.
Theorem C92_flags_refuted : exists b1 b2 m1 m2 m,
  of_file (mesh_load mesh_new false) b1 = Ret m1 /\ of_file (mesh_load mesh_new false) b2 = Ret m2 /\ of_file (mesh_load m1 false) b2 = Ret m /\
  map (fun p => (pf_lod (po_flags p), pf_axis (po_flags p))) (me_geometry m2) = [(false, 0)] /\
  map (fun p => (pf_lod (po_flags p), pf_axis (po_flags p))) (me_geometry m) = [(true, 1)].
Proof.
  exists (match file_of (mesh_save (fun l => l) read_env read_env G1 (one_polygon (mkFlags 0 false false false false false false 0 true 1))) with Ret b => b | _ => [] end),
    (match file_of (mesh_save (fun l => l) read_env read_env G2 (one_polygon (mkFlags 0 false false false false false false 0 true 1))) with Ret b => b | _ => [] end).
  do 3 eexists. split; [vm_compute; reflexivity|]. split; [vm_compute; reflexivity|]. split; [vm_compute; reflexivity|].
  split; reflexivity.
Qed.
Print Assumptions C92_flags_refuted.
(** A BSP tree that is loaded again lists the polygons of its leaves three times. *)
Theorem C92_leaf_polygons_refuted : exists b t1 t,
  of_file (bsp_load (bsp_new 0) version_g1) b = Ret t1 /\ of_file (bsp_load t1 version_g1) b = Ret t /\
  bt_leaf_polygons t1 = [7; 8] /\ bt_leaf_polygons t = [7; 7; 7; 8; 8; 8].
Proof.
  exists (chunk_bytes (B_POLYGONS, le_enc 4 2 ++ le_enc 4 8 ++ le_enc 4 7) ++
          chunk_bytes (B_TREE, le_enc 4 1 ++ le_enc 4 1 ++ zeros 28 ++ le_enc 4 2) ++ chunk_bytes (B_END, [x42])).
  do 2 eexists. split; [vm_compute; reflexivity|]. split; [vm_compute; reflexivity|]. split; reflexivity.
Qed.
Print Assumptions C92_leaf_polygons_refuted.
