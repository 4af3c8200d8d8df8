(** Properties of meshes: C47, C48, C92, C93. *)

From Coq Require Import Lia ZifyN ZifyBool ZifyNat Sorted Permutation.
From Verif Require Import MBase MStream SStream MBoxes SBoxes MTexture STexture MText MClasses MArchive SArchive MVob
  MMaterial MMesh SMesh SFormat MBsp SBsp.
From Verif Require Import LBase LStream LFormat LMesh LMeshIO.
Local Open Scope N_scope.

(** For showing that concrete values meet the conditions. *)
Ltac plain :=
  repeat match goal with
  | |- _ <> _ => discriminate
  | |- _ -> False => discriminate
  | |- _ < _ => reflexivity
  | |- _ <= _ => discriminate
  | |- _ = _ => reflexivity
  | |- _ /\ _ => split
  | |- ?P => let P' := eval hnf in P in progress change P'
  | |- _ => constructor
  end.

Definition demo_env : wenv := mkEnv (lit "2024-02-29 12:00:00") (lit "zenkit").
Definition same_as_listed (l : list N) : list N := l.
Lemma listed_order : some_order same_as_listed.
Proof. intros l. apply Permutation_refl. Qed.

(** ** C48 *)
(** Loading with a sorted list of leaf polygons gives the mesh that loading without gives, and its
    triangles are those of the drawn polygons of the list, in order.  (Offsets into the lists of
    indices are 32-bit.)  In particular no index is outside the lists. *)
Theorem C48_triangles : forall wide leaf s m s', Sorted N.le leaf ->
  mesh_load mesh_new wide s = Ret (m, s') -> len (me_vindices m) < 2 ^ 32 ->
  mesh_load_leaves mesh_new leaf wide s = Ret (with_tris (listed_triangles (leaf_triangles m leaf)) m, s').
Proof. exact mesh_leaves_ok. Qed.
Print Assumptions C48_triangles.

(** A mesh of a quad, a portal, an outdoor polygon, a ghost occluder and a polygon with two corners. *)
Definition demo_flags (portal : N) (outdoor ghost : bool) : pflags := mkFlags portal true false false outdoor ghost false (-5) false 0.
Definition demo_poly (n off : N) (fl : pflags) : polygon := mkPoly 1 (-1) fl n off 77 (mkV3 1 2 3).
Definition demo_mesh (vs fs : list N) (ts : tris) : mesh :=
  mkMesh (mkDate 2024 2 29 12 0 1) (lit "LEVEL") (mkAabb (mkV3 1 2 3) (mkV3 4 5 6))
    (Obb (mkV3 1 0 0) (mkV3 2 0 0) (mkV3 3 0 0) (mkV3 4 0 0) (mkV3 5 0 0) [])
    [] [mkV3 1 2 3; mkV3 4 5 6; mkV3 7 8 9] [mkFeature (mkV2 1 2) 3 (mkV3 4 5 6)]
    [mkTex R5G6B5 (tx_palette tex_new) 1 1 1 1 1 7 [[x01; x02]]; mkTex R5G6B5 (tx_palette tex_new) 1 1 1 1 1 8 [[x03; x04]]]
    [mkLightmap 1 (mkV3 1 0 0) (mkV3 0 1 0) (mkV3 0 0 1); mkLightmap 0 zero3 zero3 zero3; mkLightmap 1 zero3 zero3 zero3]
    [demo_poly 4 0 (demo_flags 0 false false); demo_poly 3 4 (demo_flags 2 false false); demo_poly 3 7 (demo_flags 0 true false);
     demo_poly 3 10 (demo_flags 0 false true); demo_poly 2 13 (demo_flags 0 false false)]
    vs fs ts.
Definition demo_indices : list N := [10; 11; 12; 13; 0; 1; 2; 3; 4; 5; 6; 7; 8; 0; 1].
Definition demo_findices : list N := [20; 21; 22; 23; 0; 1; 2; 3; 4; 5; 6; 7; 8; 0; 1].
Definition demo : mesh := demo_mesh demo_indices demo_findices no_tris.
Example C48_nonvacuous :
  leaf_triangles demo [0; 1; 2; 3; 4] =
    [mkTriangle (10, 11, 12) (20, 21, 22) 1 (-1) (demo_flags 0 false false);
     mkTriangle (10, 12, 13) (20, 22, 23) 1 (-1) (demo_flags 0 false false)] /\
  leaf_triangles demo [1; 2] = [] /\
  exists b m, file_of (mesh_save same_as_listed demo_env demo_env G1 demo) = Ret b /\
    of_file (mesh_load mesh_new false) b = Ret m /\ me_geometry m = me_geometry demo /\ me_vindices m = demo_indices.
Proof.
  split; [reflexivity|]. split; [reflexivity|]. do 2 eexists. split; [vm_compute; reflexivity|].
  split; [vm_compute; reflexivity | split; reflexivity].
Qed.

(** ** C47 *)
(** A mesh that a file can hold comes back, if its file is smaller than 4 GB: in whatever order
    the table of images lists them, whatever the times at which the header of the materials is
    written, and into whatever mesh without polygons and lightmaps (C92).  [mesh_ok] says what
    a file can hold and what the writer needs beyond that. *)
Theorem C47_meshes_partial : forall order e1 e2 g m wide before, some_order order -> env_ok e2 ->
  len (we_date e1) = len (we_date e2) -> len (we_user e1) = len (we_user e2) ->
  mesh_ok g m -> (g = G1 -> wide = false) ->
  me_images before = [] -> me_lightmaps before = [] -> me_geometry before = [] -> me_vindices before = [] -> me_findices before = [] ->
  exists bs, writes (mesh_save order e1 e2 g m) bs /\
    (len bs < 2 ^ 32 -> exists m', reads (mesh_load before wide) bs m' /\ same_mesh m m').
Proof. exact mesh_round_trip. Qed.
Print Assumptions C47_meshes_partial.

Definition stone : material := mk_material (lit "STONE") 3 (mkColor 1 2 3 4) 5 (lit "STONE.TGA") (mkV2 0 0) 0 0 (mkV2 0 0)
    true false false [] 0 false false 0 0 0 0 0 false 0 (mkV2 1 2).
Lemma demo_ok g : mesh_ok g (with_materials [stone; stone]
   (demo_mesh demo_indices demo_findices (mkTris [] [] demo_findices demo_indices []))).
Proof.
  unfold mesh_ok. repeat match goal with |- _ /\ _ => split end.
  all: try solve [plain].
  - repeat constructor; destruct g; vm_compute; repeat split; discriminate.
  - repeat constructor;
      [exists (mkR (lit "ZTEX" ++ le_enc 4 0 ++ le_enc 4 R5G6B5 ++ le_enc 4 1 ++ le_enc 4 1 ++ le_enc 4 1 ++ le_enc 4 1 ++ le_enc 4 1 ++ le_enc 4 7 ++ [x01; x02]) 0)
      |exists (mkR (lit "ZTEX" ++ le_enc 4 0 ++ le_enc 4 R5G6B5 ++ le_enc 4 1 ++ le_enc 4 1 ++ le_enc 4 1 ++ le_enc 4 1 ++ le_enc 4 1 ++ le_enc 4 8 ++ [x03; x04]) 0)];
      eexists; vm_compute; reflexivity.
  - cbn [me_geometry with_materials demo_mesh]. repeat apply Forall_cons; try apply Forall_nil; destruct g; solve [plain].
  - cbn [me_vindices with_materials demo_mesh]. repeat apply Forall_cons; try apply Forall_nil; destruct g; reflexivity.
  - destruct g; [exact I | split; reflexivity].
Qed.
Example C47_nonvacuous : forall g, exists b, mesh_ok g (with_materials [stone; stone]
     (demo_mesh demo_indices demo_findices (mkTris [] [] demo_findices demo_indices []))) /\ env_ok demo_env /\
  file_of (mesh_save same_as_listed demo_env demo_env g (with_materials [stone; stone]
     (demo_mesh demo_indices demo_findices (mkTris [] [] demo_findices demo_indices [])))) = Ret b /\ len b < 2 ^ 32.
Proof.
  intros g. destruct g; (eexists; split; [apply demo_ok|]; split; [split; repeat constructor; discriminate|];
    split; [vm_compute; reflexivity | reflexivity]).
Qed.

Definition tiny (vs fs : list N) (ts : tris) (fl : pflags) (n : N) : mesh :=
  with_geometry [mkPoly 0 0 fl n 0 0 zero3] vs fs (with_tris ts mesh_new).
Definition plain_flags (axis : N) : pflags := mkFlags 0 false false false false false false 0 false axis.
(** For Gothic 2 the corners of the polygons are taken from the list of triangles: a quad comes
    back with wrong corners, *)
Theorem C47_corners_refuted : exists m m', triangulate [0] (tiny [1; 2; 3; 4] [5; 6; 7; 8] no_tris (plain_flags 0) 4) = Ret m /\
  resaved (mesh_save same_as_listed demo_env demo_env G2 m) (mesh_load mesh_new false) = Ret m' /\
  me_vindices m = [1; 2; 3; 4] /\ me_vindices m' = [1; 2; 3; 1].
Proof.
  do 2 eexists. split; [vm_compute; reflexivity|]. split; [vm_compute; reflexivity|]. split; reflexivity.
Qed.
Print Assumptions C47_corners_refuted.
(** and saving a mesh that was loaded without triangulating it is undefined behaviour. *)
Theorem C47_untriangulated_refuted : exists b m, of_file (mesh_load mesh_new false) b = Ret m /\
  file_of (mesh_save same_as_listed demo_env demo_env G1 m) = Ret b /\
  file_of (mesh_save same_as_listed demo_env demo_env G2 m) = Undef.
Proof.
  exists (match file_of (mesh_save same_as_listed demo_env demo_env G1 (tiny [1; 2; 3] [5; 6; 7] no_tris (plain_flags 0) 3)) with Ret b => b | _ => [] end).
  eexists. split; [vm_compute; reflexivity|]. split; [vm_compute; reflexivity | vm_compute; reflexivity].
Qed.
Print Assumptions C47_untriangulated_refuted.
(** For Gothic 1 a normal axis of 2 is lost. *)
Theorem C47_axis_refuted : exists m m',
  resaved (mesh_save same_as_listed demo_env demo_env G1 m) (mesh_load mesh_new false) = Ret m' /\
  map (fun p => pf_axis (po_flags p)) (me_geometry m) = [2] /\ map (fun p => pf_axis (po_flags p)) (me_geometry m') = [0].
Proof.
  exists (tiny [] [] no_tris (plain_flags 2) 0). eexists. split; [vm_compute; reflexivity|]. split; reflexivity.
Qed.
Print Assumptions C47_axis_refuted.
(** Ten materials are lost: the first byte of their number is taken for the end of a line. *)
Definition dust : material := mk_material [] 0 (mkColor 0 0 0 0) 0 [] (mkV2 0 0) 0 0 (mkV2 0 0)
    false false false [] 0 false false 0 0 0 0 0 false 0 (mkV2 0 0).
Theorem C47_materials_refuted : exists m m', mat_ok G1 dust /\ me_materials m = repeat dust 10 /\
  resaved (mesh_save same_as_listed demo_env demo_env G1 m) (mesh_load mesh_new false) = Ret m' /\ me_materials m' = [].
Proof.
  exists (with_materials (repeat dust 10) mesh_new). eexists.
  split; [vm_compute; repeat split; discriminate|]. split; [reflexivity|]. split; [vm_compute; reflexivity | reflexivity].
Qed.
Print Assumptions C47_materials_refuted.

(** ** C92 *)
(** Loading a mesh or a BSP tree a second time into the same object adds to what it held: the
    polygons of the mesh then have the corners of the first ... *)
Theorem C92_reload_refuted :
  (exists b1 b2 m1 m2 m, of_file (mesh_load mesh_new false) b1 = Ret m1 /\ of_file (mesh_load mesh_new false) b2 = Ret m2 /\
     of_file (mesh_load m1 false) b2 = Ret m /\ map (fun p => po_offset p) (me_geometry m) = [0] /\
     me_vindices m2 = [4; 5; 6] /\ me_vindices m = [1; 2; 3; 4; 5; 6]) /\
  (exists b t1 t, of_file (bsp_load (bsp_new 0) version_g1) b = Ret t1 /\ of_file (bsp_load t1 version_g1) b = Ret t /\
     len (bt_nodes t1) = 1 /\ len (bt_nodes t) = 2).
Proof.
  split.
  - exists (match file_of (mesh_save same_as_listed demo_env demo_env G1 (tiny [1; 2; 3] [5; 6; 7] no_tris (plain_flags 0) 3)) with Ret b => b | _ => [] end),
      (match file_of (mesh_save same_as_listed demo_env demo_env G1 (tiny [4; 5; 6] [5; 6; 7] no_tris (plain_flags 0) 3)) with Ret b => b | _ => [] end).
    do 3 eexists. split; [vm_compute; reflexivity|]. split; [vm_compute; reflexivity|]. split; [vm_compute; reflexivity|].
    split; [reflexivity|]. split; reflexivity.
  - exists (chunk_bytes (B_TREE, le_enc 4 1 ++ le_enc 4 1 ++ zeros 32) ++ chunk_bytes (B_END, [x42])).
    do 2 eexists. split; [vm_compute; reflexivity|]. split; [vm_compute; reflexivity|]. split; reflexivity.
Qed.
Print Assumptions C92_reload_refuted.

(** ** C93 *)
(** A lightmap that names an image the file does not have is undefined behaviour. *)
Theorem C93_lightmaps_refuted : forall wide, of_file (mesh_load mesh_new wide)
  (chunk_bytes (M_LIGHTMAPS_SHARED, le_enc 4 0 ++ le_enc 4 1 ++ zeros 40)) = Undef.
Proof. intros wide. destruct wide; vm_compute; reflexivity. Qed.
Print Assumptions C93_lightmaps_refuted.
(** Reading any section but the materials, from any bytes, ends; *)
Theorem C93_sections_end_partial : forall wide ty version m, ty <> M_MATERIAL -> ends (mesh_chunk wide ty (version, m)).
Proof. exact (fun wide ty version m => section_ends wide ty (version, m)). Qed.
Print Assumptions C93_sections_end_partial.
(** and the indices triangulation uses always exist (C48). *)
Example C93_nonvacuous : M_LIGHTMAPS_SHARED <> M_MATERIAL /\
  exists m, of_file (mesh_load mesh_new false) (chunk_bytes (M_VERTICES, le_enc 4 2 ++ zeros 5)) = Ret m /\ len (me_vertices m) = 2.
Proof. split; [discriminate|]. eexists. split; [vm_compute; reflexivity | reflexivity]. Qed.
