(** Specification vocabulary for meshes. *)

From Coq Require Import Sorted Permutation.
From Verif Require Import MBase MStream SStream MBoxes SBoxes MTexture MText MClasses MArchive SArchive MVob MMaterial MMesh SFloat.
Local Open Scope N_scope.

(* ------------------------------------------------------------------ *)
(** * Triangulation *)

(** One triangle: three vertex indices, three feature indices, and what it takes over from its
    polygon. *)
Record triangle := mkTriangle {
  t_vertices : N * N * N; t_features : N * N * N; t_material : N; t_lightmap : Z; t_flags : pflags }.
Definition triple (x : N * N * N) : list N := let '(a, b, c) := x in [a; b; c].
(** The five parallel lists in which a mesh keeps triangles. *)
Definition listed_triangles (l : list triangle) : tris :=
  mkTris (map t_material l) (map t_lightmap l) (flat_map (fun t => triple (t_features t)) l)
         (flat_map (fun t => triple (t_vertices t)) l) (map t_flags l).

(** The [k]-th corner of a polygon in a list of indices. *)
Definition corner_of (l : list N) (p : polygon) (k : N) : N := nth (N.to_nat (po_offset p + k)) l 0.
(** The triangles (0, k, k+1) of a polygon of [n] corners, for k = 1 ... n-2. *)
Definition fan_of (m : mesh) (p : polygon) : list triangle :=
  map (fun k => let k := N.of_nat k in
    mkTriangle
      (corner_of (me_vindices m) p 0, corner_of (me_vindices m) p k, corner_of (me_vindices m) p (k + 1))
      (corner_of (me_findices m) p 0, corner_of (me_findices m) p k, corner_of (me_findices m) p (k + 1))
      (po_material p) (po_lightmap p) (po_flags p))
    (seq 1 (N.to_nat (po_count p) - 2)).
(** A polygon that is drawn: at least three corners, and neither a portal, nor a ghost
    occluder, nor outdoor. *)
Definition drawn (p : polygon) : bool :=
  (3 <=? po_count p) && (pf_portal (po_flags p) =? 0) && negb (pf_ghost (po_flags p)) && negb (pf_outdoor (po_flags p)).
Fixpoint numbered {A} (i : N) (l : list A) : list (N * A) :=
  match l with [] => [] | x :: l' => (i, x) :: numbered (i + 1) l' end.
(** The triangles of the drawn polygons whose number is in the list [leaf]. *)
Definition leaf_triangles (m : mesh) (leaf : list N) : list triangle :=
  flat_map (fun q => if in_dec N.eq_dec (fst q) leaf then if drawn (snd q) then fan_of m (snd q) else [] else [])
           (numbered 0 (me_geometry m)).
(** Every corner of every polygon has an entry in both lists of indices. *)
Definition corners_exist (m : mesh) : Prop :=
  Forall (fun p => po_offset p + po_count p <= len (me_vindices m) /\
                   po_offset p + po_count p <= len (me_findices m)) (me_geometry m).

(* ------------------------------------------------------------------ *)
(** * What is saved comes back *)

(** The entries a material is saved as. *)
Definition entries_of (l : list (wop oid)) : list entry :=
  flat_map (fun o => match o with WEntry _ e => [e] | _ => [] end) l.
(** A material a file of game [g] can hold: its members have the values of their types, its
    strings are single lines, the texture scale and the animation direction are finite, and it
    has no members the game does not store.  For Gothic 2 the alpha function must be 0 or 1. *)
Definition mat_ok (g : game) (x : material) : Prop :=
  forallb (entry_ok ABinary) (entries_of (save_material (mkCfg g false false 0) x)) = true /\
  finite_vec2 (material_texture_scale x) = true /\
  finite_vec2 (material_texture_anim_map_dir x) = true /\
  match g with
  | G1 => material_detail_object_scale x = 0 /\ material_force_occluder x = false /\
          material_environment_mapping x = false /\ material_environment_mapping_strength x = 0 /\
          material_wave_mode x = 0 /\ material_wave_speed x = 0 /\ material_wave_max_amplitude x = 0 /\
          material_wave_grid_size x = 0 /\ material_ignore_sun x = false /\ material_alpha_func x = 0
  | G2 => material_alpha_func x <= 1
  end.

(** The bytes of a material in an archive: its name, the head of the object, and its entries;
    [i] is the number of the object. *)
Definition mat_body (g : game) (x : material) : bytes :=
  flat_map bin_bytes (entries_of (save_material (mkCfg g false false 0) x)).
Definition mat_head (g : game) (i size : N) : bytes :=
  le_enc 4 size ++ le_enc 2 (ver_material (mkCfg g false false 0)) ++ le_enc 4 i ++ (lit "%" ++ [x00]) ++ (lit "zCMaterial" ++ [x00]).
Definition mat_size (g : game) (x : material) : N := 23 + len (mat_body g x).
Definition mat_bytes (g : game) (i : N) (x : material) : bytes :=
  (material_name x ++ [x00]) ++ mat_head g i (mat_size g x) ++ mat_body g x.
(** Materials one after the other. *)
Fixpoint mats_bytes (g : game) (i : N) (l : list material) : bytes :=
  match l with [] => [] | x :: l' => mat_bytes g i x ++ mats_bytes g (i + 1) l' end.

(** A texture that some file holds. *)
Definition loadable (t : texture) : Prop := exists s s', tex_load tex_new s = Ret (t, s').

(** Flags a file of game [g] can hold. *)
Definition pflags_ok (g : game) (f : pflags) : Prop :=
  pf_portal f < 4 /\ (- 2 ^ 15 <= pf_sector_index f < 2 ^ 15)%Z /\
  match g with
  | G1 => pf_relight f = false /\ pf_lit f = false /\ pf_axis f < 2
  | G2 => pf_lod f = false /\ pf_axis f = 0
  end.
(** A polygon a file of game [g] can hold. *)
Definition polygon_ok (g : game) (p : polygon) : Prop :=
  po_material p < 2 ^ 16 /\ (- 2 ^ 15 <= po_lightmap p < 2 ^ 15)%Z /\ pflags_ok g (po_flags p) /\
  po_count p < 2 ^ 8 /\ f32 (po_distance p) /\ vec3_ok (po_normal p).
(** The corners of the polygons are one after the other in the lists of indices. *)
Fixpoint consecutive (off : N) (l : list polygon) : Prop :=
  match l with
  | [] => True
  | p :: l' => po_offset p = off /\ consecutive (off + po_count p) l'
  end.
Definition corner_count (l : list polygon) : N := fold_right (fun p a => po_count p + a) 0 l.
Definition feature_ok (f : feature) : Prop := vec2_ok (fe_texture f) /\ fe_light f < 2 ^ 32 /\ vec3_ok (fe_normal f).
Definition lightmap_ok (m : mesh) (l : lightmap) : Prop :=
  vec3_ok (lm_normal_a l) /\ vec3_ok (lm_normal_b l) /\ vec3_ok (lm_origin l) /\ lm_image l < len (me_images m).

(** A mesh a file of game [g] can hold.  Two conditions are not about the format: the number
    of materials must not be 10 modulo 256, and for Gothic 2 the triangles of the mesh must
    list the same vertices and features as its polygons. *)
Definition mesh_ok (g : game) (m : mesh) : Prop :=
  date_ok (me_date m) /\ no_eol (me_name m) /\ aabb_ok (me_bbox m) /\ obb_ok (me_obb m) /\
  Forall (mat_ok g) (me_materials m) /\ len (me_materials m) < 1000000000 /\ len (me_materials m) mod 256 <> 10 /\
  Forall vec3_ok (me_vertices m) /\ Forall feature_ok (me_features m) /\
  Forall loadable (me_images m) /\ Forall (lightmap_ok m) (me_lightmaps m) /\
  Forall (polygon_ok g) (me_geometry m) /\ consecutive 0 (me_geometry m) /\
  len (me_vindices m) = corner_count (me_geometry m) /\ len (me_findices m) = corner_count (me_geometry m) /\
  Forall (fun v => v < match g with G1 => 2 ^ 16 | G2 => 2 ^ 32 end) (me_vindices m) /\ Forall f32 (me_findices m) /\
  match g with
  | G1 => True
  | G2 => tr_vertices (me_tris m) = me_vindices m /\ tr_features (me_tris m) = me_findices m
  end.

(** The two meshes have the same lightmaps: the same vectors, images of the same content, and
    the same lightmaps share an image. *)
Definition same_lightmaps (m m' : mesh) : Prop :=
  Forall2 (fun l l' => lm_normal_a l = lm_normal_a l' /\ lm_normal_b l = lm_normal_b l' /\ lm_origin l = lm_origin l' /\
             exists t, nth_N (me_images m) (lm_image l) = Some t /\ nth_N (me_images m') (lm_image l') = Some t)
          (me_lightmaps m) (me_lightmaps m') /\
  forall i j a b a' b',
    nth_N (me_lightmaps m) i = Some a -> nth_N (me_lightmaps m) j = Some b ->
    nth_N (me_lightmaps m') i = Some a' -> nth_N (me_lightmaps m') j = Some b' ->
    (lm_image a = lm_image b <-> lm_image a' = lm_image b').
(** All that a file holds of the two meshes is the same. *)
Definition same_mesh (m m' : mesh) : Prop :=
  me_date m = me_date m' /\ me_name m = me_name m' /\ me_bbox m = me_bbox m' /\ me_obb m = me_obb m' /\
  me_materials m = me_materials m' /\ me_vertices m = me_vertices m' /\ me_features m = me_features m' /\
  me_geometry m = me_geometry m' /\ me_vindices m = me_vindices m' /\ me_findices m = me_findices m' /\
  same_lightmaps m m'.

(** A hash table lists its keys in some order. *)
Definition some_order (order : list N -> list N) : Prop := forall l, Permutation (order l) l.
