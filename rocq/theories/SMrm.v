(** Specification vocabulary for multi-resolution meshes and the files built on them: how the
    files are laid out. *)

From Verif Require Import MBase MStream SStream MBoxes SBoxes MTexture MText MClasses MArchive SArchive MVob MMaterial
  MMesh SMesh MModel SFormat MMrm.
Local Open Scope N_scope.

(* ------------------------------------------------------------------ *)
(** * The bytes of values *)

Definition v2_bytes (v : vec2) : bytes := le_enc 4 (v2x v) ++ le_enc 4 (v2y v).
Definition v3_bytes (v : vec3) : bytes := le_enc 4 (v3x v) ++ le_enc 4 (v3y v) ++ le_enc 4 (v3z v).
Definition box_bytes (b : aabb) : bytes := v3_bytes (bb_min b) ++ v3_bytes (bb_max b).
(** An oriented box: centre, three axes, half width, and the number of its children, which follow. *)
Fixpoint tree_bytes (o : obb) : bytes :=
  match o with
  | Obb c a0 a1 a2 hw ch =>
      v3_bytes c ++ v3_bytes a0 ++ v3_bytes a1 ++ v3_bytes a2 ++ v3_bytes hw ++ le_enc 2 (len ch) ++
      (fix go (l : list obb) := match l with [] => [] | x :: l' => tree_bytes x ++ go l' end) ch
  end.
Definition short_bytes (n : N) : bytes := le_enc 2 n.
Definition word_bytes (n : N) : bytes := le_enc 4 n.
Definition short3_bytes (t : short3) : bytes := le_enc 2 (s3a t) ++ le_enc 2 (s3b t) ++ le_enc 2 (s3c t).
Definition short2_bytes (t : short2) : bytes := le_enc 2 (s2a t) ++ le_enc 2 (s2b t).
(** A wedge has two unused bytes. *)
Definition wedge_bytes (x : wedge * N) : bytes :=
  v3_bytes (we_normal (fst x)) ++ v2_bytes (we_texture (fst x)) ++ le_enc 2 (we_index (fst x)) ++ le_enc 2 (snd x).
Definition mplane_bytes (p : mplane) : bytes := le_enc 4 (mp_distance p) ++ v3_bytes (mp_normal p).

(** What the members can hold. *)
Definition short3_ok (t : short3) : Prop := s3a t < 2 ^ 16 /\ s3b t < 2 ^ 16 /\ s3c t < 2 ^ 16.
Definition short2_ok (t : short2) : Prop := s2a t < 2 ^ 16 /\ s2b t < 2 ^ 16.
Definition wedge_ok (w : wedge) : Prop := vec3_ok (we_normal w) /\ vec2_ok (we_texture w) /\ we_index w < 2 ^ 16.
Definition mplane_ok (p : mplane) : Prop := f32 (mp_distance p) /\ vec3_ok (mp_normal p).
Definition sub_ok (s : submesh) : Prop :=
  Forall short3_ok (sm_triangles s) /\ Forall wedge_ok (sm_wedges s) /\ Forall f32 (sm_colors s) /\
  Forall (fun n => n < 2 ^ 16) (sm_plane_indices s) /\ Forall mplane_ok (sm_planes s) /\
  Forall short3_ok (sm_triangle_edges s) /\ Forall short2_ok (sm_edges s) /\ Forall f32 (sm_scores s) /\
  Forall (fun n => n < 2 ^ 16) (sm_wedge_map s).
Definition mrm_ok (g : game) (m : mrm) : Prop :=
  Forall vec3_ok (mr_positions m) /\ Forall vec3_ok (mr_normals m) /\ Forall sub_ok (mr_subs m) /\
  Forall (mat_ok g) (mr_materials m) /\ map sm_mat (mr_subs m) = mr_materials m /\ len (mr_subs m) < 2 ^ 8 /\
  aabb_ok (mr_bbox m) /\ obb_ok (mr_obb m).

(* ------------------------------------------------------------------ *)
(** * Multi-resolution meshes *)

(** [l] is stored in [content] where the entry of the table of contents says: offset, then
    number of elements. *)
Definition lists {A} (enc : A -> bytes) (content : bytes) (s : msection) (l : list A) : Prop :=
  fst s < 2 ^ 32 /\ snd s < 2 ^ 32 /\ snd s = len l /\
  exists a b, content = a ++ flat_map enc l ++ b /\ len a = fst s.
Definition sub_at (content : bytes) (m : submap) (s : submesh) : Prop :=
  lists short3_bytes content (ma_triangles m) (sm_triangles s) /\
  (exists pads, Forall (fun p => p < 2 ^ 16) pads /\ len pads = len (sm_wedges s) /\
     lists wedge_bytes content (ma_wedges m) (combine (sm_wedges s) pads)) /\
  lists word_bytes content (ma_colors m) (sm_colors s) /\
  lists short_bytes content (ma_plane_indices m) (sm_plane_indices s) /\
  lists mplane_bytes content (ma_planes m) (sm_planes s) /\
  lists short3_bytes content (ma_triangle_edges m) (sm_triangle_edges s) /\
  lists short2_bytes content (ma_edges m) (sm_edges s) /\
  lists word_bytes content (ma_scores m) (sm_scores s) /\
  lists short_bytes content (ma_wedge_map m) (sm_wedge_map s) /\
  fst (ma_updates m) < 2 ^ 32 /\ snd (ma_updates m) < 2 ^ 32.
Definition entry_bytes (s : msection) : bytes := le_enc 4 (fst s) ++ le_enc 4 (snd s).
Definition map_bytes (m : submap) : bytes :=
  flat_map entry_bytes
    [ma_triangles m; ma_wedges m; ma_colors m; ma_plane_indices m; ma_planes m; ma_wedge_map m; ma_updates m;
     ma_triangle_edges m; ma_edges m; ma_scores m].
(** The archive with the materials; [k] is the number of objects its head claims. *)
Definition mats_archive (g : game) (e : wenv) (k : N) (l : list material) : bytes :=
  header_text ABinary e false ++ count_text 10 k ++ mats_bytes g 0 l.
(** Versions with a byte for [alpha_test] *)
Definition has_alpha (version : N) : bool := (version =? 2309) || (version =? 2053).

(** [bs] is a section that stores the mesh [m]: the version, the content with all lists anywhere
    in it, the table of contents, the archive with the materials, the boxes, and 16 unused bytes.
    [alpha0] is the value of [alpha_test] for versions that do not store it.  If there are no
    materials the archive must not be followed by a line feed. *)
Definition mrm_section (g : game) (alpha0 : N) (m : mrm) (bs : bytes) : Prop :=
  exists version content vs ns maps e k alpha unused,
    version < 2 ^ 16 /\ len content < 2 ^ 32 /\ env_ok e /\ k < 1000000000 /\ len unused = 16 /\
    len (mats_archive g e k (mr_materials m)) < 2 ^ 32 /\
    lists v3_bytes content vs (mr_positions m) /\ lists v3_bytes content ns (mr_normals m) /\
    Forall2 (sub_at content) maps (mr_subs m) /\
    (if has_alpha version then exists b, alpha = [b] /\ mr_alpha m = (if beq b x00 then 0 else 1)
     else alpha = [] /\ mr_alpha m = alpha0) /\
    (mr_materials m = [] -> hd x00 (alpha ++ box_bytes (mr_bbox m)) <> x0a) /\
    bs = le_enc 2 version ++ le_enc 4 (len content) ++ content ++ le_enc 1 (len (mr_subs m)) ++
         entry_bytes vs ++ entry_bytes ns ++ flat_map map_bytes maps ++
         mats_archive g e k (mr_materials m) ++ alpha ++ box_bytes (mr_bbox m) ++ tree_bytes (mr_obb m) ++ unused.
(** A file with a mesh *)
Definition mrm_file (g : game) (alpha0 : N) (m : mrm) (f : bytes) : Prop :=
  exists sec rest, mrm_section g alpha0 m sec /\ len sec < 2 ^ 32 /\
    f = chunk_bytes (45312, sec) ++ chunk_bytes (45567, []) ++ rest.

(* ------------------------------------------------------------------ *)
(** * Soft-skin meshes *)

Definition weight_bytes (w : weight) : bytes := le_enc 4 (wg_weight w) ++ v3_bytes (wg_position w) ++ le_enc 1 (wg_node w).
Definition weights_bytes (l : list weight) : bytes := le_enc 4 (len l) ++ flat_map weight_bytes l.
Definition wnormal_bytes (n : wnormal) : bytes := v3_bytes (wn_normal n) ++ le_enc 4 (wn_index n).
Definition int_bytes (z : Z) : bytes := le_enc 4 (uint 32 z).
Definition weight_ok (w : weight) : Prop := f32 (wg_weight w) /\ vec3_ok (wg_position w) /\ wg_node w < 2 ^ 8.
Definition wnormal_ok (n : wnormal) : Prop := vec3_ok (wn_normal n) /\ wn_index n < 2 ^ 32.
(** There are weights for every position of the mesh, and a box for every node. *)
Definition skin_ok (g : game) (k : skin) : Prop :=
  mrm_ok g (sk_mesh k) /\
  len (sk_weights k) = len (mr_positions (sk_mesh k)) /\
  Forall (fun l => len l < 2 ^ 32 /\ Forall weight_ok l) (sk_weights k) /\
  len (sk_normals k) < 2 ^ 32 /\ Forall wnormal_ok (sk_normals k) /\
  len (sk_nodes k) < 2 ^ 16 /\ Forall (fun z => - 2 ^ 31 <= z < 2 ^ 31)%Z (sk_nodes k) /\
  len (sk_bboxes k) = len (sk_nodes k) /\ Forall obb_ok (sk_bboxes k).
(** The part about the skeleton; after the weights there may be [slack]. *)
Definition skin_part (k : skin) (slack : bytes) : bytes :=
  let ws := flat_map weights_bytes (sk_weights k) ++ slack in
  le_enc 4 (len ws) ++ ws ++
  le_enc 4 (len (sk_normals k)) ++ flat_map wnormal_bytes (sk_normals k) ++
  le_enc 2 (len (sk_nodes k)) ++ flat_map int_bytes (sk_nodes k) ++
  flat_map tree_bytes (sk_bboxes k).
Definition skin_file (g : game) (alpha0 : N) (k : skin) (f : bytes) : Prop :=
  exists head sec slack,
    mrm_section g alpha0 (sk_mesh k) sec /\ 4 <= len head < 2 ^ 32 /\ len sec < 2 ^ 32 /\
    len (skin_part k slack) < 2 ^ 32 /\
    f = chunk_bytes (57600, head) ++ chunk_bytes (45312, sec) ++ chunk_bytes (45567, skin_part k slack) ++
        chunk_bytes (57616, []).

(* ------------------------------------------------------------------ *)
(** * Model meshes *)

(** The members hold values of their types; the names are visible single lines. *)
Definition mm_fits (g : game) (m : modelmesh) : Prop :=
  Forall (skin_ok g) (mm_skins m) /\ len (mm_skins m) < 2 ^ 16 /\
  Forall (fun x => no_eol (fst x) /\ starts_visible (fst x) /\ mrm_ok g (snd x)) (mm_attachments m) /\
  len (mm_attachments m) < 2 ^ 16 /\ mm_checksum m < 2 ^ 32.
(** The attachments have different names, which are visible single lines. *)
Definition mm_ok (g : game) (m : modelmesh) : Prop :=
  Forall (skin_ok g) (mm_skins m) /\ len (mm_skins m) < 2 ^ 16 /\
  Forall (fun x => no_eol (fst x) /\ starts_visible (fst x) /\ mrm_ok g (snd x)) (mm_attachments m) /\
  NoDup (map fst (mm_attachments m)) /\ len (mm_attachments m) < 2 ^ 16 /\
  mm_checksum m < 2 ^ 32.
Definition names_bytes (m : modelmesh) : bytes :=
  le_enc 2 (len (mm_attachments m)) ++ flat_map (fun x => fst x ++ [x0a]) (mm_attachments m).
(** The chunks of the attachments, one for each, in the order of their names; and the soft-skin
    meshes, which follow the chunk that counts them. *)
Definition mm_file (g : game) (m : modelmesh) (f : bytes) : Prop :=
  exists head source secs skins rest,
    4 <= len head < 2 ^ 32 /\ len source < 2 ^ 32 /\ len (names_bytes m) < 2 ^ 32 /\
    Forall2 (fun x sec => mrm_section g 1 (snd x) sec /\ len sec < 2 ^ 32) (mm_attachments m) secs /\
    Forall2 (skin_file g 1) (mm_skins m) skins /\
    f = chunk_bytes (53248, head) ++ chunk_bytes (53264, source) ++ chunk_bytes (53280, names_bytes m) ++
        flat_map (fun sec => chunk_bytes (45312, sec)) secs ++
        chunk_bytes (53296, le_enc 4 (mm_checksum m) ++ le_enc 2 (len (mm_skins m))) ++ concat skins ++
        chunk_bytes (53312, []) ++ rest.

(* ------------------------------------------------------------------ *)
(** * The sizes of saved files *)

Definition total (f : submesh -> N) (l : list submesh) : N := fold_right (fun s n => f s + n) 0 l.
Definition sub_size (s : submesh) : N :=
  6 * len (sm_triangles s) + 24 * len (sm_wedges s) + 4 * len (sm_colors s) + 2 * len (sm_plane_indices s) +
  16 * len (sm_planes s) + 6 * len (sm_triangle_edges s) + 4 * len (sm_edges s) + 4 * len (sm_scores s) +
  2 * len (sm_wedge_map s).
(** A saved section: 6 bytes of header, the content, the table of contents, the archive with the
    materials, and what follows it. *)
Definition section_size (g : game) (e : wenv) (m : mrm) : N :=
  6 + 12 * len (mr_positions m) + 12 * len (mr_normals m) + total sub_size (mr_subs m) +
  17 + 80 * len (mr_subs m) + len (mats_archive g e (len (mr_subs m)) (map sm_mat (mr_subs m))) +
  (match g with G1 => 0 | G2 => 1 end) + 24 + len (tree_bytes (mr_obb m)) + 10.
Definition saved_size (g : game) (e : wenv) (m : mrm) : N := 6 + section_size g e m + 6.
(** A saved soft-skin mesh: four chunks. *)
Definition skin_size (g : game) (e : wenv) (k : skin) : N :=
  10 + (6 + section_size g e (sk_mesh k)) + (6 + len (skin_part k [])) + 6.
(** A saved model mesh: five chunks. *)
Definition mm_size (g : game) (e : wenv) (m : modelmesh) : N :=
  10 + (6 + len (names_bytes m)) +
  (6 + fold_right (fun x n => section_size g e (snd x) + n) 0 (mm_attachments m)) +
  (10 + fold_right (fun k n => skin_size g e k + n) 0 (mm_skins m)) + 6.
(** The trees of boxes can be written. *)
Definition mm_writable (m : modelmesh) : Prop :=
  Forall (fun x => obb_ok (mr_obb (snd x))) (mm_attachments m) /\
  Forall (fun k => obb_ok (mr_obb (sk_mesh k)) /\ Forall obb_ok (sk_bboxes k)) (mm_skins m).

(* ------------------------------------------------------------------ *)
(** * What loaded meshes are *)

(** A sub-mesh for each material, with that material *)
Definition mrm_consistent (m : mrm) : Prop := map sm_mat (mr_subs m) = mr_materials m.
(** A box for each node *)
Definition skin_consistent (k : skin) : Prop := mrm_consistent (sk_mesh k) /\ len (sk_bboxes k) = len (sk_nodes k).
Definition mm_consistent (m : modelmesh) : Prop :=
  Forall skin_consistent (mm_skins m) /\ Forall (fun x => mrm_consistent (snd x)) (mm_attachments m) /\
  NoDup (map fst (mm_attachments m)).
