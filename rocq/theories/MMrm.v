(** Model of src/MultiResolutionMesh.cc, src/SoftSkinMesh.cc, src/ModelMesh.cc, src/Model.cc,
    src/MorphMesh.cc and src/ModelAnimation.cc.

    Simplified: memory exhaustion (counts read from the file are used for allocations) and log
    output.  A material that is loaded again is like a new one, see MMesh.v. *)

From Coq Require Import String.
From Verif Require Import MBase MStream MBoxes MTexture MText MClasses MArchive MVob MMaterial MMesh MModel.
Local Open Scope N_scope.
Local Open Scope m_scope.

(* ------------------------------------------------------------------ *)
(** * Multi-resolution meshes *)

(** MultiResolutionMesh.hh:14-20 [MeshTriangle], [MeshTriangleEdge] *)
Record short3 := mkS3 { s3a : N; s3b : N; s3c : N }.
(** MultiResolutionMesh.hh:22-24 [MeshEdge] *)
Record short2 := mkS2 { s2a : N; s2b : N }.
(** MultiResolutionMesh.hh:26-30 [MeshWedge] *)
Record wedge := mkWedge { we_normal : vec3; we_texture : vec2; we_index : N }.
(** MultiResolutionMesh.hh:32-35 [MeshPlane] *)
Record mplane := mkMPlane { mp_distance : N; mp_normal : vec3 }.
(** MultiResolutionMesh.hh:59-75 [SubMesh] *)
Record submesh := mkSub {
  sm_mat : material; sm_triangles : list short3; sm_wedges : list wedge; sm_colors : list N;
  sm_plane_indices : list N; sm_planes : list mplane; sm_triangle_edges : list short3;
  sm_edges : list short2; sm_scores : list N; sm_wedge_map : list N }.
(** MultiResolutionMesh.hh:81-107 [MultiResolutionMesh]; [alpha_test] is a byte. *)
Record mrm := mkMrm {
  mr_positions : list vec3; mr_normals : list vec3; mr_subs : list submesh; mr_materials : list material;
  mr_alpha : N; mr_bbox : aabb; mr_obb : obb }.
Definition box_new : aabb := mkAabb zero3 zero3.
Definition obb_new : obb := Obb zero3 zero3 zero3 zero3 zero3 [].
(** A new mesh *)
Definition mrm_new : mrm := mkMrm [] [] [] [] 1 box_new obb_new.

(** MultiResolutionMesh.hh:38-41 [MeshSection]: an offset and a size. *)
Definition msection : Type := N * N.
(** One of the lines 48 to 57; [off] is [content_offset]. *)
Definition section_load (off : N) : rd msection :=
  let* o := read_uint in
  let* n := read_uint in
  ret (u64 (o + off), n).
(** MultiResolutionMesh.hh:45-56 [SubMeshSection], in the order of its members. *)
Record submap := mkMap {
  ma_triangles : msection; ma_wedges : msection; ma_colors : msection; ma_plane_indices : msection;
  ma_planes : msection; ma_wedge_map : msection; ma_updates : msection; ma_triangle_edges : msection;
  ma_edges : msection; ma_scores : msection }.
(** MultiResolutionMesh.cc:47-58 *)
Definition map_load (off : N) : rd submap :=
  let* a := section_load off in let* b := section_load off in let* c := section_load off in
  let* d := section_load off in let* e := section_load off in let* f := section_load off in
  let* g := section_load off in let* h := section_load off in let* i := section_load off in
  let* j := section_load off in
  ret (mkMap a b c d e f g h i j).

(** The element readers of MultiResolutionMesh.cc:191-265. *)
Definition short3_load : rd short3 :=
  let* a := read_ushort in let* b := read_ushort in let* c := read_ushort in ret (mkS3 a b c).
Definition short2_load : rd short2 := let* a := read_ushort in let* b := read_ushort in ret (mkS2 a b).
Definition wedge_load : rd wedge :=
  let* n := read_vec3 in let* t := read_vec2 in let* i := read_ushort in let* _ := read_ushort in ret (mkWedge n t i).
Definition mplane_load : rd mplane := let* d := read_float in let* n := read_vec3 in ret (mkMPlane d n).
(** A seek to a section, and its elements: MultiResolutionMesh.cc:193-197 and the like. *)
Definition at_section {A} (s : msection) (r : rd A) : rd (list A) :=
  rd_seek (sint 64 (fst s)) BEG ;; repM (N.to_nat (snd s)) r.
(** MultiResolutionMesh.cc:191-265, with line 97 *)
Definition sub_load (m : submap) (mat : material) : rd submesh :=
  let* t := at_section (ma_triangles m) short3_load in
  let* w := at_section (ma_wedges m) wedge_load in
  let* c := at_section (ma_colors m) read_float in
  let* pi := at_section (ma_plane_indices m) read_ushort in
  let* p := at_section (ma_planes m) mplane_load in
  let* te := at_section (ma_triangle_edges m) short3_load in
  let* e := at_section (ma_edges m) short2_load in
  let* s := at_section (ma_scores m) read_float in
  let* wm := at_section (ma_wedge_map m) read_ushort in
  ret (mkSub mat t w c pi p te e s wm).
(** MultiResolutionMesh.cc:95-98 *)
Definition subs_load (l : list (submap * material)) : rd (list submesh) :=
  mapM (fun x => sub_load (fst x) (snd x)) l.

(** MultiResolutionMesh.cc:62-66 *)
Definition mrm_mats_load (n : N) : rd (list material) :=
  let* h := ar_open in
  fun r =>
    match runp (Ob := unit) (fmt_prims (ah_format h)) (fun _ => 0%Z) undef (p_rep (N.to_nat n) mat_load)
               (mkRg (mkRar r []) [] []) with
    | Ret (l, g) => Ret (l, ra_r (rg_s g))
    | Throw e => Throw e | Undef => Undef | Fuel => Fuel
    end.

(** MultiResolutionMesh.cc:30-101 [load_from_section], into the mesh [m] *)
Definition mrm_section_load (m : mrm) : rd mrm :=
  let* version := read_ushort in
  let* size := read_uint in
  let* off := rd_tell in
  rd_seek (Z.of_N size) CUR ;;
  let* n := read_ubyte in
  let* vs := section_load off in
  let* ns := section_load off in
  let* maps := repM (N.to_nat n) (map_load off) in
  let* mats := mrm_mats_load n in
  let* alpha := (if (version =? 2309) || (version =? 2053)
                 then let* b := read_byte in ret (if (b =? 0)%Z then 0 else 1) else ret (mr_alpha m)) in
  let* bb := aabb_load in
  let* ob := obb_load in
  rd_seek 16 CUR ;;
  let* fin := rd_tell in
  let* ps := at_section vs read_vec3 in
  let* nos := at_section ns read_vec3 in
  let* subs := subs_load (combine maps mats) in
  rd_seek (Z.of_N (u32 fin)) BEG ;;
  ret (mkMrm ps nos subs mats alpha bb ob).

(** MultiResolutionMesh.cc:12 *)
Definition R_MESH : N := 45312.
Definition R_END : N := 45567.
(** MultiResolutionMesh.cc:14-28 *)
Definition mrm_chunk (ty : N) (m : mrm) : rd (bool * mrm) :=
  if ty =? R_MESH then let* m' := mrm_section_load m in ret (false, m')
  else if ty =? R_END then ret (true, m)
  else ret (false, m).
Definition mrm_load (m : mrm) : rd mrm := fun s =>
  read_chunked (S (N.to_nat (len (rdata s) - rpos s))) mrm_chunk m s.

(** The element writers of MultiResolutionMesh.cc:267-343. *)
Definition short3_save (t : short3) : wr unit :=
  write_ushort (u16 (s3a t)) ;; write_ushort (u16 (s3b t)) ;; write_ushort (u16 (s3c t)).
Definition short2_save (t : short2) : wr unit := write_ushort (u16 (s2a t)) ;; write_ushort (u16 (s2b t)).
Definition ushort_save (n : N) : wr unit := write_ushort (u16 n).
Definition wedge_save (w : wedge) : wr unit :=
  write_vec3 (we_normal w) ;; write_vec2 (we_texture w) ;; write_ushort (u16 (we_index w)) ;; write_ushort 0.
Definition mplane_save (p : mplane) : wr unit := write_float (mp_distance p) ;; write_vec3 (mp_normal p).
(** MultiResolutionMesh.cc:271-277 and the like: the size of a section is its number of bytes. *)
Definition section_save {A} (f : A -> wr unit) (l : list A) : wr msection :=
  let* a := wr_tell in
  iterM f l ;;
  let* b := wr_tell in
  ret (a, u32 (b - a)).
(** MultiResolutionMesh.cc:267-343; nothing is written for the vertex updates. *)
Definition sub_save (s : submesh) : wr submap :=
  let* t := section_save short3_save (sm_triangles s) in
  let* w := section_save wedge_save (sm_wedges s) in
  let* c := section_save write_float (sm_colors s) in
  let* pi := section_save ushort_save (sm_plane_indices s) in
  let* p := section_save mplane_save (sm_planes s) in
  let* te := section_save short3_save (sm_triangle_edges s) in
  let* e := section_save short2_save (sm_edges s) in
  let* sc := section_save write_float (sm_scores s) in
  let* wm := section_save ushort_save (sm_wedge_map s) in
  ret (mkMap t w c pi p wm (0, 0) te e sc).
(** MultiResolutionMesh.cc:142-143 and the like *)
Definition entry_save (off : N) (s : msection) : wr unit :=
  write_uint (uint 32 (Z.of_N (fst s) - Z.of_N off)) ;; write_uint (snd s).
(** MultiResolutionMesh.cc:141-171 *)
Definition map_save (off : N) (m : submap) : wr unit :=
  iterM (entry_save off)
    [ma_triangles m; ma_wedges m; ma_colors m; ma_plane_indices m; ma_planes m; ma_wedge_map m; ma_updates m;
     ma_triangle_edges m; ma_edges m; ma_scores m].
(** MultiResolutionMesh.cc:173-178; see [mats_save] in MMesh.v *)
Definition mrm_mats_save (g : game) (e1 e2 : wenv) (l : list material) : wr unit := fun w =>
  match ar_create ABinary e1 false w with
  | Ret s =>
      match (iterM (mat_save g) l ;; ar_wheader ABinary e2) s with
      | Ret (_, s') => Ret (tt, wa_w s')
      | Throw e => Throw e | Undef => Undef | Fuel => Fuel
      end
  | Throw e => Throw e | Undef => Undef | Fuel => Fuel
  end.
(** MultiResolutionMesh.cc:108-189 *)
Definition mrm_section_save (g : game) (e1 e2 : wenv) (m : mrm) : wr unit :=
  write_ushort (match g with G1 => 773 | G2 => 2309 end) ;;
  let* off_size := wr_tell in
  write_uint 0 ;;
  let* off := wr_tell in
  iterM write_vec3 (mr_positions m) ;;
  let* off_normals := wr_tell in
  iterM write_vec3 (mr_normals m) ;;
  let* maps := mapM sub_save (mr_subs m) in
  let* off_end := wr_tell in
  wr_seek (Z.of_N off_size) BEG ;;
  write_uint (u32 (off_end - off_size)) ;;
  wr_seek (Z.of_N off_end) BEG ;;
  write_ubyte (u8 (len (mr_subs m))) ;;
  write_uint 0 ;;
  write_uint (u32 (len (mr_positions m))) ;;
  write_uint (u32 (off_normals - off)) ;;
  write_uint (u32 (len (mr_normals m))) ;;
  iterM (map_save off) maps ;;
  mrm_mats_save g e1 e2 (map sm_mat (mr_subs m)) ;;
  (match g with G1 => ret tt | G2 => write_byte (if mr_alpha m =? 0 then 0%Z else 1%Z) end) ;;
  aabb_save (mr_bbox m) ;;
  obb_save (mr_obb m) ;;
  wr_write (zeros 10).
(** MultiResolutionMesh.cc:103-106 *)
Definition mrm_save (g : game) (e1 e2 : wenv) (m : mrm) : wr unit :=
  write_chunk R_MESH (mrm_section_save g e1 e2 m) ;;
  write_chunk R_END (ret tt).

(* ------------------------------------------------------------------ *)
(** * Soft-skin meshes *)

(** SoftSkinMesh.hh:14-26 *)
Record wnormal := mkWNormal { wn_normal : vec3; wn_index : N }.
Record weight := mkWeight { wg_weight : N; wg_position : vec3; wg_node : N }.
(** SoftSkinMesh.hh:28-49 [SoftSkinMesh] *)
Record skin := mkSkin {
  sk_mesh : mrm; sk_bboxes : list obb; sk_normals : list wnormal; sk_weights : list (list weight); sk_nodes : list Z }.
Definition skin_new : skin := mkSkin mrm_new [] [] [] [].

(** SoftSkinMesh.cc:42-44 *)
Definition weight_load : rd weight :=
  let* w := read_float in let* p := read_vec3 in let* n := read_ubyte in ret (mkWeight w p n).
(** SoftSkinMesh.cc:37-46 *)
Definition weights_load : rd (list weight) := let* n := read_uint in repM (N.to_nat n) weight_load.
(** SoftSkinMesh.cc:57-58 *)
Definition wnormal_load : rd wnormal := let* v := read_vec3 in let* i := read_uint in ret (mkWNormal v i).
(** SoftSkinMesh.cc:31-75 *)
Definition skin_nodes_load (m : mrm) : rd skin :=
  let* size := read_uint in
  let* here := rd_tell in
  let fin := u64 (here + size) in
  let* ws := repM (length (mr_positions m)) weights_load in
  let* at_ := rd_tell in
  (if at_ =? fin then ret tt else rd_seek (sint 64 fin) BEG) ;;
  let* n := read_uint in
  let* ns := repM (N.to_nat n) wnormal_load in
  let* k := read_ushort in
  let* nodes := repM (N.to_nat k) read_int in
  let* boxes := repM (length nodes) obb_load in
  ret (mkSkin m boxes ns ws nodes).

(** SoftSkinMesh.cc:12-17 *)
Definition S_HEADER : N := 57600.
Definition S_END : N := 57616.
Definition S_PROTO : N := 45312.
Definition S_NODES : N := 45567.
(** SoftSkinMesh.cc:19-80 *)
Definition skin_chunk (ty : N) (k : skin) : rd (bool * skin) :=
  if ty =? S_HEADER then let* _ := read_uint in ret (false, k)
  else if ty =? S_PROTO then
    let* m := mrm_section_load (sk_mesh k) in
    ret (false, mkSkin m (sk_bboxes k) (sk_normals k) (sk_weights k) (sk_nodes k))
  else if ty =? S_NODES then let* k' := skin_nodes_load (sk_mesh k) in ret (false, k')
  else if ty =? S_END then ret (true, k)
  else ret (false, k).
Definition skin_load (k : skin) : rd skin := fun s =>
  read_chunked (S (N.to_nat (len (rdata s) - rpos s))) skin_chunk k s.

(** SoftSkinMesh.cc:96-100 *)
Definition weight_save (w : weight) : wr unit :=
  write_float (wg_weight w) ;; write_vec3 (wg_position w) ;; write_ubyte (wg_node w).
(** SoftSkinMesh.cc:93-101 *)
Definition weights_save (l : list weight) : wr unit := write_uint (u32 (len l)) ;; iterM weight_save l.
(** SoftSkinMesh.cc:108-112 *)
Definition wnormal_save (n : wnormal) : wr unit := write_vec3 (wn_normal n) ;; write_uint (wn_index n).
(** SoftSkinMesh.cc:88-121 *)
Definition skin_nodes_save (k : skin) : wr unit :=
  let* off_size := wr_tell in
  write_uint 0 ;;
  iterM weights_save (sk_weights k) ;;
  let* off_end := wr_tell in
  wr_seek (Z.of_N off_size) BEG ;;
  write_uint (u32 (off_end - off_size)) ;;
  wr_seek (Z.of_N off_end) BEG ;;
  write_uint (u32 (len (sk_normals k))) ;;
  iterM wnormal_save (sk_normals k) ;;
  write_ushort (u16 (len (sk_nodes k))) ;;
  iterM write_int (sk_nodes k) ;;
  iterM obb_save (sk_bboxes k).
(** SoftSkinMesh.cc:82-125: the third chunk has the type of the first. *)
Definition skin_save (g : game) (e1 e2 : wenv) (k : skin) : wr unit :=
  write_chunk S_HEADER (write_uint 4) ;;
  write_chunk S_PROTO (mrm_section_save g e1 e2 (sk_mesh k)) ;;
  write_chunk S_HEADER (skin_nodes_save k) ;;
  write_chunk S_END (ret tt).

(* ------------------------------------------------------------------ *)
(** * Model meshes *)

(** ModelMesh.hh:18-37 [ModelMesh].  The hash table is a list of pairs with different keys. *)
Record modelmesh := mkMM { mm_skins : list skin; mm_attachments : list (bytes * mrm); mm_checksum : N }.
Definition mm_new : modelmesh := mkMM [] [] 0.

(** [std::unordered_map::operator[]] *)
Fixpoint attachment (name : bytes) (l : list (bytes * mrm)) : mrm :=
  match l with
  | [] => mrm_new
  | (k, v) :: l' => if bytes_eqb k name then v else attachment name l'
  end.
Fixpoint set_attachment (name : bytes) (m : mrm) (l : list (bytes * mrm)) : list (bytes * mrm) :=
  match l with
  | [] => [(name, m)]
  | (k, v) :: l' => if bytes_eqb k name then (k, m) :: l' else (k, v) :: set_attachment name m l'
  end.

(** ModelMesh.cc:12-19 *)
Definition O_HEADER : N := 53248.
Definition O_SOURCE : N := 53264.
Definition O_NODES : N := 53280.
Definition O_SOFTSKINS : N := 53296.
Definition O_END : N := 53312.
Definition O_PROTO : N := 45312.

(** ModelMesh.cc:26-68, the callback; the state is [attachment_names] and the model mesh.  An
    index outside the list of names is undefined behaviour. *)
Definition mm_chunk (ty fin : N) (st : list bytes * modelmesh) : rd (bool * N * (list bytes * modelmesh)) :=
  let (names, m) := st in
  if ty =? O_HEADER then let* _ := read_uint in ret (false, fin, st)
  else if ty =? O_SOURCE then let* _ := date_load in let* _ := read_line false in ret (false, fin, st)
  else if ty =? O_NODES then
    let* n := read_ushort in
    let* l := repM (N.to_nat n) (read_line true) in
    ret (false, fin, (names ++ l, m))
  else if ty =? O_PROTO then
    match nth_N names (len (mm_attachments m)) with
    | None => undef
    | Some name =>
        let* x := mrm_section_load (attachment name (mm_attachments m)) in
        ret (false, fin, (names, mkMM (mm_skins m) (set_attachment name x (mm_attachments m)) (mm_checksum m)))
    end
  else if ty =? O_SOFTSKINS then
    let* c := read_uint in
    let* n := read_ushort in
    let* l := mapM skin_load (resize n (mm_skins m) skin_new) in
    let* here := rd_tell in
    ret (false, here, (names, mkMM l (mm_attachments m) c))
  else if ty =? O_END then ret (true, fin, st)
  else ret (false, fin, st).
(** ModelMesh.cc:21-70 *)
Definition mm_load (m : modelmesh) : rd modelmesh := fun s =>
  bind (read_chunked_t (S (N.to_nat (len (rdata s) - rpos s))) mm_chunk ([], m)) (fun r => ret (snd r)) s.

(** ModelMesh.cc:72-108; the attachments are written in the order of the list. *)
Definition mm_save (g : game) (e1 e2 : wenv) (m : modelmesh) : wr unit :=
  write_chunk O_HEADER (write_uint 67306758) ;;
  write_chunk O_NODES (write_ushort (u16 (len (mm_attachments m))) ;; iterM (fun x => write_line (fst x)) (mm_attachments m)) ;;
  write_chunk O_PROTO (iterM (fun x => mrm_section_save g e1 e2 (snd x)) (mm_attachments m)) ;;
  write_chunk O_SOFTSKINS (write_uint (mm_checksum m) ;; iterM (skin_save g e1 e2) (mm_skins m)) ;;
  write_chunk O_END (ret tt).

(** Model.cc:7-10 *)
Definition model_load (h : hierarchy) (m : modelmesh) : rd (hierarchy * modelmesh) :=
  let* h' := hier_load h in
  let* m' := mm_load m in
  ret (h', m').
(** Model.cc:12-15 *)
Definition model_save (g : game) (e1 e2 : wenv) (h : hierarchy) (m : modelmesh) : wr unit :=
  hier_save h ;; mm_save g e1 e2 m.

(* ------------------------------------------------------------------ *)
(** * Morph meshes *)

(** MorphMesh.hh:16-56 [MorphAnimation] *)
Record manim := mkManim {
  an_name : bytes; an_layer : Z; an_blend_in : N; an_blend_out : N; an_duration : N; an_speed : N;
  an_flags : N; an_frames : N; an_vertices : list N; an_samples : list vec3 }.
(** MorphMesh.hh:58-67 [MorphSource] *)
Record msource := mkMsource { so_date : date; so_name : bytes }.
(** MorphMesh.hh:69-99 [MorphMesh] *)
Record morph := mkMorph {
  mo_name : bytes; mo_mesh : mrm; mo_positions : list vec3; mo_anims : list manim; mo_sources : list msource }.
Definition morph_new : morph := mkMorph [] mrm_new [] [] [].

(** MorphMesh.cc:22-23 *)
Definition msource_load : rd msource := let* d := date_load in let* n := read_line true in ret (mkMsource d n).
(** MorphMesh.cc:46-68; the number of samples is a product of 32-bit numbers. *)
Definition manim_load : rd manim :=
  let* name := read_line false in
  let* bi := read_float in
  let* bo := read_float in
  let* d := read_float in
  let* l := read_int in
  let* s := read_float in
  let* fl := read_ubyte in
  let* nv := read_uint in
  let* nf := read_uint in
  let* vs := repM (N.to_nat nv) read_uint in
  let* ss := repM (N.to_nat (u32 (nv * nf))) read_vec3 in
  ret (mkManim name l bi bo d s fl nf vs ss).

(** MorphMesh.cc:7-12 *)
Definition H_SOURCES : N := 57360.
Definition H_HEADER : N := 57376.
Definition H_ANIMATIONS : N := 57392.
Definition H_PROTO : N := 45312.
Definition H_MORPH : N := 45567.
(** MorphMesh.cc:14-77 *)
Definition morph_chunk (ty : N) (m : morph) : rd (bool * morph) :=
  if ty =? H_SOURCES then
    let* n := read_ushort in
    let* l := repM (N.to_nat n) msource_load in
    ret (false, mkMorph (mo_name m) (mo_mesh m) (mo_positions m) (mo_anims m) l)
  else if ty =? H_HEADER then
    let* _ := read_uint in
    let* n := read_line true in
    ret (false, mkMorph n (mo_mesh m) (mo_positions m) (mo_anims m) (mo_sources m))
  else if ty =? H_PROTO then
    let* x := mrm_section_load (mo_mesh m) in
    ret (false, mkMorph (mo_name m) x (resize (len (mr_positions x)) (mo_positions m) zero3) (mo_anims m) (mo_sources m))
  else if ty =? H_MORPH then
    let* l := repM (length (mo_positions m)) read_vec3 in
    ret (false, mkMorph (mo_name m) (mo_mesh m) l (mo_anims m) (mo_sources m))
  else if ty =? H_ANIMATIONS then
    let* n := read_ushort in
    let* l := repM (N.to_nat n) manim_load in
    ret (false, mkMorph (mo_name m) (mo_mesh m) (mo_positions m) (mo_anims m ++ l) (mo_sources m))
  else ret (false, m).
Definition morph_load (m : morph) : rd morph := fun s =>
  read_chunked (S (N.to_nat (len (rdata s) - rpos s))) morph_chunk m s.

(* ------------------------------------------------------------------ *)
(** * Animations *)

(** A quaternion, the bit patterns of its floats. *)
Record quat := mkQuat { q_x : N; q_y : N; q_z : N; q_w : N }.
(** ModelAnimation.hh:21-26 [AnimationSample] *)
Record asample := mkSample { as_position : vec3; as_rotation : quat }.
(** ModelAnimation.hh:87-101 [AnimationEvent] *)
Record aevent := mkAevent {
  ev_type : N; ev_frame : N; ev_tag : bytes; ev_content : list bytes; ev_values : list N; ev_probability : N }.
(** ModelAnimation.hh:104-164 [ModelAnimation] *)
Record animation := mkAnimation {
  ani_name : bytes; ani_next : bytes; ani_layer : N; ani_frames : N; ani_nodes : N; ani_fps : N; ani_fps_source : N;
  ani_min : N; ani_scale : N; ani_bbox : aabb; ani_checksum : N; ani_path : bytes; ani_date : date; ani_script : bytes;
  ani_samples : list asample; ani_events : list aevent; ani_indices : list N }.
Definition animation_new : animation :=
  mkAnimation [] [] 0 0 0 0 0 0 0 box_new 0 [] (mkDate 0 0 0 0 0 0) [] [] [] [].

Section Floats.
(** The float arithmetic of ModelAnimation.cc:32-64: a component of a position from its stored
    number, the scale and the minimum, and a rotation from its three stored numbers. *)
Variable position_of : N -> N -> N -> N.
Variable rotation_of : N -> N -> N -> quat.

(** ModelAnimation.cc:123-126 with 32-64 *)
Definition sample_load (scale minimum : N) : rd asample :=
  let* a := read_ushort in let* b := read_ushort in let* c := read_ushort in
  let* x := read_ushort in let* y := read_ushort in let* z := read_ushort in
  ret (mkSample (mkV3 (position_of x scale minimum) (position_of y scale minimum) (position_of z scale minimum))
                (rotation_of a b c)).
(** ModelAnimation.cc:97-111 *)
Definition aevent_load : rd aevent :=
  let* t := read_uint in
  let* f := read_uint in
  let* tag := read_line true in
  let* c := repM 4 (read_line true) in
  let* v := repM 4 read_float in
  let* p := read_float in
  ret (mkAevent t f tag c v p).

(** ModelAnimation.cc:18-24 *)
Definition A_MARKER : N := 40960.
Definition A_SOURCE : N := 40976.
Definition A_HEADER : N := 40992.
Definition A_EVENTS : N := 41008.
Definition A_SAMPLES : N := 41104.
(** ModelAnimation.cc:70-135; the number of samples is a product of 32-bit numbers. *)
Definition ani_chunk (ty : N) (a : animation) : rd (bool * animation) :=
  if ty =? A_SOURCE then
    let* d := date_load in
    let* p := read_line false in
    let* s := read_line false in
    ret (false, mkAnimation (ani_name a) (ani_next a) (ani_layer a) (ani_frames a) (ani_nodes a) (ani_fps a)
      (ani_fps_source a) (ani_min a) (ani_scale a) (ani_bbox a) (ani_checksum a) p d s (ani_samples a)
      (ani_events a) (ani_indices a))
  else if ty =? A_HEADER then
    let* _ := read_ushort in
    let* n := read_line false in
    let* l := read_uint in
    let* f := read_uint in
    let* k := read_uint in
    let* fps := read_float in
    let* src := read_float in
    let* mi := read_float in
    let* sc := read_float in
    let* b := aabb_load in
    let* nx := read_line false in
    ret (false, mkAnimation n nx l f k fps src mi sc b (ani_checksum a) (ani_path a) (ani_date a) (ani_script a)
      (ani_samples a) (ani_events a) (ani_indices a))
  else if ty =? A_EVENTS then
    let* n := read_uint in
    let* l := repM (N.to_nat n) aevent_load in
    ret (false, mkAnimation (ani_name a) (ani_next a) (ani_layer a) (ani_frames a) (ani_nodes a) (ani_fps a)
      (ani_fps_source a) (ani_min a) (ani_scale a) (ani_bbox a) (ani_checksum a) (ani_path a) (ani_date a)
      (ani_script a) (ani_samples a) l (ani_indices a))
  else if ty =? A_SAMPLES then
    let* c := read_uint in
    let* is_ := repM (N.to_nat (ani_nodes a)) read_uint in
    let* ss := repM (N.to_nat (u32 (ani_nodes a * ani_frames a))) (sample_load (ani_scale a) (ani_min a)) in
    ret (false, mkAnimation (ani_name a) (ani_next a) (ani_layer a) (ani_frames a) (ani_nodes a) (ani_fps a)
      (ani_fps_source a) (ani_min a) (ani_scale a) (ani_bbox a) c (ani_path a) (ani_date a)
      (ani_script a) ss (ani_events a) is_)
  else ret (false, a).
Definition ani_load (a : animation) : rd animation := fun s =>
  read_chunked (S (N.to_nat (len (rdata s) - rpos s))) ani_chunk a s.
End Floats.
