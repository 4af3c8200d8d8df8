(** Model of src/Mesh.cc, include/zenkit/Mesh.hh and of Material.cc:21-40.

    Simplified: memory exhaustion (counts read from the file are used for allocations) and log
    output.  Shared pointers to lightmap images are numbers: an image is a member of the list
    [me_images], and two lightmaps share their image if they hold the same number.  A material
    that is loaded again is like a new one. *)

From Coq Require Import String.
From Verif Require Import MBase MStream MBoxes MTexture MText MClasses MArchive MVob MMaterial.
Local Open Scope N_scope.
Local Open Scope m_scope.

(* ------------------------------------------------------------------ *)
(** * Lists of materials *)

(** Material.cc:21-40 [Material::load(ReadArchive&)] *)
Definition mat_load : prog oid material :=
  (do _name <- p_rd KStr ;
   PBegin (fun h =>
     match h with
     | None => PThrow ParserError
     | Some h =>
         if negb (bytes_eqb (oh_class h) (lit "zCMaterial")) then PThrow ParserError
         else
           do m <- load_material (mkCfg (if oh_ver h =? 17408 then G1 else G2) false false 0) ;
           PEnd (fun e => if e then PRet m else PSkip true (PRet m))
     end))%p.
(** Mesh.cc:55-64.  [mat_load] reads no objects of the graph.  Simplified: every material is
    loaded into a new one; in the code an element of a vector that had materials before keeps the
    members its version does not store. *)
Definition mats_load : rd (list material) :=
  let* h := ar_open in
  let* n := read_uint in
  fun r =>
    match runp (Ob := unit) (fmt_prims (ah_format h)) (fun _ => 0%Z) undef (p_rep (N.to_nat n) mat_load)
               (mkRg (mkRar r []) [] []) with
    | Ret (l, g) => Ret (l, ra_r (rg_s g))
    | Throw e => Throw e | Undef => Undef | Fuel => Fuel
    end.

(** Archive.cc:576-591 [write_object] of a material, at Mesh.cc:247. *)
Definition mat_ops (g : game) (m : material) : awr unit := fun s =>
  match run_wops (fmt_wprims ABinary) (fun _ _ => undef) (save_material (mkCfg g false false 0) m) (mkWg s []) with
  | Ret (_, g') => Ret (tt, wg_s g')
  | Throw e => Throw e | Undef => Undef | Fuel => Fuel
  end.
Definition mat_save (g : game) (m : material) : awr unit :=
  wrl (bin_entry (EStr (material_name m))) ;;
  let* _ := bin_wbegin (lit "%") (lit "zCMaterial") (ver_material (mkCfg g false false 0)) in
  mat_ops g m ;;
  bin_wend.
(** Mesh.cc:241-251; [e1] and [e2] are the dates and the user's name at the two times the
    header is written. *)
Definition mats_save (g : game) (e1 e2 : wenv) (l : list material) : wr unit := fun w =>
  match ar_create ABinary e1 false w with
  | Ret s =>
      match (wrl (write_uint (u32 (len l))) ;; iterM (mat_save g) l ;; ar_wheader ABinary e2) s with
      | Ret (_, s') => Ret (tt, wa_w s')
      | Throw e => Throw e | Undef => Undef | Fuel => Fuel
      end
  | Throw e => Throw e | Undef => Undef | Fuel => Fuel
  end.

(* ------------------------------------------------------------------ *)
(** * Meshes *)

(** Mesh.hh:38-52 [PolygonFlagSet] *)
Record pflags := mkFlags {
  pf_portal : N; pf_occluder : bool; pf_sector : bool; pf_relight : bool; pf_outdoor : bool;
  pf_ghost : bool; pf_lit : bool; pf_sector_index : Z; pf_lod : bool; pf_axis : N }.
(** Mesh.hh:72-82 [Polygon] *)
Record polygon := mkPoly {
  po_material : N; po_lightmap : Z; po_flags : pflags; po_count : N; po_offset : N;
  po_distance : N; po_normal : vec3 }.
(** Mesh.hh:26-35 [VertexFeature] *)
Record feature := mkFeature { fe_texture : vec2; fe_light : N; fe_normal : vec3 }.
(** Mesh.hh:17-23 [LightMap]; the image is a number, see above. *)
Record lightmap := mkLightmap { lm_image : N; lm_normal_a : vec3; lm_normal_b : vec3; lm_origin : vec3 }.
(** Mesh.hh:55-70 [PolygonList] *)
Record tris := mkTris {
  tr_materials : list N; tr_lightmaps : list Z; tr_features : list N; tr_vertices : list N; tr_flags : list pflags }.
Definition no_tris : tris := mkTris [] [] [] [] [].
(** Mesh.hh:88-128 [Mesh] *)
Record mesh := mkMesh {
  me_date : date; me_name : bytes; me_bbox : aabb; me_obb : obb;
  me_materials : list material; me_vertices : list vec3; me_features : list feature;
  me_images : list texture; me_lightmaps : list lightmap;
  me_geometry : list polygon; me_vindices : list N; me_findices : list N;
  me_tris : tris }.

Definition zero3 : vec3 := mkV3 0 0 0.
(** A new mesh *)
Definition mesh_new : mesh :=
  mkMesh (mkDate 0 0 0 0 0 0) [] (mkAabb zero3 zero3) (Obb zero3 zero3 zero3 zero3 zero3 [])
         [] [] [] [] [] [] [] [] no_tris.

(** Mesh.cc:11-24 *)
Definition mesh_version (g : game) : N := match g with G1 => 9 | G2 => 265 end.
Definition M_MARKER : N := 45056.
Definition M_BBOX : N := 45072.
Definition M_MATERIAL : N := 45088.
Definition M_LIGHTMAPS : N := 45093.
Definition M_LIGHTMAPS_SHARED : N := 45094.
Definition M_VERTICES : N := 45104.
Definition M_FEATURES : N := 45120.
Definition M_POLYGONS : N := 45136.
Definition M_END : N := 45152.

(** Members of a mesh replaced. *)
Definition with_marker (d : date) (n : bytes) (m : mesh) : mesh :=
  mkMesh d n (me_bbox m) (me_obb m) (me_materials m) (me_vertices m) (me_features m) (me_images m)
    (me_lightmaps m) (me_geometry m) (me_vindices m) (me_findices m) (me_tris m).
Definition with_boxes (b : aabb) (o : obb) (m : mesh) : mesh :=
  mkMesh (me_date m) (me_name m) b o (me_materials m) (me_vertices m) (me_features m) (me_images m)
    (me_lightmaps m) (me_geometry m) (me_vindices m) (me_findices m) (me_tris m).
Definition with_materials (l : list material) (m : mesh) : mesh :=
  mkMesh (me_date m) (me_name m) (me_bbox m) (me_obb m) l (me_vertices m) (me_features m) (me_images m)
    (me_lightmaps m) (me_geometry m) (me_vindices m) (me_findices m) (me_tris m).
Definition with_vertices (l : list vec3) (m : mesh) : mesh :=
  mkMesh (me_date m) (me_name m) (me_bbox m) (me_obb m) (me_materials m) l (me_features m) (me_images m)
    (me_lightmaps m) (me_geometry m) (me_vindices m) (me_findices m) (me_tris m).
Definition with_features (l : list feature) (m : mesh) : mesh :=
  mkMesh (me_date m) (me_name m) (me_bbox m) (me_obb m) (me_materials m) (me_vertices m) l (me_images m)
    (me_lightmaps m) (me_geometry m) (me_vindices m) (me_findices m) (me_tris m).
Definition with_lightmaps (i : list texture) (l : list lightmap) (m : mesh) : mesh :=
  mkMesh (me_date m) (me_name m) (me_bbox m) (me_obb m) (me_materials m) (me_vertices m) (me_features m) i
    l (me_geometry m) (me_vindices m) (me_findices m) (me_tris m).
Definition with_geometry (ps : list polygon) (v f : list N) (m : mesh) : mesh :=
  mkMesh (me_date m) (me_name m) (me_bbox m) (me_obb m) (me_materials m) (me_vertices m) (me_features m) (me_images m)
    (me_lightmaps m) ps v f (me_tris m).
Definition with_tris (t : tris) (m : mesh) : mesh :=
  mkMesh (me_date m) (me_name m) (me_bbox m) (me_obb m) (me_materials m) (me_vertices m) (me_features m) (me_images m)
    (me_lightmaps m) (me_geometry m) (me_vindices m) (me_findices m) t.

(** Mesh.cc:76-80 *)
Definition feature_load : rd feature :=
  let* t := read_vec2 in let* l := read_uint in let* n := read_vec3 in ret (mkFeature t l n).

(** [std::vector::resize]: elements kept, dropped, or appended with the value of a new element. *)
Definition resize {A} (n : N) (l : list A) (new : A) : list A :=
  take n l ++ repeat new (N.to_nat (n - len l)).
Definition poly_new : polygon := mkPoly 0 0 (mkFlags 0 false false false false false false 0 false 0) 0 0 0 zero3.

(** Mesh.cc:100-122; members a version does not store keep their value. *)
Definition flags_load (version : N) (old : pflags) : rd pflags :=
  if version =? 265 then
    let* f := read_ubyte in
    let* i := read_short in
    ret (mkFlags (f mod 4) (N.testbit f 2) (N.testbit f 3) (N.testbit f 4) (N.testbit f 5) (N.testbit f 6)
           (N.testbit f 7) i (pf_lod old) (pf_axis old))
  else
    let* f := read_ubyte in
    let* f2 := read_ubyte in
    let* i := read_short in
    ret (mkFlags (f mod 4) (N.testbit f 2) (N.testbit f 3) (pf_relight old) (N.testbit f 5) (N.testbit f 6)
           (pf_lit old) i (N.testbit f 4) (N.lor (N.shiftr (N.land f 128) 7) (N.land f2 1))).
(** Mesh.cc:127-131 *)
Definition corner_load (wide : bool) : rd (N * N) :=
  let* v := (if wide then read_uint else read_ushort) in
  let* f := read_uint in
  ret (v, f).
(** Mesh.cc:92-136, over the resized [geometry]; [off] is [index_offset]. *)
Fixpoint polys_load (version : N) (wide : bool) (old : list polygon) (off : N) (vs fs : list N)
    : rd (list polygon * list N * list N) :=
  match old with
  | [] => ret ([], vs, fs)
  | p :: old' =>
      let* mat := read_ushort in
      let* lm := read_short in
      let* d := read_float in
      let* n := read_vec3 in
      let* fl := flags_load version (po_flags p) in
      let* c := read_ubyte in
      let* cs := repM (N.to_nat c) (corner_load ((version =? 265) || wide)) in
      let* r := polys_load version wide old' (u32 (off + c)) (vs ++ map fst cs) (fs ++ map snd cs) in
      let '(ps, vs', fs') := r in
      ret (mkPoly mat lm fl c off d n :: ps, vs', fs')
  end.

(** Mesh.cc:152-160; [base] is the number of images the mesh had before.  An index outside the
    list of images is undefined behaviour. *)
Definition lightmap_load (base count : N) : rd lightmap :=
  let* o := read_vec3 in
  let* a := read_vec3 in
  let* b := read_vec3 in
  let* i := read_uint in
  if i <? count then ret (mkLightmap (base + i) a b o) else undef.
(** Mesh.cc:167-178; each lightmap gets an image of its own. *)
Fixpoint own_lightmaps (n : nat) (base : N) : rd (list texture * list lightmap) :=
  match n with
  | O => ret ([], [])
  | S n' =>
      let* o := read_vec3 in
      let* a := read_vec3 in
      let* b := read_vec3 in
      let* t := tex_load tex_new in
      let* r := own_lightmaps n' (base + 1) in
      ret (t :: fst r, mkLightmap base a b o :: snd r)
  end.

(** Mesh.cc:44-189, the callback; the state is [version] and the mesh. *)
Definition mesh_chunk (wide : bool) (ty : N) (st : N * mesh) : rd (bool * (N * mesh)) :=
  let (version, m) := st in
  if ty =? M_MARKER then
    let* v := read_ushort in
    let* d := date_load in
    let* n := read_line false in
    ret (false, (v, with_marker d n m))
  else if ty =? M_BBOX then
    let* b := aabb_load in
    let* o := obb_load in
    ret (false, (version, with_boxes b o m))
  else if ty =? M_MATERIAL then
    let* l := mats_load in
    ret (false, (version, with_materials l m))
  else if ty =? M_VERTICES then
    let* n := read_uint in
    let* l := repM (N.to_nat n) read_vec3 in
    ret (false, (version, with_vertices l m))
  else if ty =? M_FEATURES then
    let* n := read_uint in
    let* l := repM (N.to_nat n) feature_load in
    ret (false, (version, with_features l m))
  else if ty =? M_POLYGONS then
    let* n := read_uint in
    let* r := polys_load version wide (resize n (me_geometry m) poly_new) 0 (me_vindices m) (me_findices m) in
    let '(ps, vs, fs) := r in
    ret (false, (version, with_geometry ps vs fs m))
  else if ty =? M_LIGHTMAPS_SHARED then
    let* n := read_uint in
    let* ts := repM (N.to_nat n) (tex_load tex_new) in
    let* k := read_uint in
    let* ls := repM (N.to_nat k) (lightmap_load (len (me_images m)) n) in
    ret (false, (version, with_lightmaps (me_images m ++ ts) (me_lightmaps m ++ ls) m))
  else if ty =? M_LIGHTMAPS then
    let* k := read_uint in
    let* r := own_lightmaps (N.to_nat k) (len (me_images m)) in
    ret (false, (version, with_lightmaps (me_images m ++ fst r) (me_lightmaps m ++ snd r) m))
  else if ty =? M_END then ret (true, st)
  else ret (false, st).
(** Mesh.cc:38-190, loading into the mesh [m] *)
Definition mesh_load (m : mesh) (wide : bool) : rd mesh := fun s =>
  bind (read_chunked (S (N.to_nat (len (rdata s) - rpos s))) (mesh_chunk wide) (0, m)) (fun r => ret (snd r)) s.

(* ------------------------------------------------------------------ *)
(** * Triangulation *)

(** [std::binary_search]: [std::lower_bound] over [n] elements from [i] on, then a comparison. *)
Fixpoint lower_bound_N (fuel : nat) (l : list N) (x i n : N) : N :=
  match fuel with
  | O => i
  | S f =>
      if n =? 0 then i
      else
        let h := n / 2 in
        match nth_N l (i + h) with
        | Some y => if y <? x then lower_bound_N f l x (i + h + 1) (n - h - 1) else lower_bound_N f l x i h
        | None => i
        end
  end.
Definition binary_search (l : list N) (x : N) : bool :=
  match nth_N l (lower_bound_N (S (length l)) l x 0 (len l)) with
  | Some y => negb (x <? y)
  | None => false
  end.

(** Mesh.cc:215-220: an index outside the list is undefined behaviour. *)
Definition three (l : list N) (root a b : N) : outcome (list N) :=
  match nth_N l root, nth_N l (root + a), nth_N l (root + b) with
  | Some x, Some y, Some z => Ret [x; y; z]
  | _, _, _ => Undef
  end.
(** Mesh.cc:213-225; [n] is the number of rounds left. *)
Fixpoint fan (vs fs : list N) (p : polygon) (n : nat) (a b : N) (t : tris) : outcome tris :=
  match n with
  | O => Ret t
  | S n' =>
      obind (three vs (po_offset p) a b) (fun v =>
      obind (three fs (po_offset p) a b) (fun f =>
      fan vs fs p n' b (b + 1)
        (mkTris (tr_materials t ++ [po_material p]) (tr_lightmaps t ++ [po_lightmap p])
                (tr_features t ++ f) (tr_vertices t ++ v) (tr_flags t ++ [po_flags p]))))
  end.
(** Mesh.cc:199-226 *)
Fixpoint fans (vs fs leaf : list N) (ps : list polygon) (i : N) (t : tris) : outcome tris :=
  match ps with
  | [] => Ret t
  | p :: ps' =>
      obind
        (if negb (binary_search leaf i) then Ret t
         else if (po_count p <? 3) || negb (pf_portal (po_flags p) =? 0) || pf_ghost (po_flags p) || pf_outdoor (po_flags p)
         then Ret t
         else fan vs fs p (N.to_nat (po_count p - 2)) 1 2 t)
        (fun t' => fans vs fs leaf ps' (i + 1) t')
  end.
(** Mesh.cc:192-227 *)
Definition triangulate (leaf : list N) (m : mesh) : outcome mesh :=
  obind (fans (me_vindices m) (me_findices m) leaf (me_geometry m) 0 (me_tris m)) (fun t => Ret (with_tris t m)).
(** Mesh.cc:33-36 *)
Definition mesh_load_leaves (m : mesh) (leaf : list N) (wide : bool) : rd mesh :=
  let* m' := mesh_load m wide in lift (triangulate leaf m').

(* ------------------------------------------------------------------ *)
(** * Saving *)

Definition bit (b : bool) (k : N) : N := if b then 2 ^ k else 0.
(** Mesh.cc:308-323; the parts of a flag byte have no bit in common, so that or is addition. *)
Definition flags_save (g : game) (f : pflags) : wr unit :=
  match g with
  | G2 =>
      write_ubyte (pf_portal f mod 4 + bit (pf_occluder f) 2 + bit (pf_sector f) 3 + bit (pf_relight f) 4 +
                   bit (pf_outdoor f) 5 + bit (pf_ghost f) 6 + bit (pf_lit f) 7) ;;
      write_short (pf_sector_index f)
  | G1 =>
      write_ubyte (pf_portal f mod 4 + bit (pf_occluder f) 2 + bit (pf_sector f) 3 + bit (pf_lod f) 4 +
                   bit (pf_outdoor f) 5 + bit (pf_ghost f) 6 + 128 * (pf_axis f mod 2)) ;;
      write_ubyte (N.land (pf_axis f) 2) ;;
      write_short (pf_sector_index f)
  end.
(** Mesh.cc:326-334: an index outside the list is undefined behaviour. *)
Definition corner_save (g : game) (m : mesh) (i : N) : wr unit :=
  match g with
  | G1 =>
      match nth_N (me_vindices m) i, nth_N (me_findices m) i with
      | Some v, Some f => write_ushort (u16 v) ;; write_uint f
      | _, _ => undef
      end
  | G2 =>
      match nth_N (tr_vertices (me_tris m)) i, nth_N (tr_features (me_tris m)) i with
      | Some v, Some f => write_uint v ;; write_uint f
      | _, _ => undef
      end
  end.
Definition indices (off n : N) : list N := map (fun k => off + N.of_nat k) (seq 0 (N.to_nat n)).
(** Mesh.cc:301-335 *)
Definition poly_save (g : game) (m : mesh) (p : polygon) : wr unit :=
  write_ushort (u16 (po_material p)) ;;
  write_short (po_lightmap p) ;;
  write_float (po_distance p) ;;
  write_vec3 (po_normal p) ;;
  flags_save g (po_flags p) ;;
  write_ubyte (u8 (po_count p)) ;;
  iterM (corner_save g m) (indices (po_offset p) (po_count p)).
(** Mesh.cc:292-294 *)
Definition feature_save (f : feature) : wr unit :=
  write_vec2 (fe_texture f) ;; write_uint (fe_light f) ;; write_vec3 (fe_normal f).

(** Mesh.cc:256-259: the different images of the lightmaps. *)
Definition images_used (ls : list lightmap) : list N := nodup N.eq_dec (map lm_image ls).
(** Position of an image in the table of the file. *)
Fixpoint place (x : N) (l : list N) : N :=
  match l with
  | [] => 0
  | y :: l' => if y =? x then 0 else 1 + place x l'
  end.
(** Mesh.cc:253-278.  [order] is the order in which the hash table lists its keys: any
    permutation.  An image that does not exist is a null pointer. *)
Definition lightmaps_save (order : list N -> list N) (m : mesh) : wr unit :=
  let ks := order (images_used (me_lightmaps m)) in
  write_uint (u32 (len ks)) ;;
  iterM (fun k => match nth_N (me_images m) k with Some t => tex_save t | None => undef end) ks ;;
  write_uint (u32 (len (me_lightmaps m))) ;;
  iterM (fun l =>
    write_vec3 (lm_origin l) ;; write_vec3 (lm_normal_a l) ;; write_vec3 (lm_normal_b l) ;;
    write_uint (place (lm_image l) ks)) (me_lightmaps m).

(** Mesh.cc:229-339 *)
Definition mesh_save (order : list N -> list N) (e1 e2 : wenv) (g : game) (m : mesh) : wr unit :=
  write_chunk M_MARKER (write_ushort (mesh_version g) ;; date_save (me_date m) ;; write_line (me_name m)) ;;
  write_chunk M_BBOX (aabb_save (me_bbox m) ;; obb_save (me_obb m)) ;;
  write_chunk M_MATERIAL (mats_save g e1 e2 (me_materials m)) ;;
  write_chunk M_LIGHTMAPS_SHARED (lightmaps_save order m) ;;
  write_chunk M_VERTICES (write_uint (u32 (len (me_vertices m))) ;; iterM write_vec3 (me_vertices m)) ;;
  write_chunk M_FEATURES (write_uint (u32 (len (me_features m))) ;; iterM feature_save (me_features m)) ;;
  write_chunk M_POLYGONS (write_uint (u32 (len (me_geometry m))) ;; iterM (poly_save g m) (me_geometry m)) ;;
  write_chunk M_END (ret tt).
