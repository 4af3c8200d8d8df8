(** Model of src/Font.cc and src/ModelHierarchy.cc. *)

From Verif Require Import MBase MStream MBoxes.
Local Open Scope N_scope.
Local Open Scope m_scope.

(* ------------------------------------------------------------------ *)
(** * Fonts *)

(** Font.hh [FontGlyph] *)
Record glyph := mkGlyph { gl_width : N; gl_uv0 : vec2; gl_uv1 : vec2 }.
(** Font.hh [Font] *)
Record font := mkFont { fo_name : bytes; fo_height : N; fo_glyphs : list glyph }.

(** Font.cc:24-34: the three loops fill the members of the glyphs one after the other. *)
Fixpoint zip_glyphs (ws : list N) (a b : list vec2) : list glyph :=
  match ws, a, b with
  | w :: ws', x :: a', y :: b' => mkGlyph w x y :: zip_glyphs ws' a' b'
  | _, _, _ => []
  end.

(** Font.cc:15-35.  Simplified: memory exhaustion by a huge glyph count. *)
Definition font_load : rd font :=
  let* version := read_line true in
  if negb (bytes_eqb version (lit "1")) then throw ParserError
  else
    let* name := read_line false in
    let* height := read_uint in
    let* n := read_uint in
    let* ws := repM (N.to_nat n) read_ubyte in
    let* a := repM (N.to_nat n) read_vec2 in
    let* b := repM (N.to_nat n) read_vec2 in
    ret (mkFont name height (zip_glyphs ws a b)).

(** Font.cc:37-54 *)
Definition font_save (f : font) : wr unit :=
  write_line (lit "1") ;;
  write_line (fo_name f) ;;
  write_uint (fo_height f) ;;
  write_uint (u32 (len (fo_glyphs f))) ;;
  iterM (fun g => write_ubyte (gl_width g)) (fo_glyphs f) ;;
  iterM (fun g => write_vec2 (gl_uv0 g)) (fo_glyphs f) ;;
  iterM (fun g => write_vec2 (gl_uv1 g)) (fo_glyphs f).

(* ------------------------------------------------------------------ *)
(** * Skeletons *)

(** ModelHierarchy.hh [ModelHierarchyNode] *)
Record hnode := mkHNode { hn_parent : Z; hn_name : bytes; hn_transform : mat }.
(** ModelHierarchy.hh [ModelHierarchy] *)
Record hierarchy := mkHier {
  hi_nodes : list hnode;
  hi_bbox : aabb;
  hi_collision : aabb;
  hi_root : vec3;
  hi_checksum : N;
  hi_date : date;
  hi_path : bytes
}.

(** ModelHierarchy.cc:8-12 *)
Definition H_HIERARCHY : N := 53504.
Definition H_SOURCE : N := 53520.
Definition H_END : N := 53536.

(** ModelHierarchy.cc:27-31 *)
Definition hnode_load : rd hnode :=
  let* name := read_line false in
  let* parent := read_short in
  let* t := read_mat4 in
  ret (mkHNode parent name t).

(** ModelHierarchy.cc:19-50, the callback; the accumulator is the object being loaded. *)
Definition hier_chunk (ty : N) (h : hierarchy) : rd (bool * hierarchy) :=
  if ty =? H_HIERARCHY then
    let* _version := read_uint in
    let* n := read_ushort in
    let* nodes := repM (N.to_nat n) hnode_load in
    let* bb := aabb_load in
    let* cb := aabb_load in
    let* root := read_vec3 in
    let* sum := read_uint in
    ret (false, mkHier nodes bb cb root sum (hi_date h) (hi_path h))
  else if ty =? H_SOURCE then
    let* d := date_load in
    let* p := read_line false in
    ret (false, mkHier (hi_nodes h) (hi_bbox h) (hi_collision h) (hi_root h) (hi_checksum h) d p)
  else if ty =? H_END then ret (true, h)
  else ret (false, h).

(** ModelHierarchy.cc:15-51, loading into the object [h].  Every chunk but the last consumes
    a byte, so "remaining bytes + 1" iterations suffice. *)
Definition hier_load (h : hierarchy) : rd hierarchy := fun s =>
  read_chunked (S (N.to_nat (len (rdata s) - rpos s))) hier_chunk h s.

(** ModelHierarchy.cc:58-62 *)
Definition hnode_save (n : hnode) : wr unit :=
  write_line (hn_name n) ;; write_short (hn_parent n) ;; write_mat4 (hn_transform n).

(** ModelHierarchy.cc:53-76 *)
Definition hier_save (h : hierarchy) : wr unit :=
  write_chunk H_HIERARCHY
    (write_uint 3 ;;
     write_ushort (u16 (len (hi_nodes h))) ;;
     iterM hnode_save (hi_nodes h) ;;
     aabb_save (hi_bbox h) ;;
     aabb_save (hi_collision h) ;;
     write_vec3 (hi_root h) ;;
     write_uint (hi_checksum h)) ;;
  write_chunk H_SOURCE (date_save (hi_date h) ;; write_line (hi_path h)) ;;
  write_chunk H_END (ret tt).
