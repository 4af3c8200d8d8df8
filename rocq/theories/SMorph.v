(** Specification vocabulary for morph meshes and animations: how the files are laid out. *)

From Verif Require Import MBase MStream SStream MBoxes SBoxes MTexture MText MClasses MArchive SArchive MVob MMaterial
  MMesh SMesh MModel SFormat MMrm SMrm.
Local Open Scope N_scope.

Definition date_bytes (d : date) (pad : N) : bytes :=
  le_enc 4 (d_year d) ++ le_enc 2 (d_month d) ++ le_enc 2 (d_day d) ++ le_enc 2 (d_hour d) ++ le_enc 2 (d_minute d) ++
  le_enc 2 (d_second d) ++ le_enc 2 pad.
(** A line is ended by NUL, CR or LF.  If it is not NUL, what follows must not start with white
    space, since readers that skip white space after a line would skip it too; and it must not be
    a single NUL at the end of the file. *)
Definition ends_line (t : byte) (next : bytes) : Prop :=
  t = x00 \/ ((t = x0a \/ t = x0d) /\ 2 <= len next /\ starts_visible next).
Definition eol (t : byte) : Prop := t = x00 \/ t = x0a \/ t = x0d.

(* ------------------------------------------------------------------ *)
(** * Morph meshes *)

Definition msource_ok (s : msource) : Prop := date_ok (so_date s) /\ no_eol (so_name s).
Definition manim_ok (a : manim) : Prop :=
  no_eol (an_name a) /\ (- 2 ^ 31 <= an_layer a < 2 ^ 31)%Z /\ f32 (an_blend_in a) /\ f32 (an_blend_out a) /\
  f32 (an_duration a) /\ f32 (an_speed a) /\ an_flags a < 2 ^ 8 /\ an_frames a < 2 ^ 32 /\
  len (an_vertices a) < 2 ^ 32 /\ Forall (fun n => n < 2 ^ 32) (an_vertices a) /\
  len (an_samples a) = len (an_vertices a) * an_frames a /\ Forall vec3_ok (an_samples a).
(** A morph mesh has one position for each position of its mesh, and each of its animations one
    sample for each vertex in each frame. *)
Definition morph_ok (g : game) (m : morph) : Prop :=
  no_eol (mo_name m) /\ mrm_ok g (mo_mesh m) /\
  len (mo_positions m) = len (mr_positions (mo_mesh m)) /\ Forall vec3_ok (mo_positions m) /\
  len (mo_anims m) < 2 ^ 16 /\ Forall manim_ok (mo_anims m) /\
  len (mo_sources m) < 2 ^ 16 /\ Forall msource_ok (mo_sources m).
(** Sources; the last line is the end of its chunk. *)
Inductive sources_bytes : list msource -> bytes -> Prop :=
| sources_none : sources_bytes [] []
| sources_one s pad t : pad < 2 ^ 16 -> eol t ->
    sources_bytes [s] (date_bytes (so_date s) pad ++ so_name s ++ [t])
| sources_more s pad t s2 l bs : pad < 2 ^ 16 -> ends_line t bs -> sources_bytes (s2 :: l) bs ->
    sources_bytes (s :: s2 :: l) (date_bytes (so_date s) pad ++ so_name s ++ [t] ++ bs).
Definition manim_bytes (x : manim * byte) : bytes :=
  let a := fst x in
  an_name a ++ [snd x] ++ le_enc 4 (an_blend_in a) ++ le_enc 4 (an_blend_out a) ++ le_enc 4 (an_duration a) ++
  int_bytes (an_layer a) ++ le_enc 4 (an_speed a) ++ le_enc 1 (an_flags a) ++
  le_enc 4 (len (an_vertices a)) ++ le_enc 4 (an_frames a) ++
  flat_map (le_enc 4) (an_vertices a) ++ flat_map v3_bytes (an_samples a).
Definition morph_file (g : game) (m : morph) (f : bytes) : Prop :=
  exists sources version t sec ts,
    sources_bytes (mo_sources m) sources /\ version < 2 ^ 32 /\ eol t /\ mrm_section g 1 (mo_mesh m) sec /\
    len ts = len (mo_anims m) /\ Forall eol ts /\
    let sources := le_enc 2 (len (mo_sources m)) ++ sources in
    let header := le_enc 4 version ++ mo_name m ++ [t] in
    let positions := flat_map v3_bytes (mo_positions m) in
    let anims := le_enc 2 (len (mo_anims m)) ++ flat_map manim_bytes (combine (mo_anims m) ts) in
    len sources < 2 ^ 32 /\ len header < 2 ^ 32 /\ len sec < 2 ^ 32 /\ len positions < 2 ^ 32 /\ len anims < 2 ^ 32 /\
    f = chunk_bytes (57360, sources) ++ chunk_bytes (57376, header) ++ chunk_bytes (45312, sec) ++
        chunk_bytes (45567, positions) ++ chunk_bytes (57392, anims).

(* ------------------------------------------------------------------ *)
(** * Animations *)

(** A stored sample: three numbers for the rotation and three for the position. *)
Record stored := mkStored { st_a : N; st_b : N; st_c : N; st_x : N; st_y : N; st_z : N }.
Definition stored_ok (s : stored) : Prop :=
  st_a s < 2 ^ 16 /\ st_b s < 2 ^ 16 /\ st_c s < 2 ^ 16 /\ st_x s < 2 ^ 16 /\ st_y s < 2 ^ 16 /\ st_z s < 2 ^ 16.
Definition stored_bytes (s : stored) : bytes :=
  le_enc 2 (st_a s) ++ le_enc 2 (st_b s) ++ le_enc 2 (st_c s) ++ le_enc 2 (st_x s) ++ le_enc 2 (st_y s) ++ le_enc 2 (st_z s).

Definition aevent_ok (e : aevent) : Prop :=
  ev_type e < 2 ^ 32 /\ ev_frame e < 2 ^ 32 /\ no_eol (ev_tag e) /\ len (ev_content e) = 4 /\ Forall no_eol (ev_content e) /\
  len (ev_values e) = 4 /\ Forall f32 (ev_values e) /\ f32 (ev_probability e).
(** Lines that are read with white space after them skipped *)
Inductive lines_bytes : list bytes -> bytes -> bytes -> Prop :=
| lines_none rest : lines_bytes [] rest rest
| lines_more s t l rest bs : lines_bytes l rest bs -> ends_line t bs -> lines_bytes (s :: l) rest (s ++ [t] ++ bs).
Definition aevent_bytes (e : aevent) (bs : bytes) : Prop :=
  exists text, lines_bytes (ev_tag e :: ev_content e) (flat_map (le_enc 4) (ev_values e) ++ le_enc 4 (ev_probability e)) text /\
    bs = le_enc 4 (ev_type e) ++ le_enc 4 (ev_frame e) ++ text.

Section Floats.
Variable position_of : N -> N -> N -> N.
Variable rotation_of : N -> N -> N -> quat.
(** The sample that stored numbers stand for, by the scale and the minimum of the animation *)
Definition sample_of (scale minimum : N) (s : stored) : asample :=
  mkSample (mkV3 (position_of (st_x s) scale minimum) (position_of (st_y s) scale minimum) (position_of (st_z s) scale minimum))
           (rotation_of (st_a s) (st_b s) (st_c s)).
(** There is an index for every node, and a sample for every node in every frame. *)
Definition animation_ok (a : animation) : Prop :=
  no_eol (ani_name a) /\ no_eol (ani_next a) /\ ani_layer a < 2 ^ 32 /\ ani_frames a < 2 ^ 32 /\ ani_nodes a < 2 ^ 32 /\
  f32 (ani_fps a) /\ f32 (ani_fps_source a) /\ f32 (ani_min a) /\ f32 (ani_scale a) /\ aabb_ok (ani_bbox a) /\
  ani_checksum a < 2 ^ 32 /\ no_eol (ani_path a) /\ date_ok (ani_date a) /\ no_eol (ani_script a) /\
  len (ani_events a) < 2 ^ 32 /\ Forall aevent_ok (ani_events a) /\
  len (ani_indices a) = ani_nodes a /\ Forall (fun n => n < 2 ^ 32) (ani_indices a) /\
  len (ani_samples a) = ani_nodes a * ani_frames a.
Definition ani_file (a : animation) (f : bytes) : Prop :=
  exists marker pad t1 t2 version t3 t4 events raw,
    pad < 2 ^ 16 /\ version < 2 ^ 16 /\ eol t1 /\ eol t2 /\ eol t3 /\ eol t4 /\
    Forall2 aevent_bytes (ani_events a) events /\
    Forall stored_ok raw /\ ani_samples a = map (sample_of (ani_scale a) (ani_min a)) raw /\
    let source := date_bytes (ani_date a) pad ++ ani_path a ++ [t1] ++ ani_script a ++ [t2] in
    let header := le_enc 2 version ++ ani_name a ++ [t3] ++ le_enc 4 (ani_layer a) ++ le_enc 4 (ani_frames a) ++
      le_enc 4 (ani_nodes a) ++ le_enc 4 (ani_fps a) ++ le_enc 4 (ani_fps_source a) ++ le_enc 4 (ani_min a) ++
      le_enc 4 (ani_scale a) ++ box_bytes (ani_bbox a) ++ ani_next a ++ [t4] in
    let events := le_enc 4 (len (ani_events a)) ++ concat events in
    let samples := le_enc 4 (ani_checksum a) ++ flat_map (le_enc 4) (ani_indices a) ++ flat_map stored_bytes raw in
    len marker < 2 ^ 32 /\ len source < 2 ^ 32 /\ len header < 2 ^ 32 /\ len events < 2 ^ 32 /\ len samples < 2 ^ 32 /\
    f = chunk_bytes (40960, marker) ++ chunk_bytes (40976, source) ++ chunk_bytes (40992, header) ++
        chunk_bytes (41008, events) ++ chunk_bytes (41104, samples).
End Floats.

(* ------------------------------------------------------------------ *)
(** * What loaded morph meshes are *)

(** A morph position for each position, and a sample for each vertex in each frame, counted with
    32 bits *)
Definition manim_consistent (a : manim) : Prop := len (an_samples a) = (len (an_vertices a) * an_frames a) mod 2 ^ 32.
Definition morph_consistent (m : morph) : Prop :=
  mrm_consistent (mo_mesh m) /\ len (mo_positions m) = len (mr_positions (mo_mesh m)) /\ Forall manim_consistent (mo_anims m).
