(** Properties of multi-resolution meshes, soft-skin meshes, model meshes, models, morph meshes
    and animations: C49, C94 to C98. *)

From Coq Require Import Lia ZifyN ZifyBool ZifyNat.
From Verif Require Import MBase MStream SStream MBoxes SBoxes MTexture MText MClasses MArchive SArchive MVob MMaterial
  MMesh SMesh MModel SFormat MBsp SBsp MMrm SMrm SMorph.
From Verif Require Import LBase LStream LFormat LMrm LModelMesh LMorph LMrmSave LMrmInv.
Local Open Scope N_scope.

(** For showing that concrete values meet the conditions. *)
Ltac plain :=
  repeat match goal with
  | |- _ <> _ => discriminate
  | |- _ -> False => discriminate
  | |- _ < _ => reflexivity
  | |- _ <= _ => discriminate
  | |- _ = _ => reflexivity
  | |- _ /\ _ => split
  | |- ?P => let P' := eval hnf in P in progress change P'
  | |- _ => constructor
  end.

(* ------------------------------------------------------------------ *)
(** * A mesh and a section that stores it *)

Definition demo_env : wenv := mkEnv (lit "2024-02-29 12:00:00") (lit "zenkit").
Definition stone : material := mk_material (lit "STONE") 3 (mkColor 1 2 3 4) 5 (lit "STONE.TGA") (mkV2 0 0) 0 0 (mkV2 0 0)
    true false false [] 0 false false 0 0 0 0 0 false 0 (mkV2 1 2).
Definition demo_sub : submesh :=
  mkSub stone [mkS3 0 0 1] [mkWedge (mkV3 1 2 3) (mkV2 4 5) 6; mkWedge (mkV3 7 8 9) (mkV2 4 5) 1] [11] [] [] [] [mkS2 7 8] [] [3; 4].
Definition demo_obb : obb := Obb (mkV3 1 0 0) (mkV3 2 0 0) (mkV3 3 0 0) (mkV3 4 0 0) (mkV3 5 0 0) [].
Definition demo : mrm :=
  mkMrm [mkV3 1 2 3; mkV3 4 5 6] [mkV3 7 8 9] [demo_sub] [stone] 0 (mkAabb (mkV3 1 2 3) (mkV3 4 5 6)) demo_obb.
Definition demo_content : bytes :=
  lit "unused" ++ flat_map v3_bytes (mr_normals demo) ++ flat_map v3_bytes (mr_positions demo) ++
  flat_map short3_bytes (sm_triangles demo_sub) ++ flat_map wedge_bytes (combine (sm_wedges demo_sub) [0; 77]) ++
  flat_map word_bytes (sm_colors demo_sub) ++ flat_map short2_bytes (sm_edges demo_sub) ++ flat_map short_bytes (sm_wedge_map demo_sub).
Definition demo_map : submap :=
  mkMap (42, 1) (48, 2) (96, 1) (0, 0) (0, 0) (104, 2) (0, 0) (0, 0) (100, 1) (0, 0).
Definition demo_section : bytes :=
  le_enc 2 2309 ++ le_enc 4 (len demo_content) ++ demo_content ++ le_enc 1 1 ++ entry_bytes (18, 2) ++ entry_bytes (6, 1) ++
  flat_map map_bytes [demo_map] ++ mats_archive G2 demo_env 1 [stone] ++ [x00] ++ box_bytes (mr_bbox demo) ++
  tree_bytes (mr_obb demo) ++ zeros 16.
Lemma listed_at {A} (enc : A -> bytes) content s l : fst s < 2 ^ 32 -> snd s < 2 ^ 32 -> snd s = len l ->
  content = take (fst s) content ++ flat_map enc l ++ drop (fst s + len (flat_map enc l)) content -> len (take (fst s) content) = fst s ->
  lists enc content s l.
Proof. intros H1 H2 H3 H4 H5. repeat split; try assumption. do 2 eexists. split; [exact H4 | exact H5]. Qed.
Lemma demo_stored : mrm_section G2 1 demo demo_section.
Proof.
  exists 2309, demo_content, (18, 2), (6, 1), [demo_map], demo_env, 1, [x00], (zeros 16).
  split; [reflexivity|]. split; [reflexivity|]. split; [split; repeat constructor; discriminate|].
  split; [reflexivity|]. split; [reflexivity|]. split; [vm_compute; reflexivity|].
  split; [apply listed_at; vm_compute; reflexivity|]. split; [apply listed_at; vm_compute; reflexivity|].
  split.
  { constructor; [|constructor]. split; [apply listed_at; vm_compute; reflexivity|].
    split. { exists [0; 77]. split; [repeat constructor|]. split; [reflexivity | apply listed_at; vm_compute; reflexivity]. }
    do 7 (split; [apply listed_at; vm_compute; reflexivity|]). split; reflexivity. }
  split; [exists x00; split; reflexivity|]. split; [discriminate|]. reflexivity.
Qed.
Lemma demo_fine : mrm_ok G2 demo.
Proof.
  unfold mrm_ok. repeat match goal with |- _ /\ _ => split end; try solve [plain].
Qed.

Definition demo_skin : skin :=
  mkSkin demo [demo_obb; demo_obb] [mkWNormal (mkV3 1 2 3) 4] [[mkWeight 1 (mkV3 1 2 3) 0; mkWeight 2 (mkV3 1 2 3) 1]; []] [0%Z; (-1)%Z].
Definition demo_skin_bytes : bytes :=
  chunk_bytes (57600, le_enc 4 4) ++ chunk_bytes (45312, demo_section) ++ chunk_bytes (45567, skin_part demo_skin (lit "..")) ++
  chunk_bytes (57616, []).
Lemma demo_skin_stored : skin_file G2 1 demo_skin demo_skin_bytes.
Proof.
  exists (le_enc 4 4), demo_section, (lit ".."). split; [exact demo_stored|]. split; [split; [discriminate | reflexivity]|].
  split; [vm_compute; reflexivity|]. split; [vm_compute; reflexivity | reflexivity].
Qed.
Lemma demo_skin_fine : skin_ok G2 demo_skin.
Proof. split; [exact demo_fine|]. repeat match goal with |- _ /\ _ => split end; solve [plain]. Qed.

Definition demo_mm : modelmesh := mkMM [demo_skin] [(lit "ZS_HAND", demo); (lit "ZS_FOOT", demo)] 77.
Definition demo_mm_bytes : bytes :=
  chunk_bytes (53248, le_enc 4 1) ++ chunk_bytes (53264, []) ++ chunk_bytes (53280, names_bytes demo_mm) ++
  chunk_bytes (45312, demo_section) ++ chunk_bytes (45312, demo_section) ++
  chunk_bytes (53296, le_enc 4 77 ++ le_enc 2 1) ++ demo_skin_bytes ++ chunk_bytes (53312, []).
Lemma demo_mm_stored : mm_file G2 demo_mm demo_mm_bytes.
Proof.
  exists (le_enc 4 1), [], [demo_section; demo_section], [demo_skin_bytes], [].
  split; [split; [discriminate | reflexivity]|]. split; [reflexivity|]. split; [vm_compute; reflexivity|].
  split; [repeat (apply Forall2_cons; [split; [exact demo_stored | vm_compute; reflexivity]|]); constructor|].
  split; [apply Forall2_cons; [exact demo_skin_stored | constructor]|].
  unfold demo_mm_bytes. cbn [flat_map concat]. rewrite ?app_nil_r, <- ?app_assoc. reflexivity.
Qed.
Lemma demo_mm_fine : mm_ok G2 demo_mm.
Proof.
  unfold mm_ok. split; [apply Forall_cons; [exact demo_skin_fine | constructor]|]. split; [reflexivity|].
  split. { repeat (apply Forall_cons; [split; [solve [plain] | split; [vm_compute; intuition discriminate | exact demo_fine]]|]). constructor. }
  split. { repeat constructor; cbn; [intros [H|[]]; discriminate H | intros []]. }
  split; reflexivity.
Qed.

(* ------------------------------------------------------------------ *)
(** ** C49 *)
(** Every multi-resolution mesh is saved as a file that cannot be loaded: for both games, whatever
    it is loaded into, whatever the times at which the header of the materials is written.  (Its
    boxes can be written and the file has less than 1 GB.) *)
Theorem C49_meshes_refuted : forall g e1 e2 m m0, len (we_date e1) = len (we_date e2) -> len (we_user e1) = len (we_user e2) ->
  obb_ok (mr_obb m) -> saved_size g e2 m < 2 ^ 30 ->
  exists f, file_of (mrm_save g e1 e2 m) = Ret f /\ len f = saved_size g e2 m /\ of_file (mrm_load m0) f = Throw ParserError.
Proof. exact mrm_saved_throws. Qed.
Print Assumptions C49_meshes_refuted.
(** The same for soft-skin meshes. *)
Theorem C49_skins_refuted : forall g e1 e2 k k0, len (we_date e1) = len (we_date e2) -> len (we_user e1) = len (we_user e2) ->
  obb_ok (mr_obb (sk_mesh k)) -> Forall obb_ok (sk_bboxes k) -> skin_size g e2 k < 2 ^ 30 ->
  exists f, file_of (skin_save g e1 e2 k) = Ret f /\ len f = skin_size g e2 k /\ of_file (skin_load k0) f = Throw ParserError.
Proof. exact skin_saved_throws. Qed.
Print Assumptions C49_skins_refuted.
(** Loading a saved model mesh throws, or is undefined behaviour if it has no attachments. *)
Theorem C49_model_meshes_refuted : forall g e1 e2 m m0, len (we_date e1) = len (we_date e2) -> len (we_user e1) = len (we_user e2) ->
  mm_writable m -> len (mm_attachments m) < 2 ^ 16 -> mm_size g e2 m < 2 ^ 30 -> mm_attachments m0 = [] ->
  exists f, file_of (mm_save g e1 e2 m) = Ret f /\ len f = mm_size g e2 m /\
    of_file (mm_load m0) f = match mm_attachments m with [] => Undef | _ => Throw ParserError end.
Proof. exact mm_saved. Qed.
Print Assumptions C49_model_meshes_refuted.
Example C49_nonvacuous : obb_ok (mr_obb demo) /\ Forall obb_ok (sk_bboxes demo_skin) /\ mm_writable demo_mm /\
  saved_size G2 demo_env demo < 2 ^ 30 /\ skin_size G2 demo_env demo_skin < 2 ^ 30 /\ mm_size G2 demo_env demo_mm < 2 ^ 30 /\
  mm_size G1 demo_env mm_new < 2 ^ 30.
Proof.
  split; [apply demo_fine|]. split; [apply demo_skin_fine|]. split; [split; solve [plain]|].
  split; [vm_compute; reflexivity|]. split; [vm_compute; reflexivity|]. split; vm_compute; reflexivity.
Qed.

(* ------------------------------------------------------------------ *)
(** ** C94 *)
(** A file with a mesh loads as that mesh, whatever object it is loaded into: the lists may be
    anywhere in the content. *)
Theorem C94_meshes_partial : forall g m0 m f, mrm_ok g m -> mrm_file g (mr_alpha m0) m f -> len f < max_size ->
  of_file (mrm_load m0) f = Ret m.
Proof. exact mrm_file_loads. Qed.
Print Assumptions C94_meshes_partial.
Theorem C94_skins_partial : forall g k0 k f, skin_ok g k -> skin_file g (mr_alpha (sk_mesh k0)) k f -> reads (skin_load k0) f k.
Proof. exact skin_loads. Qed.
Print Assumptions C94_skins_partial.
Theorem C94_model_meshes_partial : forall g m f, mm_ok g m -> mm_file g m f -> len f < max_size -> of_file (mm_load mm_new) f = Ret m.
Proof. exact mm_file_loads. Qed.
Print Assumptions C94_model_meshes_partial.
(** Two attachments of the same name: the second mesh replaces the first, and the mesh of the next
    name is then stored under that name again, so that the next name is lost.  (The alpha test is
    on in all three meshes, as it is in a new mesh.) *)
Theorem C94_names_refuted : forall g m f n n' x y z, mm_fits g m -> mm_attachments m = [(n, x); (n, y); (n', z)] ->
  mr_alpha x = 1 -> mr_alpha y = 1 -> mr_alpha z = 1 -> mm_file g m f -> len f < max_size ->
  of_file (mm_load mm_new) f = Ret (mkMM (mm_skins m) [(n, z)] (mm_checksum m)).
Proof. exact names_twice. Qed.
Print Assumptions C94_names_refuted.
Definition demo1 : mrm :=
  mkMrm (mr_positions demo) (mr_normals demo) (mr_subs demo) (mr_materials demo) 1 (mr_bbox demo) demo_obb.
Definition demo1_section : bytes :=
  le_enc 2 2309 ++ le_enc 4 (len demo_content) ++ demo_content ++ le_enc 1 1 ++ entry_bytes (18, 2) ++ entry_bytes (6, 1) ++
  flat_map map_bytes [demo_map] ++ mats_archive G2 demo_env 1 [stone] ++ [x01] ++ box_bytes (mr_bbox demo) ++
  tree_bytes (mr_obb demo) ++ zeros 16.
Lemma demo1_stored : mrm_section G2 1 demo1 demo1_section.
Proof.
  exists 2309, demo_content, (18, 2), (6, 1), [demo_map], demo_env, 1, [x01], (zeros 16).
  split; [reflexivity|]. split; [reflexivity|]. split; [split; repeat constructor; discriminate|].
  split; [reflexivity|]. split; [reflexivity|]. split; [vm_compute; reflexivity|].
  split; [apply listed_at; vm_compute; reflexivity|]. split; [apply listed_at; vm_compute; reflexivity|].
  split.
  { constructor; [|constructor]. split; [apply listed_at; vm_compute; reflexivity|].
    split. { exists [0; 77]. split; [repeat constructor|]. split; [reflexivity | apply listed_at; vm_compute; reflexivity]. }
    do 7 (split; [apply listed_at; vm_compute; reflexivity|]). split; reflexivity. }
  split; [exists x01; split; reflexivity|]. split; [discriminate|]. reflexivity.
Qed.
Definition demo_twice : modelmesh := mkMM [] [(lit "ZS_HAND", demo1); (lit "ZS_HAND", demo1); (lit "ZS_FOOT", demo1)] 77.
Definition demo_twice_bytes : bytes :=
  chunk_bytes (53248, le_enc 4 1) ++ chunk_bytes (53264, []) ++ chunk_bytes (53280, names_bytes demo_twice) ++
  chunk_bytes (45312, demo1_section) ++ chunk_bytes (45312, demo1_section) ++ chunk_bytes (45312, demo1_section) ++
  chunk_bytes (53296, le_enc 4 77 ++ le_enc 2 0) ++ chunk_bytes (53312, []).
Example C94_names_example : mm_fits G2 demo_twice /\ mm_file G2 demo_twice demo_twice_bytes /\ len demo_twice_bytes < max_size.
Proof.
  split; [|split; [|vm_compute; reflexivity]].
  - split; [constructor|]. split; [reflexivity|].
    split. { repeat (apply Forall_cons; [split; [solve [plain] | split; [vm_compute; intuition discriminate | exact demo_fine]]|]). constructor. }
    split; reflexivity.
  - exists (le_enc 4 1), [], [demo1_section; demo1_section; demo1_section], [], [].
    split; [split; [discriminate | reflexivity]|]. split; [reflexivity|]. split; [vm_compute; reflexivity|].
    split; [repeat (apply Forall2_cons; [split; [exact demo1_stored | vm_compute; reflexivity]|]); constructor|].
    split; [constructor|].
    unfold demo_twice_bytes. cbn [flat_map concat]. rewrite ?app_nil_r, <- ?app_assoc. reflexivity.
Qed.
(** A model is a skeleton, as it is saved, followed by a model mesh. *)
Theorem C94_models_partial : forall g h h0 m hb f, hier_ok h -> mm_ok g m -> mm_file g m f -> file_of (hier_save h) = Ret hb ->
  len (hb ++ f) < max_size -> of_file (model_load h0 mm_new) (hb ++ f) = Ret (h, m).
Proof. exact model_loads. Qed.
Print Assumptions C94_models_partial.
Theorem C94_morph_meshes_partial : forall g m f, morph_ok g m -> morph_file g m f -> len f < max_size ->
  of_file (morph_load morph_new) f = Ret m.
Proof. exact morph_file_loads. Qed.
Print Assumptions C94_morph_meshes_partial.
(** For all functions [position_of] and [rotation_of] that decode the numbers of a sample. *)
Theorem C94_animations_partial : forall position_of rotation_of a0 a f, animation_ok a -> ani_file position_of rotation_of a f ->
  len f < max_size -> of_file (ani_load position_of rotation_of a0) f = Ret a.
Proof. exact ani_file_loads. Qed.
Print Assumptions C94_animations_partial.
Example C94_nonvacuous_meshes : mrm_ok G2 demo /\ mrm_file G2 1 demo (chunk_bytes (45312, demo_section) ++ chunk_bytes (45567, [])) /\
  mm_ok G2 demo_mm /\ mm_file G2 demo_mm demo_mm_bytes /\ skin_ok G2 demo_skin /\ skin_file G2 1 demo_skin demo_skin_bytes.
Proof.
  split; [exact demo_fine|]. split.
  { exists demo_section, []. split; [exact demo_stored|]. split; [vm_compute; reflexivity|]. rewrite app_nil_r. reflexivity. }
  split; [exact demo_mm_fine|]. split; [exact demo_mm_stored|]. split; [exact demo_skin_fine | exact demo_skin_stored].
Qed.

Definition demo_date : date := mkDate 2002 9 1 12 30 59.
Definition demo_manim : manim := mkManim (lit "VISEME") 1 2 3 4 5 6 2 [0; 1] [mkV3 1 2 3; mkV3 4 5 6; mkV3 7 8 9; mkV3 1 1 1].
Definition demo_morph : morph :=
  mkMorph (lit "HUM_HEAD") demo [mkV3 1 2 3; mkV3 4 5 6] [demo_manim] [mkMsource demo_date (lit "A.ASC"); mkMsource demo_date (lit "B.ASC")].
Definition demo_morph_bytes : bytes :=
  chunk_bytes (57360, le_enc 2 2 ++ date_bytes demo_date 0 ++ lit "A.ASC" ++ [x0a] ++ date_bytes demo_date 9 ++ lit "B.ASC" ++ [x0a]) ++
  chunk_bytes (57376, le_enc 4 5 ++ lit "HUM_HEAD" ++ [x0a]) ++ chunk_bytes (45312, demo_section) ++
  chunk_bytes (45567, flat_map v3_bytes (mo_positions demo_morph)) ++
  chunk_bytes (57392, le_enc 2 1 ++ manim_bytes (demo_manim, x0a)).
Definition demo_event : aevent := mkAevent 1 2 (lit "EVT") [lit "a"; lit "b"; []; lit "d"] [1; 2; 3; 4] 5.
Definition demo_animation (sample : stored -> asample) : animation :=
  mkAnimation (lit "S_RUN") (lit "S_RUN") 1 2 1 3 4 5 6 (mkAabb (mkV3 1 2 3) (mkV3 4 5 6)) 77 (lit "RUN.ASC") demo_date
    (lit "ani x") (map sample [mkStored 1 2 3 4 5 6; mkStored 7 8 9 10 11 65535]) [demo_event] [7].
Example C94_nonvacuous_animations : morph_ok G2 demo_morph /\ morph_file G2 demo_morph demo_morph_bytes /\
  forall position_of rotation_of, exists f, animation_ok (demo_animation (sample_of position_of rotation_of 6 5)) /\
    ani_file position_of rotation_of (demo_animation (sample_of position_of rotation_of 6 5)) f /\ len f < max_size.
Proof.
  split; [split; [plain|]; split; [exact demo_fine|]; repeat match goal with |- _ /\ _ => split end; solve [plain]|].
  split.
  { exists (date_bytes demo_date 0 ++ lit "A.ASC" ++ [x0a] ++ date_bytes demo_date 9 ++ lit "B.ASC" ++ [x0a]), 5, x0a, demo_section, [x0a].
    split. { apply (sources_more (mkMsource demo_date (lit "A.ASC"))); [reflexivity | |].
      - right. split; [left; reflexivity|]. split; [discriminate|]. vm_compute. intuition discriminate.
      - apply (sources_one (mkMsource demo_date (lit "B.ASC"))); [reflexivity | right; left; reflexivity]. }
    split; [reflexivity|]. split; [right; left; reflexivity|]. split; [exact demo_stored|]. split; [reflexivity|].
    split; [repeat constructor; right; left; reflexivity|]. cbv zeta.
    split; [vm_compute; reflexivity|]. split; [vm_compute; reflexivity|]. split; [vm_compute; reflexivity|]. split; [vm_compute; reflexivity|].
    split; [vm_compute; reflexivity|]. unfold demo_morph_bytes. reflexivity. }
  intros position_of rotation_of. eexists. split.
  { unfold animation_ok. repeat match goal with |- _ /\ _ => split end; solve [plain]. }
  split.
  { exists (lit "x"), 0, x0a, x0a, 12, x0a, x0a,
      [le_enc 4 1 ++ le_enc 4 2 ++ lit "EVT" ++ [x0a] ++ lit "a" ++ [x00] ++ lit "b" ++ [x00] ++ [] ++ [x00] ++ lit "d" ++ [x0a] ++
         flat_map (le_enc 4) [1; 2; 3; 4] ++ le_enc 4 5],
      [mkStored 1 2 3 4 5 6; mkStored 7 8 9 10 11 65535].
    split; [reflexivity|]. split; [reflexivity|]. do 4 (split; [right; left; reflexivity|]).
    split. { constructor; [|constructor]. eexists. split; [|reflexivity]. cbn [ev_tag ev_content demo_event].
      assert (V : forall l, hd x00 l = x45 \/ hd x00 l = x61 \/ hd x00 l = x01 -> 2 <= len l -> ends_line x0a l).
      { intros l Hh H2. right. split; [left; reflexivity|]. split; [exact H2|].
        destruct l as [|c l]; [discriminate (proj1 (conj I I)) || (exfalso; rewrite len_nil in H2; lia)|].
        cbn [hd] in Hh. unfold starts_visible. destruct Hh as [->|[->| ->]]; vm_compute; intuition discriminate. }
      repeat (apply lines_more; [| first [left; reflexivity | apply V; [vm_compute; tauto | discriminate]]]). apply lines_none. }
    split; [repeat constructor|]. split; [reflexivity|]. cbv zeta.
    split; [vm_compute; reflexivity|]. split; [vm_compute; reflexivity|]. split; [vm_compute; reflexivity|]. split; [vm_compute; reflexivity|].
    split; [vm_compute; reflexivity|]. reflexivity. }
  vm_compute; reflexivity.
Qed.
(** What the layouts above exclude goes wrong: after a line that ends with a line feed the reader
    skips white space, so that the strings of an event that follow an empty one, or bytes of its
    numbers, are lost. *)
Definition event_bytes (e : aevent) : bytes :=
  le_enc 4 (ev_type e) ++ le_enc 4 (ev_frame e) ++ flat_map (fun s => s ++ [x0a]) (ev_tag e :: ev_content e) ++
  flat_map (le_enc 4) (ev_values e) ++ le_enc 4 (ev_probability e).
Definition empty_event : aevent := mkAevent 1 2 (lit "EVT") [[]; []; []; lit "x"] [1; 2; 3; 4] 5.
Definition spaced_event : aevent := mkAevent 1 2 (lit "EVT") [lit "a"; lit "b"; lit "c"; lit "d"] [32; 2; 3; 4] 5.
Theorem C94_events_refuted : forall position_of rotation_of e, e = empty_event \/ e = spaced_event -> aevent_ok e /\
  exists a, of_file (ani_load position_of rotation_of animation_new) (chunk_bytes (41008, le_enc 4 1 ++ event_bytes e)) = Ret a /\
    ani_events a <> [e].
Proof.
  intros p r e [->| ->]; (split; [unfold aevent_ok; repeat match goal with |- _ /\ _ => split end; solve [plain]|];
    eexists; split; [vm_compute; reflexivity | discriminate]).
Qed.
Print Assumptions C94_events_refuted.

(* ------------------------------------------------------------------ *)
(** ** C95 *)
(** Loading an animation from any bytes returns or throws. *)
Theorem C95_animations_partial : forall position_of rotation_of a, forward (ani_load position_of rotation_of a).
Proof. exact ani_forward. Qed.
Print Assumptions C95_animations_partial.
Example C95_nonvacuous : r_ok (mkR (chunk_bytes (41008, le_enc 4 1 ++ event_bytes demo_event)) 0).
Proof. split; vm_compute; [discriminate | reflexivity]. Qed.
(** A mesh in a model-mesh file without a name for it is undefined behaviour, whatever follows. *)
Theorem C95_model_meshes_refuted : forall sec rest m0, len (chunk_bytes (45312, sec) ++ rest) < max_size ->
  of_file (mm_load m0) (chunk_bytes (45312, sec) ++ rest) = Undef.
Proof. exact mm_unnamed. Qed.
Print Assumptions C95_model_meshes_refuted.

(* ------------------------------------------------------------------ *)
(** ** C96 *)
(** Whatever file was loaded: a mesh has a sub-mesh for each material, with that material; a
    soft-skin mesh has a box for each node; the attachments of a model mesh have different names;
    a morph mesh has a morph position for each position of its mesh, and its animations have a
    sample for each vertex in each frame, up to multiples of 2^32. *)
Theorem C96_meshes : forall s m s', mrm_load mrm_new s = Ret (m, s') -> mrm_consistent m.
Proof. exact mrm_loaded. Qed.
Print Assumptions C96_meshes.
Theorem C96_skins_partial : forall s k s', skin_load skin_new s = Ret (k, s') -> skin_consistent k.
Proof. exact skin_loaded. Qed.
Print Assumptions C96_skins_partial.
Theorem C96_model_meshes_partial : forall s m s', mm_load mm_new s = Ret (m, s') -> mm_consistent m.
Proof. exact mm_loaded. Qed.
Print Assumptions C96_model_meshes_partial.
Theorem C96_morph_meshes_partial : forall s m s', morph_load morph_new s = Ret (m, s') -> morph_consistent m.
Proof. exact morph_loaded. Qed.
Print Assumptions C96_morph_meshes_partial.
Example C96_nonvacuous : (exists s', mm_load mm_new (mkR demo_mm_bytes 0) = Ret (demo_mm, s')) /\
  exists s', morph_load morph_new (mkR demo_morph_bytes 0) = Ret (demo_morph, s').
Proof. split; eexists; vm_compute; reflexivity. Qed.
(** The number of samples of a morph animation wraps; *)
Theorem C96_samples_refuted : exists f m a, of_file (morph_load morph_new) f = Ret m /\ mo_anims m = [a] /\
  len (an_vertices a) = 2 /\ an_frames a = 2147483648 /\ an_samples a = [].
Proof.
  exists (chunk_bytes (57392, le_enc 2 1 ++ manim_bytes (mkManim [] 0 0 0 0 0 0 2147483648 [7; 8] [], x0a))).
  do 2 eexists. split; [vm_compute; reflexivity|]. repeat split.
Qed.
Print Assumptions C96_samples_refuted.
(** if the chunk with the weights comes first, there are no weights for the positions; *)
Theorem C96_weights_refuted : exists f k, of_file (skin_load skin_new) f = Ret k /\
  len (mr_positions (sk_mesh k)) = 2 /\ sk_weights k = [].
Proof.
  exists (chunk_bytes (45567, skin_part skin_new []) ++ chunk_bytes (45312, demo_section) ++ chunk_bytes (57616, [])).
  eexists. split; [vm_compute; reflexivity|]. split; reflexivity.
Qed.
Print Assumptions C96_weights_refuted.
(** and an animation whose header comes after its samples has none. *)
Theorem C96_animation_samples_refuted : forall position_of rotation_of, exists f a,
  of_file (ani_load position_of rotation_of animation_new) f = Ret a /\
  ani_nodes a = 1 /\ ani_frames a = 1 /\ ani_samples a = [].
Proof.
  intros p r.
  exists (chunk_bytes (41104, le_enc 4 1) ++ chunk_bytes (40992, le_enc 2 12 ++ lit "S_RUN" ++ [x0a] ++ le_enc 4 1 ++ le_enc 4 1 ++ le_enc 4 1 ++ zeros 40 ++ [x0a])).
  eexists. split; [vm_compute; reflexivity|]. split; [reflexivity|]. split; reflexivity.
Qed.
Print Assumptions C96_animation_samples_refuted.

(* ------------------------------------------------------------------ *)
(** ** C97 *)
(** Loading a morph mesh into a used object keeps its animations in front of those of the file;
    everything else is replaced.  (Meshes and animations: C94.) *)
Theorem C97_morph_meshes_partial : forall g m m0 f, morph_ok g m -> morph_file g m f -> len f < max_size ->
  mr_alpha (mo_mesh m0) = 1 ->
  of_file (morph_load m0) f = Ret (mkMorph (mo_name m) (mo_mesh m) (mo_positions m) (mo_anims m0 ++ mo_anims m) (mo_sources m)).
Proof. exact morph_file_loads_over. Qed.
Print Assumptions C97_morph_meshes_partial.
Example C97_nonvacuous : morph_ok G2 demo_morph /\ morph_file G2 demo_morph demo_morph_bytes /\ len demo_morph_bytes < max_size /\
  mr_alpha (mo_mesh morph_new) = 1.
Proof.
  split; [apply C94_nonvacuous_animations|]. split; [apply C94_nonvacuous_animations|]. split; [vm_compute; reflexivity | reflexivity].
Qed.
(** Loading the same file twice: *)
Theorem C97_reload_refuted :
  (exists f m1 m2, of_file (morph_load morph_new) f = Ret m1 /\ of_file (morph_load m1) f = Ret m2 /\
     len (mo_anims m1) = 1 /\ len (mo_anims m2) = 2) /\
  (exists f m1, of_file (mm_load mm_new) f = Ret m1 /\ of_file (mm_load m1) f = Undef) /\
  (exists f f' m1 m2, of_file (mrm_load mrm_new) f = Ret m1 /\ of_file (mrm_load m1) f' = Ret m2 /\
     exists m3, of_file (mrm_load mrm_new) f' = Ret m3 /\ mr_alpha m2 <> mr_alpha m3).
Proof.
  split; [|split].
  - exists demo_morph_bytes. do 2 eexists. split; [vm_compute; reflexivity|]. split; [vm_compute; reflexivity|]. split; reflexivity.
  - exists demo_mm_bytes. eexists. split; [vm_compute; reflexivity|]. vm_compute; reflexivity.
  - exists (chunk_bytes (45312, demo_section) ++ chunk_bytes (45567, [])),
      (chunk_bytes (45312, le_enc 2 773 ++ drop 2 (take (len demo_section - 103) demo_section) ++ drop (len demo_section - 102) demo_section) ++ chunk_bytes (45567, [])).
    do 2 eexists. split; [vm_compute; reflexivity|]. split; [vm_compute; reflexivity|]. eexists. split; [vm_compute; reflexivity | discriminate].
Qed.
Print Assumptions C97_reload_refuted.
