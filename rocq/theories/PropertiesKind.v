(** Files of another kind (C120), the exceptions of failed loads (C121) and unknown chunks (C122). *)

From Coq Require Import String Lia.
From Verif Require Import MBase MStream SStream MBoxes MTexture MModel MText MClasses MArchive SArchive.
From Verif Require Import MVob MVobs MNpc MCutscene MMaterial MWorld MLib MMesh MBsp MMrm MSave MLevel.
From Verif Require MVfs MScript PropertiesFormats.
From Verif Require Import SKind SUnknown SThrows LKind LUnknown LThrows LThrowsX.
Local Open Scope N_scope.

(** ** C120: files of another kind are refused *)
(** A font whose first line is not "1"; a texture that does not begin with "ZTEX" or has another
    version than zero. *)
Theorem C120_fonts : forall b, len b < max_size -> first_line b <> lit "1" -> font_load (r_from b) = Throw ParserError.
Proof. exact fonts_refused. Qed.
Print Assumptions C120_fonts.
Theorem C120_textures : forall t b, len b < max_size -> ~ stands (lit "ZTEX") 0 b -> tex_load t (r_from b) = Throw ParserError.
Proof. exact textures_refused. Qed.
Print Assumptions C120_textures.
Theorem C120_texture_versions : forall t v post, len (lit "ZTEX" ++ v ++ post) < max_size -> len v = 4 -> v <> zeros 4 ->
  tex_load t (r_from (lit "ZTEX" ++ v ++ post)) = Throw ParserError.
Proof. exact versions_refused. Qed.
Print Assumptions C120_texture_versions.
Example C120_example_fonts : first_line (lit "2" ++ [x0a]) <> lit "1" /\ font_load (r_from (lit "2" ++ [x0a])) = Throw ParserError.
Proof.
  assert (H : first_line (lit "2" ++ [x0a]) <> lit "1") by (vm_compute; discriminate).
  split; [exact H|]. apply C120_fonts; [vm_compute; reflexivity | exact H].
Qed.
Example C120_example_textures : ~ stands (lit "ZTEX") 0 (lit "DDS and more") /\ stands (lit "ZTEX") 0 (lit "ZTEX and more") /\
  [x01; x00; x00; x00] <> zeros 4.
Proof. repeat split; vm_compute; congruence. Qed.

(** Archives: the first line, the version, and the lines of the header that must be there. *)
Theorem C120_magic : forall b, len b < max_size -> first_line b <> lit "ZenGin Archive" -> ar_open (r_from b) = Throw ParserError.
Proof. exact magic_refused. Qed.
Print Assumptions C120_magic.
Theorem C120_version_line : forall l rest, len (text [lit "ZenGin Archive"; l] ++ rest) < max_size ->
  visible l -> ~ begins (lit "ver ") l ->
  ar_open (r_from (text [lit "ZenGin Archive"; l] ++ rest)) = Throw ParserError.
Proof. exact version_line_refused. Qed.
Print Assumptions C120_version_line.
Theorem C120_versions : forall z rest, len (text [lit "ZenGin Archive"; lit "ver " ++ decz z] ++ rest) < max_size ->
  (- 2 ^ 31 <= z < 2 ^ 31)%Z -> z <> 1%Z ->
  ar_open (r_from (text [lit "ZenGin Archive"; lit "ver " ++ decz z] ++ rest)) = Throw ParserError.
Proof. exact other_versions_refused. Qed.
Print Assumptions C120_versions.
Theorem C120_save_line : forall a f l rest, len (text [lit "ZenGin Archive"; lit "ver 1"; a; f; l] ++ rest) < max_size ->
  visible a -> visible f -> visible l -> ~ begins (lit "saveGame ") l ->
  ar_open (r_from (text [lit "ZenGin Archive"; lit "ver 1"; a; f; l] ++ rest)) = Throw ParserError.
Proof. exact save_line_refused. Qed.
Print Assumptions C120_save_line.
(** [saved] is the line that tells whether the archive is part of a saved game. *)
Definition saved (sv : bool) : bytes := if sv then lit "saveGame 1" else lit "saveGame 0".
Theorem C120_end_line : forall a f sv l rest,
  len (text [lit "ZenGin Archive"; lit "ver 1"; a; f; saved sv; l] ++ rest) < max_size ->
  visible a -> visible f -> visible l -> ~ begins (lit "date ") l -> ~ begins (lit "user ") l -> l <> lit "END" ->
  ar_open (r_from (text [lit "ZenGin Archive"; lit "ver 1"; a; f; saved sv; l] ++ rest)) = Throw ParserError.
Proof. exact end_line_refused. Qed.
Print Assumptions C120_end_line.
Theorem C120_end_after : forall a f sv d u l rest,
  len (text [lit "ZenGin Archive"; lit "ver 1"; a; f; saved sv; lit "date " ++ d; lit "user " ++ u; l] ++ rest) < max_size ->
  visible a -> visible f -> no_eol d -> no_eol u -> visible l -> l <> lit "END" ->
  ar_open (r_from (text [lit "ZenGin Archive"; lit "ver 1"; a; f; saved sv; lit "date " ++ d; lit "user " ++ u; l] ++ rest)) = Throw ParserError.
Proof. exact end_after_refused. Qed.
Print Assumptions C120_end_after.
Theorem C120_count_line : forall a f sv l rest, In f [lit "ASCII"; lit "BINARY"] ->
  len (text [lit "ZenGin Archive"; lit "ver 1"; a; f; saved sv; lit "END"; l] ++ rest) < max_size ->
  visible a -> visible l -> ~ begins (lit "objects ") l ->
  ar_open (r_from (text [lit "ZenGin Archive"; lit "ver 1"; a; f; saved sv; lit "END"; l] ++ rest)) = Throw ParserError.
Proof. exact count_line_refused. Qed.
Print Assumptions C120_count_line.
(** What fails to open is not loaded: objects, the two files of a saved game, worlds. *)
Theorem C120_loading : forall b e, ar_open (r_from b) = Throw e ->
  (forall c n, load_archive (c_load (library c)) (c_flags (library c)) n b = Throw e) /\
  (forall c n x, load_savedat c n x b = Throw e) /\ (forall c n, load_saveinfo c n b = Throw e) /\
  (forall c n x h0, load_level c n x h0 (r_from b) = Throw e) /\ (forall n, determine_version n (r_from b) = Throw e) /\
  (forall pack depth n x h0, load_any pack depth n x h0 (r_from b) = Throw e).
Proof. exact opening_throws. Qed.
Print Assumptions C120_loading.
Example C120_example_archives :
  first_line (text [lit "ZenGin archive"; lit "ver 1"]) <> lit "ZenGin Archive" /\
  (visible (lit "version 1") /\ ~ begins (lit "ver ") (lit "version 1")) /\
  (visible (lit "zCArchiverGeneric") /\ visible (lit "ASCII") /\ visible (lit "savegame 0") /\ ~ begins (lit "saveGame ") (lit "savegame 0")) /\
  (visible (lit "End") /\ ~ begins (lit "date ") (lit "End") /\ ~ begins (lit "user ") (lit "End") /\ lit "End" <> lit "END").
Proof.
  assert (V : forall s, forallb (fun c => negb (beq c x00 || beq c x0d || beq c x0a)) s = true ->
    match s with [] => False | c :: _ => ~ In c ws_chars end -> visible s).
  { intros s H1 H2. split; [|exact H2]. apply Forall_forall. intros c Hc. rewrite forallb_forall in H1. specialize (H1 c Hc).
    destruct c; try (vm_compute in H1; discriminate H1); repeat split; discriminate. }
  assert (W : forall c, existsb (beq c) ws_chars = false -> ~ In c ws_chars).
  { intros c H Hc. assert (X : existsb (beq c) ws_chars = true) by (apply existsb_exists; exists c; split; [exact Hc | destruct c; reflexivity]). congruence. }
  repeat split; try (vm_compute; discriminate); try (intros [r H]; vm_compute in H; discriminate H);
    try (apply V; [vm_compute; reflexivity|apply W; vm_compute; reflexivity]).
  all: try (apply (V (lit "version 1"))); try (apply (V (lit "zCArchiverGeneric"))); try (apply (V (lit "ASCII"))); try (apply (V (lit "savegame 0")));
    try (apply (V (lit "End"))); try (vm_compute; reflexivity); try (apply W; vm_compute; reflexivity).
Qed.

(** File archives: no known signature, nothing mounted. *)
Theorem C120_disks : forall fuel k pol nm t l b, len b < max_size ->
  ~ (exists s, In s disk_signatures /\ stands s 256 b) ->
  MVfs.mount_disk fuel k pol (MVfs.NDir nm t l) b = Throw VfsBrokenDisk.
Proof. exact disks_refused. Qed.
Print Assumptions C120_disks.
Example C120_example_disks :
  ~ (exists s, In s disk_signatures /\ stands s 256 (zeros 256 ++ lit "PSVDSC_V2.00" ++ [x0a; x0a; x0a; x0a])) /\
  (exists s, In s disk_signatures /\ stands s 256 (zeros 256 ++ lit "PSVDSC_V2.00" ++ [x1a; x1a; x1a; x1a])).
Proof.
  split.
  - intros (s & [<-|[<-|[<-|[]]]] & H); vm_compute in H; discriminate H.
  - eexists. split; [left; reflexivity|]. vm_compute. reflexivity.
Qed.

(** ** C121: loading fails only with the library's own exceptions: false of archives *)
Theorem C121_fonts_textures_partial : throws_only [ParserError] font_load /\ forall t, throws_only [ParserError] (tex_load t).
Proof. exact fonts_textures_throw. Qed.
Print Assumptions C121_fonts_textures_partial.
(** Skeletons, trees and animations throw nothing. *)
Theorem C121_never_partial : (forall h, throws_only [] (hier_load h)) /\ (forall t v, throws_only [] (bsp_load t v)) /\
  (forall po ro a, throws_only [] (ani_load po ro a)).
Proof. exact never_throw. Qed.
Print Assumptions C121_never_partial.
(** Meshes and models hold archives of materials, and fail as archives do. *)
Theorem C121_meshes_partial : (forall m wide, throws_only [ParserError; OutOfRange] (mesh_load m wide)) /\
  (forall m, throws_only [ParserError; OutOfRange] (mrm_load m)) /\ (forall k, throws_only [ParserError; OutOfRange] (skin_load k)) /\
  (forall m, throws_only [ParserError; OutOfRange] (mm_load m)) /\ (forall h m, throws_only [ParserError; OutOfRange] (model_load h m)) /\
  (forall m, throws_only [ParserError; OutOfRange] (morph_load m)).
Proof. exact meshes_throw. Qed.
Print Assumptions C121_meshes_partial.
(** Opening an archive throws [ParserError] or [std::out_of_range]; in an archive that is open,
    only text makes it [std::out_of_range]. *)
Theorem C121_archives_partial : throws_only [ParserError; OutOfRange] ar_open /\
  forall c n b h r e, ar_open (mkR b 0) = Ret (h, r) -> load_archive (c_load (library c)) (c_flags (library c)) n b = Throw e ->
    In e [ParserError; OtherExn] \/ (e = OutOfRange /\ ah_format h = AAscii).
Proof. exact archives_throw. Qed.
Print Assumptions C121_archives_partial.
Theorem C121_worlds_partial : forall c n x h0, throws_only [ParserError; OtherExn; OutOfRange] (load_level c n x h0).
Proof. exact worlds_throw. Qed.
Print Assumptions C121_worlds_partial.
(** Every archive with a version of more than 31 bits throws [std::out_of_range]; *)
Theorem C121_range_refuted : ~ own_error OutOfRange /\
  forall z rest, len (text [lit "ZenGin Archive"; lit "ver " ++ decz z] ++ rest) < max_size -> (2 ^ 31 <= z)%Z ->
    ar_open (r_from (text [lit "ZenGin Archive"; lit "ver " ++ decz z] ++ rest)) = Throw OutOfRange.
Proof. split; [exact (fun H => H) | exact huge_version_throws]. Qed.
Print Assumptions C121_range_refuted.
(** a way net of minus one points throws [std::length_error]. *)
Theorem C121_length_refuted : ~ own_error OtherExn /\ exists b head r, ar_open (mkR b 0) = Ret (head, r) /\
  forall c n, load_archive (c_load (library c)) (c_flags (library c)) (S n) b = Throw OtherExn.
Proof. split; [exact (fun H => H) | exact length_throws]. Qed.
Print Assumptions C121_length_refuted.
(** Both kinds of failure happen, and so does none. *)
Example C121_example : font_load (r_from (lit "2" ++ [x0a])) = Throw ParserError /\ own_error ParserError /\
  (2 ^ 31 <= 3000000000)%Z /\ (exists x, font_load (r_from (lit "1" ++ [x0a])) = Ret x).
Proof. split; [vm_compute; reflexivity|]. split; [exact I|]. split; [lia|]. eexists. vm_compute. reflexivity. Qed.

(** ** C122: chunks of unknown types are passed over *)
Theorem C122_skeletons : forall h, passes_over (hier_load h) h skeleton_chunks.
Proof. exact hier_passes. Qed.
Print Assumptions C122_skeletons.
Theorem C122_animations : forall po ro a, passes_over (ani_load po ro a) a animation_chunks.
Proof. exact ani_passes. Qed.
Print Assumptions C122_animations.
Theorem C122_meshes : forall m wide, passes_over (mesh_load m wide) m mesh_chunk_types.
Proof. exact mesh_passes. Qed.
Print Assumptions C122_meshes.
Theorem C122_trees : forall t v, passes_over (bsp_load t v) t bsp_chunk_types.
Proof. exact bsp_passes. Qed.
Print Assumptions C122_trees.
Theorem C122_model_parts : (forall m, passes_over (mrm_load m) m mrm_chunk_types) /\ (forall k, passes_over (skin_load k) k skin_chunk_types) /\
  (forall m, passes_over (mm_load m) m model_mesh_chunks) /\ (forall m, passes_over (morph_load m) m morph_chunk_types).
Proof. exact mesh_parts_pass. Qed.
Print Assumptions C122_model_parts.
Theorem C122_scripts : forall x, passes_over (MScript.mds_binary x) x script_chunk_types.
Proof. exact mds_passes. Qed.
Print Assumptions C122_scripts.
(** A chunk of an unknown type before the chunks of a saved skeleton: it loads as the skeleton. *)
Definition demo_skeleton : bytes := Eval vm_compute in
  match SFormat.file_of (hier_save PropertiesFormats.demo_hier) with Ret b => b | _ => [] end.
Definition demo_empty : hierarchy := mkHier [] (mkAabb zero3 zero3) (mkAabb zero3 zero3) zero3 0 (mkDate 0 0 0 0 0 0) [].
Example C122_example :
  ~ In 7 skeleton_chunks /\
  hier_load demo_empty (r_from (chunk_bytes (7, lit "anything") ++ demo_skeleton)) =
  hier_load demo_empty (mkR (chunk_bytes (7, lit "anything") ++ demo_skeleton) 14) /\
  exists s, hier_load demo_empty (r_from (chunk_bytes (7, lit "anything") ++ demo_skeleton)) = Ret (PropertiesFormats.demo_hier, s).
Proof.
  assert (N7 : ~ In 7 skeleton_chunks) by (intros [H|[H|[H|[]]]]; discriminate H).
  split; [exact N7|]. split.
  - pose proof (proj1 (C122_skeletons demo_empty) 7 (lit "anything") [] demo_skeleton) as H.
    apply H; [vm_compute; reflexivity | vm_compute; reflexivity | exact N7 | vm_compute; discriminate | vm_compute; reflexivity | vm_compute; discriminate].
  - eexists. vm_compute. reflexivity.
Qed.
