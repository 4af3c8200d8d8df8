(** Files whose end is missing (C124). *)

From Coq Require Import String Lia.
From Verif Require Import MBase MStream SStream MBoxes SBoxes MTexture STexture MModel SFormat MMesh MBsp MMrm MDaedalus SDaedalus SKind.
From Verif Require Import LCut LCutScript.
Local Open Scope N_scope.

(** ** C124: a file whose end is missing is not loaded *)
(** What is missing is read as zeros: a texture or font file, and the file filled up with any number
    of zeros, load with the same outcome. *)
Theorem C124_textures_zeros_partial : forall t b n, len (b ++ zeros n) < max_size ->
  of_file (tex_load t) b = of_file (tex_load t) (b ++ zeros n).
Proof. exact (fun t b n H => eq_sym (tex_zeros t b n H)). Qed.
Print Assumptions C124_textures_zeros_partial.
Theorem C124_fonts_zeros_partial : forall rest n, len ((lit "1" ++ [x0a]) ++ rest ++ zeros n) < max_size ->
  starts_visible rest -> hd x01 rest <> x00 ->
  of_file font_load ((lit "1" ++ [x0a]) ++ rest) = of_file font_load ((lit "1" ++ [x0a]) ++ rest ++ zeros n).
Proof. exact (fun rest n H V Z => eq_sym (font_zeros rest n H V Z)). Qed.
Print Assumptions C124_fonts_zeros_partial.
(** Files that end before their kind is known are refused: fewer than four bytes of a texture, no first line of a font. *)
Theorem C124_kind_partial : (forall t b, len b < 4 -> tex_load t (r_from b) = Throw ParserError) /\ font_load (r_from []) = Throw ParserError.
Proof. exact short_refused. Qed.
Print Assumptions C124_kind_partial.

(** A texture file cut anywhere behind its 36 bytes of header is loaded: as many levels of the same
    sizes as the whole file has. *)
Theorem C124_textures_refuted : forall t b k t1, len b < max_size -> of_file (tex_load t) b = Ret t1 -> 36 <= k <= len b ->
  exists t2, of_file (tex_load t) (take k b) = Ret t2 /\
    tx_format t2 = tx_format t1 /\ tx_width t2 = tx_width t1 /\ tx_height t2 = tx_height t1 /\
    tx_ref_width t2 = tx_ref_width t1 /\ tx_ref_height t2 = tx_ref_height t1 /\ tx_count t2 = tx_count t1 /\ tx_average t2 = tx_average t1 /\
    len (tx_palette t2) = len (tx_palette t1) /\ map len (tx_maps t2) = map len (tx_maps t1).
Proof. exact tex_cut. Qed.
Print Assumptions C124_textures_refuted.
(** So is the file of a font cut anywhere behind the glyph count: the same number of glyphs. *)
Theorem C124_fonts_refuted : forall f k, font_ok f -> starts_visible (fo_name f) ->
  len (fo_name f) + 11 + 17 * len (fo_glyphs f) < max_size -> len (fo_name f) + 11 <= k ->
  exists file f', file_of (font_save f) = Ret file /\ len file = len (fo_name f) + 11 + 17 * len (fo_glyphs f) /\
    of_file font_load (take k file) = Ret f' /\
    fo_name f' = fo_name f /\ fo_height f' = fo_height f /\ len (fo_glyphs f') = len (fo_glyphs f).
Proof. exact font_cut. Qed.
Print Assumptions C124_fonts_refuted.
(** Every byte string is loaded as a script, and a script cut anywhere behind its symbol count
    has as many symbols as the whole. *)
Theorem C124_scripts_refuted : (forall b, len b < 2 ^ 62 -> exists sc s, load_script (r_from b) = Ret (sc, s)) /\
  forall b k, len b < 2 ^ 62 -> 5 <= k <= len b ->
    exists sc s sc' s', load_script (r_from b) = Ret (sc, s) /\ load_script (r_from (take k b)) = Ret (sc', s') /\
      len (sc_syms sc') = len (sc_syms sc).
Proof. exact (conj any_script script_cut). Qed.
Print Assumptions C124_scripts_refuted.
(** The empty file is loaded as every kind of file made of sections; the object stays as it was. *)
Theorem C124_sections_refuted :
  (forall h, of_file (hier_load h) [] = Ret h) /\ (forall t v, of_file (bsp_load t v) [] = Ret t) /\
  (forall m wide, of_file (mesh_load m wide) [] = Ret m) /\ (forall m, of_file (mrm_load m) [] = Ret m) /\
  (forall k, of_file (skin_load k) [] = Ret k) /\ (forall m, of_file (mm_load m) [] = Ret m) /\
  (forall m, of_file (morph_load m) [] = Ret m) /\ (forall po ro a, of_file (ani_load po ro a) [] = Ret a).
Proof. exact empty_sections. Qed.
Print Assumptions C124_sections_refuted.
(** The values of an array that were cut off are not even zero: they are never assigned. *)
Definition demo_ints : csym := mkC (Some (lit "A")) 0 2 T_INT F_CONST [0; 0; 0; 0; 0] (CInts [5%Z; 7%Z]) none32.
Definition values_at (k : N) : option (list sval) :=
  match load_script (r_from (take k (script_bytes x32 [0] [demo_ints] []))) with
  | Ret (sc, _) => Some (map s_val (sc_syms sc))
  | _ => None
  end.
Theorem C124_values_refuted : csym_ok demo_ints /\ len (script_bytes x32 [0] [demo_ints] []) = 59 /\
  values_at 59 = Some [SInts [Some 5%Z; Some 7%Z]] /\ values_at 50 = Some [SInts [Some 5%Z; None]].
Proof.
  split; [|repeat split; vm_compute; reflexivity]. split.
  { intros n E. injection E as <-. apply Forall_cons; [repeat split; discriminate | apply Forall_nil]. }
  do 5 (split; [reflexivity|]). split; [repeat constructor|]. split; [reflexivity|]. cbn. exists [5%Z; 7%Z]. split; [reflexivity|].
  split; [reflexivity|]. apply Forall_cons; [lia|]. apply Forall_cons; [lia | apply Forall_nil].
Qed.
Print Assumptions C124_values_refuted.

(** Cases that meet the hypotheses: a texture of two by two pixels with two levels, of whose 56 bytes the last 10
    are missing, and a font of two glyphs cut in its widths. *)
Definition demo_tex : bytes := lit "ZTEX" ++ le_enc 4 0 ++ le_enc 4 0 ++ le_enc 4 2 ++ le_enc 4 2 ++ le_enc 4 2 ++ le_enc 4 2 ++ le_enc 4 2 ++
  le_enc 4 99 ++ repeat x11 4 ++ repeat x22 16.
Example C124_example_textures : len demo_tex = 56 /\
  match of_file (tex_load tex_new) demo_tex, of_file (tex_load tex_new) (take 46 demo_tex) with
  | Ret a, Ret b => tx_maps a = [repeat x11 4; repeat x22 16] /\ tx_maps b = [repeat x11 4; repeat x22 6 ++ zeros 10]
  | _, _ => False
  end.
Proof. vm_compute. repeat split. Qed.
Definition demo_cut_font : font := mkFont (lit "F.TGA") 18 [mkGlyph 9 (mkV2 1 2) (mkV2 3 4); mkGlyph 8 (mkV2 5 6) (mkV2 7 8)].
Example C124_example_fonts : font_ok demo_cut_font /\ starts_visible (fo_name demo_cut_font) /\
  match obind (file_of (font_save demo_cut_font)) (fun file => of_file font_load (take 17 file)) with
  | Ret f => f = mkFont (lit "F.TGA") 18 [mkGlyph 9 (mkV2 0 0) (mkV2 0 0); mkGlyph 0 (mkV2 0 0) (mkV2 0 0)]
  | _ => False
  end.
Proof.
  split; [|split; [|vm_compute; reflexivity]].
  - split; [|split; [reflexivity|split; [reflexivity|]]].
    + unfold no_eol. cbn. repeat (apply Forall_cons; [repeat split; discriminate|]). apply Forall_nil.
    + repeat (apply Forall_cons; [repeat split; reflexivity|]). apply Forall_nil.
  - cbn. intros H. unfold is_ws in H. cbn in H. repeat (destruct H as [H|H]; [discriminate|]). destruct H.
Qed.
Example C124_example_zeros : starts_visible (lit "F.TGA") /\ hd x01 (lit "F.TGA") <> x00 /\
  of_file font_load ((lit "1" ++ [x0a]) ++ lit "F.TGA") = Ret (mkFont (lit "F.TGA") 0 []).
Proof.
  split; [|split; [vm_compute; discriminate | vm_compute; reflexivity]].
  cbn. intros H. unfold is_ws in H. cbn in H. repeat (destruct H as [H|H]; [discriminate|]). destruct H.
Qed.
