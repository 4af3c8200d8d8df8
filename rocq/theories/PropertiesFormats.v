(** Properties of fonts, skeletons and textures: C43, C44, C50-C54, C87-C90. *)

From Coq Require Import Lia ZifyN ZifyBool ZifyNat.
From Verif Require Import MBase MStream SStream MBoxes SBoxes MModel SFormat MTexture STexture.
From Verif Require Import LBase LStream LFormat LModel LTexture LPixels LDds.
Local Open Scope N_scope.

(** For showing that concrete values meet the conditions. *)
Ltac plain :=
  repeat match goal with
  | |- _ <> _ => discriminate
  | |- _ < _ => reflexivity
  | |- (_ <= _)%Z => vm_compute; discriminate
  | |- (_ < _)%Z => reflexivity
  | |- _ = _ => reflexivity
  | |- _ /\ _ => split
  | |- ?P => let P' := eval hnf in P in progress change P'
  | |- _ => constructor
  end.

(** ** C43 *)
Theorem C43_fonts_partial : round_trips font_save font_load (fun f => font_ok f /\ starts_visible (fo_name f)).
Proof. exact font_round_trip. Qed.
Print Assumptions C43_fonts_partial.
Definition demo_font (name : bytes) : font := mkFont name 18 [mkGlyph 7 (mkV2 0 1) (mkV2 2 3); mkGlyph 255 (mkV2 4 5) (mkV2 6 7)].
Example C43_fonts_partial_nonvacuous : font_ok (demo_font (lit "FONT.TGA")) /\ starts_visible (fo_name (demo_font (lit "FONT.TGA"))).
Proof.
  split.
  - plain.
  - cbn. intros [H|[H|[H|[H|[H|[H|[]]]]]]]; discriminate H.
Qed.

(** The line reader skips white space behind the version: a name that starts with a blank loses
    it, and a font without a name is not read back at all. *)
Theorem C43_fonts_refuted :
  (exists f g, font_ok f /\ resaved (font_save f) font_load = Ret g /\ fo_name g <> fo_name f) /\
  (exists f g, font_ok f /\ resaved (font_save f) font_load = Ret g /\ fo_name f = [] /\ fo_height g <> fo_height f).
Proof.
  split.
  - exists (demo_font (lit " F")). eexists. split.
    { plain. }
    split; [vm_compute; reflexivity | vm_compute; discriminate].
  - exists (mkFont [] 1 []). eexists. split.
    { plain. }
    split; [vm_compute; reflexivity | split; [reflexivity | vm_compute; discriminate]].
Qed.
Print Assumptions C43_fonts_refuted.

(** ** C44 *)
(** Whatever the skeleton object held before, for every skeleton of fewer than 65536 nodes. *)
Theorem C44_skeletons : forall before, round_trips hier_save (hier_load before) hier_ok.
Proof. exact hier_round_trip. Qed.
Print Assumptions C44_skeletons.
Definition demo_box : aabb := mkAabb (mkV3 1 2 3) (mkV3 4 5 6).
Definition demo_hier : hierarchy :=
  mkHier [mkHNode (-1) (lit "BIP01") (repeat 1065353216 16); mkHNode 0 (lit "BIP01 PELVIS") (repeat 7 16)]
    demo_box demo_box (mkV3 7 8 9) 12345 (mkDate 2001 3 15 12 30 59) (lit "HUMANS.ASC").
Example C44_skeletons_nonvacuous : hier_ok demo_hier.
Proof. plain. Qed.

(** ** C87 *)
(** Whatever the bytes, the loaders of fonts, skeletons and textures return or throw; they never
    touch memory outside the buffer, never run forever and never move backwards. *)
Theorem C87_loaders_are_safe : forward font_load /\ (forall h, forward (hier_load h)) /\ (forall t, forward (tex_load t)).
Proof. exact (conj font_forward (conj hier_forward tex_forward)). Qed.
Print Assumptions C87_loaders_are_safe.
Example C87_nonvacuous : 
  (exists t, of_file (tex_load tex_new) (lit "ZTEX" ++ words_le [0; 5; 2; 1; 1; 2; 1; 77] ++ [x01; x02; x03; x04]) = Ret t /\ tx_maps t = [[x01; x02; x03; x04; x00; x00]]) /\
  of_file (tex_load tex_new) (lit "ZTE") = Throw ParserError.
Proof. split; [eexists; split; vm_compute; reflexivity | vm_compute; reflexivity]. Qed.

(** ** C50 *)
Theorem C50_textures : forall s t s', tex_load tex_new s = Ret (t, s') ->
  exists bs, writes (tex_save t) bs /\ reads (tex_load tex_new) bs t.
Proof. exact tex_loaded_round_trip. Qed.
Print Assumptions C50_textures.
(** Every level of a loaded texture is there, in the size of its format. *)
Theorem C50_levels : forall s t s' level, tex_load tex_new s = Ret (t, s') -> level < tx_count t ->
  exists b, tex_data t level = Ret b /\ len b = mipmap_size (tx_format t) (tx_width t) (tx_height t) level.
Proof. exact (fun s t s' level E => tex_data_loaded t level (tex_load_ok s t s' E)). Qed.
Print Assumptions C50_levels.
(** A palette image of 2x1 pixels with two levels. *)
Definition demo_tex_file : bytes :=
  lit "ZTEX" ++ words_le [0; R5G6B5; 2; 1; 2; 2; 1; 77] ++ [xe0; x07] ++ [x01; x02; x03; x04].
Definition demo_tex : texture :=
  mkTex R5G6B5 (tx_palette tex_new) 2 1 2 1 2 77 [[xe0; x07]; [x01; x02; x03; x04]].
Example C50_textures_nonvacuous : tex_load tex_new (mkR demo_tex_file 0) = Ret (demo_tex, mkR demo_tex_file (len demo_tex_file)).
Proof. vm_compute. reflexivity. Qed.

(** ** C88 *)
(** Loading into a texture that already holds one keeps the mipmaps of the old one in front, so
    that the largest level is not the one of the file. *)
Theorem C88_reload_refuted : exists s t s' t1 t2 s2 m m',
  tex_load tex_new s = Ret (t, s') /\ tex_load t1 s = Ret (t2, s2) /\
  (exists s1 s1', tex_load tex_new s1 = Ret (t1, s1')) /\
  tex_data t 0 = Ret m /\ tex_data t2 0 = Ret m' /\ m' <> m.
Proof.
  exists (mkR demo_tex_file 0), demo_tex. eexists.
  exists (mkTex R5G6B5 (tx_palette tex_new) 1 1 1 1 2 0 [[x00; x00]; [xff; xff]]). do 4 eexists.
  split; [vm_compute; reflexivity|]. split; [vm_compute; reflexivity|].
  split; [exists (mkR (lit "ZTEX" ++ words_le [0; R5G6B5; 1; 1; 2; 1; 1; 0] ++ [x00; x00] ++ [xff; xff]) 0); eexists; vm_compute; reflexivity|].
  split; [vm_compute; reflexivity|]. split; [vm_compute; reflexivity | vm_compute; discriminate].
Qed.
Print Assumptions C88_reload_refuted.
(** Everything but the mipmaps (and the palette of an image without one) is replaced. *)
Theorem C88_reload_partial : forall before s t s', tex_load tex_new s = Ret (t, s') ->
  tex_load before s = Ret (mkTex (tx_format t) (if tx_format t =? P8 then tx_palette t else tx_palette before)
     (tx_width t) (tx_height t) (tx_ref_width t) (tx_ref_height t)
     (tx_count t) (tx_average t) (tx_maps before ++ tx_maps t), s').
Proof. exact tex_load_onto. Qed.
Print Assumptions C88_reload_partial.

(** ** C51 *)
(** Sizes that fit 32 bits; for compressed formats, sides that are at most four or multiples of
    four (every level of an image with power-of-two sides). *)
Theorem C51_sizes_partial : forall fmt w h level, known fmt -> required_size fmt w h 0 < 2 ^ 32 ->
  (is_dxt fmt = true -> blocky (dim w level) /\ blocky (dim h level)) ->
  mipmap_size fmt w h level = required_size fmt w h level.
Proof. exact mipmap_size_required. Qed.
Print Assumptions C51_sizes_partial.
Theorem C51_powers_of_two : forall a level, blocky (dim (2 ^ a) level).
Proof. exact blocky_pow. Qed.
Print Assumptions C51_powers_of_two.
Theorem C51_order_partial : forall fmt w h level, known fmt -> required_size fmt w h 0 < 2 ^ 32 ->
  0 < mipmap_size fmt w h level /\ mipmap_size fmt w h (level + 1) <= mipmap_size fmt w h level.
Proof. exact (fun fmt w h level K F => conj (mipmap_size_pos fmt w h level K F) (mipmap_size_mono fmt w h level K F)). Qed.
Print Assumptions C51_order_partial.
Example C51_nonvacuous : known DXT1 /\ required_size DXT1 256 64 0 = 8192 /\ mipmap_size DXT1 256 64 3 = 128 /\ mipmap_size DXT1 256 64 7 = 8.
Proof. repeat split; try reflexivity. vm_compute. discriminate. Qed.
(** The products wrap at 2^32: a huge image has mipmaps of size zero and larger ones behind
    them.  Compressed images whose sides are no multiple of four get too few blocks. *)
Theorem C51_sizes_refuted :
  (exists fmt w h, known fmt /\ mipmap_size fmt w h 0 = 0) /\
  (exists fmt w h level, known fmt /\ mipmap_size fmt w h level < mipmap_size fmt w h (level + 1)) /\
  (exists fmt w h, known fmt /\ required_size fmt w h 0 < 2 ^ 32 /\ mipmap_size fmt w h 0 < required_size fmt w h 0).
Proof.
  split; [|split].
  - exists R8G8B8A8, 65536, 65536. split; [vm_compute; discriminate | vm_compute; reflexivity].
  - exists R8G8B8A8, 65536, 65536, 1. split; [vm_compute; discriminate | vm_compute; reflexivity].
  - exists DXT1, 5, 5. split; [vm_compute; discriminate | split; vm_compute; reflexivity].
Qed.
Print Assumptions C51_sizes_refuted.

(** ** C52 *)
(** Building a texture from RGBA pixels in a format that can hold them, and reading it as RGBA. *)
Theorem C52_pixels_partial : forall sq fmt w h px, lossless fmt ->
  0 < w -> 0 < h -> w < 2 ^ 32 -> h < 2 ^ 32 -> 4 * (w * h) < 2 ^ 32 -> len px = 4 * (w * h) ->
  exists b t, add_mipmap (builder_new w h) px R8G8B8A8 = Ret b /\ build sq b fmt = Ret t /\
    as_rgba8 sq t 0 = Ret (kept fmt px).
Proof. exact build_back. Qed.
Print Assumptions C52_pixels_partial.
Definition no_squish : squish := fun _ _ _ _ => Throw ParserError.
(** Build a texture of one level from RGBA pixels and read it back. *)
Definition through (fmt w h : N) (px : bytes) : outcome bytes :=
  obind (add_mipmap (builder_new w h) px R8G8B8A8) (fun b =>
  obind (build no_squish b fmt) (fun t => as_rgba8 no_squish t 0)).
Example C52_nonvacuous : lossless B8G8R8 /\ through B8G8R8 1 2 [x01; x02; x03; x04; x05; x06; x07; x08] = Ret [x01; x02; x03; xff; x05; x06; x07; xff].
Proof. split; [right; right; left; reflexivity | vm_compute; reflexivity]. Qed.
(** B8G8R8A8 writes every pixel next to the first one; A8R8G8B8 rotates the bytes in the wrong
    direction. *)
Theorem C52_pixels_refuted :
  (exists px px', len px = 8 /\ through B8G8R8A8 2 1 px = Ret px' /\ px' <> px) /\
  (exists px px', len px = 4 /\ through A8R8G8B8 1 1 px = Ret px' /\ px' <> px).
Proof.
  split.
  - exists [x01; x02; x03; x04; x05; x06; x07; x08]. eexists. split; [reflexivity|].
    split; [vm_compute; reflexivity | discriminate].
  - exists [x01; x02; x03; x04]. eexists. split; [reflexivity|]. split; [vm_compute; reflexivity | discriminate].
Qed.
Print Assumptions C52_pixels_refuted.

(** ** C53 *)
(** A level of the wrong size is refused. *)
Theorem C53_size_checked : forall b m fmt,
  len m <> mipmap_size fmt (tb_width b) (tb_height b) (u32 (len (tb_maps b))) ->
  add_mipmap b m fmt = Throw InvalidMipmapSize.
Proof. exact add_mipmap_wrong. Qed.
Print Assumptions C53_size_checked.
(** Built in the same format, the levels come back in the opposite order; so a texture of one
    level is the one given. *)
Theorem C53_build_partial : forall sq w h fmt l b level, fmt <> P8 -> len l <= 32 -> level < len l ->
  add_all (builder_new w h) (map (fun m => (m, fmt)) l) = Ret b ->
  exists t m, build sq b fmt = Ret t /\ nth_N l (len l - 1 - level) = Some m /\ tex_data t level = Ret m.
Proof. exact build_same_data. Qed.
Print Assumptions C53_build_partial.
Definition demo_levels : list bytes := [[x01; x02; x03; x04]; [x05; x06]].
Definition demo_builder : builder := mkBuilder 2 1 (map (fun m => (m, R5G6B5)) demo_levels).
Example C53_nonvacuous : add_all (builder_new 2 1) (map (fun m => (m, R5G6B5)) demo_levels) = Ret demo_builder.
Proof. vm_compute. reflexivity. Qed.
Theorem C53_build_refuted : exists w h fmt l b t m,
  add_all (builder_new w h) (map (fun m => (m, fmt)) l) = Ret b /\ build no_squish b fmt = Ret t /\
  nth_N l 0 = Some m /\ tex_data t 0 <> Ret m.
Proof.
  exists 2, 1, R5G6B5, demo_levels. do 3 eexists. split; [vm_compute; reflexivity|].
  split; [vm_compute; reflexivity|]. split; [reflexivity | vm_compute; discriminate].
Qed.
Print Assumptions C53_build_refuted.

(** ** C54 *)
(** The 31 words of the header are those of the DDS format: its size, height, width, the number
    of levels (0 standing for one), the size of the pixel format, the name of the compression,
    the bits per pixel. *)
Theorem C54_dds : forall s t s', tex_load tex_new s = Ret (t, s') -> known (tx_format t) ->
  exists ms, len ms = tx_count t /\
    (forall l m, nth_N ms l = Some m ->
       tex_data t l = Ret m /\ len m = mipmap_size (tx_format t) (tx_width t) (tx_height t) l) /\
    (len (concat ms) < 2 ^ 62 ->
     exists hdr, length hdr = 31%nat /\ nth_N hdr 0 = Some 124 /\
       nth_N hdr 2 = Some (tx_height t) /\ nth_N hdr 3 = Some (tx_width t) /\
       nth_N hdr 6 = Some (if tx_count t =? 1 then 0 else tx_count t) /\
       nth_N hdr 18 = Some 32 /\ nth_N hdr 20 = Some (le_dec (fourcc_name (tx_format t))) /\
       nth_N hdr 21 = Some (pixel_bits (tx_format t)) /\
       to_dds t = Ret (lit "DDS " ++ words_le hdr ++
         (if tx_format t =? P8 then flat_map color_enc (tx_palette t) else []) ++ concat ms)).
Proof. exact dds_fields. Qed.
Print Assumptions C54_dds.
Example C54_nonvacuous : exists hdr, to_dds demo_tex = Ret (lit "DDS " ++ words_le hdr ++ [x01; x02; x03; x04] ++ [xe0; x07]).
Proof. exists (dds_words (dds_header demo_tex)). vm_compute. reflexivity. Qed.

(** ** C89 *)
(** For the two 16-bit formats the masks in the header of the exported file describe the colours
    the library itself decodes; except that full green is decoded as 254. *)
Theorem C89_masks_partial : forall sq t level m w h,
  tx_format t = A4R4G4B4 \/ (tx_format t = R5G6B5 /\ Forall (fun px => green6 px < 63) (pixels2 m)) ->
  tex_data t level = Ret m -> level < 32 -> w = tx_width t / 2 ^ level -> h = tx_height t / 2 ^ level ->
  4 * (w * h) < 2 ^ 32 -> len m = 2 * (w * h) ->
  as_rgba8 sq t level = Ret (flat_map (dds_pixel (tx_format t)) (pixels2 m)).
Proof. exact dds_masks. Qed.
Print Assumptions C89_masks_partial.
Definition one_pixel (fmt : N) (px : bytes) : texture := mkTex fmt (tx_palette tex_new) 1 1 1 1 1 0 [px].
Example C89_nonvacuous : as_rgba8 no_squish demo_tex 0 = Ret (flat_map (dds_pixel R5G6B5) (pixels2 [x01; x02; x03; x04])).
Proof.
  apply (C89_masks_partial no_squish demo_tex 0 [x01; x02; x03; x04] 2 1); try reflexivity.
  right. split; [reflexivity|]. repeat constructor; vm_compute; reflexivity.
Qed.
(** For all six 8-bit formats the masks describe another order of the colours, and full green of
    R5G6B5 is not decoded as 255. *)
Theorem C89_masks_refuted : forall fmt, fmt < A4R4G4B4 \/ fmt = R5G6B5 -> exists px out,
  len px = pixel_bytes fmt /\ as_rgba8 no_squish (one_pixel fmt px) 0 = Ret out /\ out <> dds_pixel fmt px.
Proof.
  intros fmt H. unfold A4R4G4B4, R5G6B5 in H.
  assert (fmt = 8 \/ fmt = 0 \/ fmt = 1 \/ fmt = 2 \/ fmt = 3 \/ fmt = 4 \/ fmt = 5) as C by lia.
  destruct C as [-> | [-> | [-> | [-> | [-> | [-> | ->]]]]]]; 
    [exists [xff; xff] | exists [x01; x02; x03; x04] | exists [x01; x02; x03; x04] | exists [x01; x02; x03; x04]
    | exists [x01; x02; x03; x04] | exists [x01; x02; x03] | exists [x01; x02; x03]];
    (eexists; split; [reflexivity|]; split; [vm_compute; reflexivity | vm_compute; discriminate]).
Qed.
Print Assumptions C89_masks_refuted.

(** ** C90 *)
(** Every level of a loaded texture in a format without palette and compression can be read as
    RGBA pixels (A1R5G5B5 excepted, which is refused). *)
Theorem C90_decoding_partial : forall sq s t s' level w h, tex_load tex_new s = Ret (t, s') -> level < tx_count t -> level < 32 ->
  tx_format t < P8 -> tx_format t <> A1R5G5B5 -> 4 * (tx_width t * tx_height t) < 2 ^ 32 ->
  w = tx_width t / 2 ^ level -> h = tx_height t / 2 ^ level -> 0 < w -> 0 < h ->
  exists out, as_rgba8 sq t level = Ret out /\ len out = 4 * (w * h).
Proof. exact as_rgba8_total. Qed.
Print Assumptions C90_decoding_partial.
Example C90_nonvacuous : exists out, as_rgba8 no_squish demo_tex 0 = Ret out /\ len out = 8.
Proof.
  apply (C90_decoding_partial no_squish (mkR demo_tex_file 0) demo_tex _ 0 2 1 C50_textures_nonvacuous);
    (reflexivity || (vm_compute; congruence)).
Qed.
(** Building a texture in R5G6B5 from a bright pixel or in DXT1 from anything, and reading a
    palette image as RGBA, has undefined behaviour. *)
Theorem C90_conversion_refuted :
  (exists b, add_mipmap (builder_new 1 1) [xff; xff; xff; xff] R8G8B8A8 = Ret b /\ build no_squish b R5G6B5 = Undef) /\
  (exists b, add_mipmap (builder_new 1 1) [x00; x00; x00; xff] R8G8B8A8 = Ret b /\ build no_squish b DXT1 = Undef) /\
  (exists s t s', tex_load tex_new s = Ret (t, s') /\ as_rgba8 no_squish t 0 = Undef).
Proof.
  split; [|split].
  - eexists. split; [vm_compute; reflexivity | vm_compute; reflexivity].
  - eexists. split; [vm_compute; reflexivity | vm_compute; reflexivity].
  - exists (mkR (lit "ZTEX" ++ words_le [0; P8; 1; 1; 1; 1; 1; 0]) 0). do 2 eexists. split; [vm_compute; reflexivity | vm_compute; reflexivity].
Qed.
Print Assumptions C90_conversion_refuted.
