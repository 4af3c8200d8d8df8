(** Property C141: the dimensions of mipmaps. *)

From Coq Require Import Lia.
From Verif Require Import MBase MStream MTexture MTexDims STexture STexDims LBase LStream LTexDims.
Local Open Scope N_scope.

(** ** C141 *)
(** At every level at which neither side is below one pixel the reported width and height are those
    of the image the data holds. *)
Theorem C141_dimensions_partial : forall s t s' level, tex_load tex_new s = Ret (t, s') -> known (tx_format t) ->
  required_size (tx_format t) (tx_width t) (tx_height t) 0 < 2 ^ 32 ->
  level < tx_count t -> level < 32 -> 2 ^ level <= tx_width t -> 2 ^ level <= tx_height t ->
  (is_dxt (tx_format t) = true -> blocky (tx_width t / 2 ^ level) /\ blocky (tx_height t / 2 ^ level)) ->
  exists w h b, mipmap_width t level = Ret w /\ mipmap_height t level = Ret h /\ tex_data t level = Ret b /\ 0 < w /\ 0 < h /\
    w = tx_width t / 2 ^ level /\ h = tx_height t / 2 ^ level /\ len b = image_bytes (tx_format t) w h.
Proof. exact dims_exact. Qed.
Print Assumptions C141_dimensions_partial.
(** At the other levels, which every texture that is not square has when it has all its mipmaps,
    a side is reported as 0 although the level holds an image; *)
Theorem C141_thin_refuted : forall s t s' level, tex_load tex_new s = Ret (t, s') -> known (tx_format t) ->
  required_size (tx_format t) (tx_width t) (tx_height t) 0 < 2 ^ 32 ->
  level < tx_count t -> level < 32 -> tx_width t < 2 ^ level \/ tx_height t < 2 ^ level ->
  (mipmap_width t level = Ret 0 \/ mipmap_height t level = Ret 0) /\ exists b, tex_data t level = Ret b /\ 0 < len b.
Proof. exact thin. Qed.
Print Assumptions C141_thin_refuted.
(** and converted to RGBA it has no pixels. *)
Theorem C141_thin_pixels_refuted : forall sq s t s' level, tex_load tex_new s = Ret (t, s') -> tx_format t < P8 -> tx_format t <> A1R5G5B5 ->
  level < tx_count t -> level < 32 -> tx_width t < 2 ^ level \/ tx_height t < 2 ^ level -> as_rgba8 sq t level = Ret [].
Proof. exact thin_pixels. Qed.
Print Assumptions C141_thin_pixels_refuted.
(** Asking for the data of a level the texture does not have ends the program. *)
Theorem C141_missing_refuted : forall s t s' level, tex_load tex_new s = Ret (t, s') -> tx_count t <= level -> level < 2 ^ 32 -> tex_data t level = Undef.
Proof. exact missing_level. Qed.
Print Assumptions C141_missing_refuted.
(** From level 32 on, which a file may have, asking for the dimensions is undefined behaviour. *)
Theorem C141_deep_refuted : forall t level, 32 <= level -> mipmap_width t level = Undef /\ mipmap_height t level = Undef.
Proof. exact deep_level. Qed.
Print Assumptions C141_deep_refuted.

(** A texture of four by one pixels with three levels: one of four pixels, one of two, one of one. *)
Definition thin_file : bytes := lit "ZTEX" ++ words_le [0; R8G8B8A8; 4; 1; 3; 4; 1; 0] ++ repeat x07 28.
Example C141_example : exists t s', tex_load tex_new (mkR thin_file 0) = Ret (t, s') /\ known (tx_format t) /\
  required_size (tx_format t) (tx_width t) (tx_height t) 0 = 16 /\
  mipmap_width t 0 = Ret 4 /\ mipmap_height t 0 = Ret 1 /\ tex_data t 0 = Ret (repeat x07 16) /\
  mipmap_width t 1 = Ret 2 /\ mipmap_height t 1 = Ret 0 /\ tex_data t 1 = Ret (repeat x07 8) /\ tx_count t = 3.
Proof. eexists. eexists. split; [vm_compute; reflexivity|]. split; [vm_compute; discriminate|]. repeat match goal with |- _ /\ _ => split end; vm_compute; reflexivity. Qed.
Print Assumptions C141_example.
