(** The bytes of an image (C141). *)

From Verif Require Import MBase MTexture STexture.
Local Open Scope N_scope.

(** Pixel by pixel, or block by block in the compressed formats. *)
Definition image_bytes (fmt w h : N) : N :=
  if is_dxt fmt then blocks w * blocks h * block_bytes fmt else w * h * pixel_bytes fmt.
