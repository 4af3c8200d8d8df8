(** Texture.hh: the dimensions of mipmaps. *)

From Verif Require Import MBase MTexture.
Local Open Scope N_scope.

(** Texture.hh:84-86 *)
Definition mipmap_width (t : texture) (level : N) : outcome N := shift_dim (tx_width t) level.
(** Texture.hh:90-92 *)
Definition mipmap_height (t : texture) (level : N) : outcome N := shift_dim (tx_height t) level.
