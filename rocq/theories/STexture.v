(** Specification vocabulary for textures. *)

From Verif Require Import MBase MStream SStream MTexture.
Local Open Scope N_scope.

(** The formats of the enumeration. *)
Definition known (fmt : N) : Prop := fmt <= DXT5.

(** Width or height of a mipmap level: halved per level, at least one. *)
Definition dim (x level : N) : N := N.max 1 (x / 2 ^ level).
(** Number of 4x4 blocks needed to cover [x] pixels. *)
Definition blocks (x : N) : N := (x + 3) / 4.
(** Bits per pixel of the uncompressed formats, bytes per block of the others. *)
Definition pixel_bytes (fmt : N) : N :=
  match fmt with 0 | 1 | 2 | 3 => 4 | 4 | 5 => 3 | 6 | 7 | 8 => 2 | _ => 1 end.
Definition block_bytes (fmt : N) : N := if fmt =? DXT1 then 8 else 16.
(** The number of bytes an image of format [fmt] needs at a level. *)
Definition required_size (fmt w h level : N) : N :=
  if is_dxt fmt then blocks (dim w level) * blocks (dim h level) * block_bytes fmt
  else dim w level * dim h level * pixel_bytes fmt.
(** Compressed images whose sides are not multiples of four (above four) have their size
    rounded down by the library. *)
Definition blocky (x : N) : Prop := x <= 4 \/ x mod 4 = 0.

(** Pixels: four bytes red, green, blue, alpha each. *)
Fixpoint opaque (px : bytes) : bytes :=
  match px with
  | r :: g :: b :: _ :: px' => r :: g :: b :: xff :: opaque px'
  | _ => []
  end.
(** What converting to a format loses: the 24-bit formats have no alpha. *)
Definition kept (fmt : N) (px : bytes) : bytes := if pixel_bytes fmt =? 3 then opaque px else px.

(** Adding mipmaps to a builder one after the other. *)
Fixpoint add_all (b : builder) (l : list (bytes * N)) : outcome builder :=
  match l with
  | [] => Ret b
  | (m, fmt) :: l' => obind (add_mipmap b m fmt) (fun b' => add_all b' l')
  end.

(** ** DDS *)
(** The value a bit mask selects from a pixel, shifted down to the lowest bit. *)
Fixpoint low_zeros (fuel : nat) (m : N) : N :=
  match fuel with
  | O => 0
  | S f => if N.odd m then 0 else 1 + low_zeros f (m / 2)
  end.
Definition unmask (m px : N) : N := N.shiftr (N.land px m) (low_zeros 32 m).
Definition mask_max (m : N) : N := N.shiftr m (low_zeros 32 m).
(** The 8-bit channel value described by a mask; a missing channel is 255. *)
Definition channel (m px : N) : N := if m =? 0 then 255 else unmask m px * 255 / mask_max m.
(** Red, green, blue, alpha of a pixel (its bytes as a little-endian number) according to the
    pixel format of a DDS header. *)
Definition dds_pixel (fmt : N) (px : bytes) : bytes :=
  let '(_, _, _, (r, g, b, a)) := dds_pixel_format fmt in
  map (fun m => n2b (channel m (le_dec px))) [r; g; b; a].

(** The pixels of a 16-bit image. *)
Fixpoint pixels2 (b : bytes) : list bytes :=
  match b with
  | x :: y :: b' => [x; y] :: pixels2 b'
  | _ => []
  end.
(** The green component of a 16-bit 5-6-5 pixel. *)
Definition green6 (px : bytes) : N := unmask 2016 (le_dec px).

(** A palette colour in a file. *)
Definition color_ok (c : color) : Prop := co_a c < 2 ^ 8 /\ co_r c < 2 ^ 8 /\ co_g c < 2 ^ 8 /\ co_b c < 2 ^ 8.
Definition color_enc (c : color) : bytes :=
  le_enc 1 (co_b c) ++ le_enc 1 (co_g c) ++ le_enc 1 (co_r c) ++ le_enc 1 (co_a c).

(** The formats to which pixels can be converted without loss of colour. *)
Definition lossless (fmt : N) : Prop := fmt = R8G8B8A8 \/ fmt = A8B8G8R8 \/ fmt = B8G8R8 \/ fmt = R8G8B8.

(** The name of a compressed format in a DDS header, and the bits per pixel of the others. *)
Definition fourcc_name (fmt : N) : bytes :=
  match fmt with
  | 10 => lit "DXT1" | 11 => lit "DXT2" | 12 => lit "DXT3" | 13 => lit "DXT4" | 14 => lit "DXT5"
  | _ => []
  end.
Definition pixel_bits (fmt : N) : N := if fmt <? P8 then 8 * pixel_bytes fmt else 0.
