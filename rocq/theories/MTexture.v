(** Model of src/Texture.cc, include/zenkit/Texture.hh and src/addon/texcvt.cc.

    The image compressor (libsquish) is external: its results are the parameter [squish] of
    the conversion functions.  Memory exhaustion is not modelled. *)

From Verif Require Import MBase MStream.
Local Open Scope N_scope.
Local Open Scope m_scope.

(** Texture.hh:18-35 [TextureFormat]: any 32-bit number can be stored in the enumeration. *)
Definition B8G8R8A8 : N := 0.
Definition R8G8B8A8 : N := 1.
Definition A8B8G8R8 : N := 2.
Definition A8R8G8B8 : N := 3.
Definition B8G8R8 : N := 4.
Definition R8G8B8 : N := 5.
Definition A4R4G4B4 : N := 6.
Definition A1R5G5B5 : N := 7.
Definition R5G6B5 : N := 8.
Definition P8 : N := 9.
Definition DXT1 : N := 10.
Definition DXT2 : N := 11.
Definition DXT3 : N := 12.
Definition DXT4 : N := 13.
Definition DXT5 : N := 14.

(** Texture.cc:41-44: one step of the loop for one dimension. *)
Definition halve (x : N) : N := if 1 <? x then x / 2 else x.
(** Texture.cc:38-44: the dimension [x] at a level. *)
Definition level_dim (x level : N) : N := N.iter level halve (N.max 1 x).

(** Texture.cc:37-71 [_ztex_mipmap_size]; all products are on [uint32_t]. *)
Definition mipmap_size (fmt w h level : N) : N :=
  let x := level_dim w level in
  let y := level_dim h level in
  if (fmt =? B8G8R8A8) || (fmt =? R8G8B8A8) || (fmt =? A8B8G8R8) || (fmt =? A8R8G8B8) then u32 (u32 (x * y) * 4)
  else if (fmt =? B8G8R8) || (fmt =? R8G8B8) then u32 (u32 (x * y) * 3)
  else if (fmt =? A4R4G4B4) || (fmt =? A1R5G5B5) || (fmt =? R5G6B5) then u32 (u32 (x * y) * 2)
  else if fmt =? P8 then u32 (x * y)
  else if fmt =? DXT1 then u32 (u32 (N.max 1 (x / 4) * N.max 1 (y / 4)) * 8)
  else if (fmt =? DXT2) || (fmt =? DXT3) || (fmt =? DXT4) || (fmt =? DXT5) then
    u32 (u32 (N.max 1 (x / 4) * N.max 1 (y / 4)) * 16)
  else 0.

(* ------------------------------------------------------------------ *)
(** * Pixel conversion *)

(** The external compressor: what decoding a block image gives, per format, width, height. *)
Definition squish := N -> N -> N -> bytes -> outcome bytes.

(** Reading and writing an element of a buffer: out of range is undefined behaviour. *)
Definition elem (b : bytes) (i : N) : outcome byte :=
  match nth_N b i with Some c => Ret c | None => Undef end.
Definition set_elem (b : bytes) (i : N) (c : byte) : outcome bytes :=
  if i <? len b then Ret (overwrite b i [c]) else Undef.

(** One assignment [conv[i * dm + d] = f(bytes[i * sm + s])]; the indices are [uint32_t]. *)
Definition set_from (dm d : N) (src : bytes) (sm s : N) (i : N) (conv : bytes) : outcome bytes :=
  obind (elem src (u32 (u32 (i * sm) + s))) (fun c => set_elem conv (u32 (u32 (i * dm) + d)) c).
Definition set_const (dm d : N) (c : byte) (i : N) (conv : bytes) : outcome bytes :=
  set_elem conv (u32 (u32 (i * dm) + d)) c.

(** A loop over the pixels 0, 1, ..., n-1. *)
Fixpoint pixels (body : N -> bytes -> outcome bytes) (i : N) (n : nat) (conv : bytes) : outcome bytes :=
  match n with
  | O => Ret conv
  | S n' => obind (body i conv) (fun c => pixels body (i + 1) n' c)
  end.
Definition seq2 (f g : N -> bytes -> outcome bytes) (i : N) (c : bytes) : outcome bytes :=
  obind (f i c) (g i).

(** [assign(bytes, bytes + n)]: copying beyond the source is undefined behaviour. *)
Definition assign_from (src : bytes) (n : N) : outcome bytes :=
  if n <=? len src then Ret (take n src) else Undef.

(** Rounding of a positive integer to 24 significant bits, to nearest, ties to even: the
    mantissa of a single-precision product. *)
Definition round24 (n : N) : N :=
  if n <? 2 ^ 24 then n
  else
    let s := N.size n - 24 in
    let q := N.shiftr n s in
    let r := n - N.shiftl q s in
    let half := N.shiftl 1 (s - 1) in
    N.shiftl (if (half <? r) || ((r =? half) && N.odd q) then q + 1 else q) s.
(** Texture.cc:156-158: [static_cast<uint8_t>(static_cast<float>(x) * 8.225806452f)], the
    constant being 8625383 / 2^20, and with 4.047619048f = 8488472 / 2^21. *)
Definition scale5 (x : N) : N := u8 (N.shiftr (round24 (x * 8625383)) 20).
Definition scale6 (x : N) : N := u8 (N.shiftr (round24 (x * 8488472)) 21).

(** Texture.cc:153-163: the body of the loop.  The bit fields of [r5g6b5] start with the
    lowest bits. *)
Definition rgba_of_565 (src : bytes) (i : N) (conv : bytes) : outcome bytes :=
  obind (elem src (u32 (i * 2))) (fun c0 =>
  obind (elem src (u32 (i * 2) + 1)) (fun c1 =>
  let w := b2n c0 + 256 * b2n c1 in
  obind (set_elem conv (u32 (u32 (i * 4) + 0)) (n2b (scale5 (w / 2 ^ 11)))) (fun conv =>
  obind (set_elem conv (u32 (u32 (i * 4) + 1)) (n2b (scale6 ((w / 2 ^ 5) mod 2 ^ 6)))) (fun conv =>
  obind (set_elem conv (u32 (u32 (i * 4) + 2)) (n2b (scale5 (w mod 2 ^ 5)))) (fun conv =>
  set_elem conv (u32 (u32 (i * 4) + 3)) xff))))).

(** Texture.cc:166-169: one assignment; [hi] selects the upper half of the byte. *)
Definition set_nibble (d : N) (src : bytes) (s : N) (hi : bool) (i : N) (conv : bytes) : outcome bytes :=
  obind (elem src (u32 (u32 (i * 2) + s))) (fun c =>
  set_elem conv (u32 (u32 (i * 4) + d)) (n2b ((if hi then b2n c / 16 else b2n c mod 16) * 17))).

(** Texture.cc:73-180 [_ztex_to_rgba] *)
Definition to_rgba (sq : squish) (src : bytes) (w h fmt : N) : outcome bytes :=
  let n := u32 (w * h) in
  let conv := zeros (u32 (n * 4)) in
  let run body := pixels body 0 (N.to_nat n) conv in
  if (fmt =? DXT1) || (fmt =? DXT3) || (fmt =? DXT5) then sq fmt w h src
  else if fmt =? B8G8R8A8 then
    run (seq2 (set_from 4 0 src 4 2) (seq2 (set_from 4 1 src 4 1) (seq2 (set_from 4 2 src 4 0) (set_from 4 3 src 4 3))))
  else if fmt =? R8G8B8A8 then assign_from src (u32 (n * 4))
  else if fmt =? A8B8G8R8 then
    run (seq2 (set_from 4 0 src 4 3) (seq2 (set_from 4 1 src 4 2) (seq2 (set_from 4 2 src 4 1) (set_from 4 3 src 4 0))))
  else if fmt =? A8R8G8B8 then
    run (seq2 (set_from 4 0 src 4 1) (seq2 (set_from 4 1 src 4 2) (seq2 (set_from 4 2 src 4 3) (set_from 4 3 src 4 0))))
  else if fmt =? B8G8R8 then
    run (seq2 (set_from 4 0 src 3 2) (seq2 (set_from 4 1 src 3 1) (seq2 (set_from 4 2 src 3 0) (set_const 4 3 xff))))
  else if fmt =? R8G8B8 then
    run (seq2 (set_from 4 0 src 3 0) (seq2 (set_from 4 1 src 3 1) (seq2 (set_from 4 2 src 3 2) (set_const 4 3 xff))))
  else if fmt =? R5G6B5 then run (rgba_of_565 src)
  else if fmt =? A4R4G4B4 then
    run (seq2 (set_nibble 2 src 0 false) (seq2 (set_nibble 1 src 0 true)
        (seq2 (set_nibble 0 src 1 false) (set_nibble 3 src 1 true))))
  else Throw ParserError.

(** Texture.cc:238-244: the initialisers of the bit fields b, g, r in this order.  The
    conversion of a [double] that does not fit a byte is undefined behaviour; the quotient by
    5/8 or 6/8 has the same integer part as the exact one. *)
Definition byte_div (x num den : N) : outcome N :=
  if x * den / num <? 256 then Ret (x * den / num) else Undef.
Definition rgb_to_565 (src : bytes) (i : N) (conv : bytes) : outcome bytes :=
  obind (elem src (u32 (u32 (i * 4) + 0))) (fun c0 =>
  obind (byte_div (b2n c0) 5 8) (fun b =>
  obind (elem src (u32 (u32 (i * 4) + 1))) (fun c1 =>
  obind (byte_div (b2n c1) 6 8) (fun g =>
  obind (elem src (u32 (u32 (i * 4) + 2))) (fun c2 =>
  obind (byte_div (b2n c2) 5 8) (fun r =>
  let w := b mod 2 ^ 5 + 2 ^ 5 * (g mod 2 ^ 6) + 2 ^ 11 * (r mod 2 ^ 5) in
  obind (set_elem conv (u32 (i * 2)) (n2b w)) (fun conv =>
  set_elem conv (u32 (i * 2) + 1) (n2b (w / 256))))))))).

(** Texture.cc:182-263 [_ztex_from_rgba].  For the compressed formats the output buffer is
    empty, so that compressing at least one block writes outside it. *)
Definition from_rgba (src : bytes) (w h fmt : N) : outcome bytes :=
  let n := u32 (w * h) in
  let run k body := pixels body 0 (N.to_nat n) (zeros (u32 (n * k))) in
  if fmt =? B8G8R8A8 then
    run 4 (seq2 (set_from 1 0 src 1 2) (seq2 (set_from 1 1 src 1 1) (seq2 (set_from 1 2 src 1 0) (set_from 1 3 src 1 3))))
  else if fmt =? R8G8B8A8 then assign_from src (u32 (n * 4))
  else if fmt =? A8B8G8R8 then
    run 4 (seq2 (set_from 4 0 src 4 3) (seq2 (set_from 4 1 src 4 2) (seq2 (set_from 4 2 src 4 1) (set_from 4 3 src 4 0))))
  else if fmt =? A8R8G8B8 then
    run 4 (seq2 (set_from 4 0 src 4 1) (seq2 (set_from 4 1 src 4 2) (seq2 (set_from 4 2 src 4 3) (set_from 4 3 src 4 0))))
  else if fmt =? B8G8R8 then
    run 3 (seq2 (set_from 3 0 src 4 2) (seq2 (set_from 3 1 src 4 1) (set_from 3 2 src 4 0)))
  else if fmt =? R8G8B8 then
    run 3 (seq2 (set_from 3 0 src 4 0) (seq2 (set_from 3 1 src 4 1) (set_from 3 2 src 4 2)))
  else if fmt =? R5G6B5 then run 2 (rgb_to_565 src)
  else if (fmt =? DXT1) || (fmt =? DXT3) || (fmt =? DXT5) then
    (if (w =? 0) || (h =? 0) then Ret [] else Undef)
  else Throw ParserError.

(** Texture.cc:265-278 [_ztex_convert_format] *)
Definition convert_format (sq : squish) (src : bytes) (w h from into : N) : outcome bytes :=
  if from =? into then assign_from src (mipmap_size from w h 0)
  else obind (to_rgba sq src w h from) (fun rgba => from_rgba rgba w h into).

(* ------------------------------------------------------------------ *)
(** * Textures *)

(** Texture.hh:49-51 [ColorARGB] *)
Record color := mkColor { co_a : N; co_r : N; co_g : N; co_b : N }.
(** Texture.hh [Texture]: the private members. *)
Record texture := mkTex {
  tx_format : N;
  tx_palette : list color;
  tx_width : N;
  tx_height : N;
  tx_ref_width : N;
  tx_ref_height : N;
  tx_count : N;
  tx_average : N;
  tx_maps : list bytes
}.
(** A default-constructed texture; ZTEX_PALETTE_ENTRIES = 256. *)
Definition tex_new : texture := mkTex 0 (repeat (mkColor 0 0 0 0) 256) 0 0 0 0 0 0 [].

(** Texture.cc:298-303 *)
Definition color_load : rd color :=
  let* b := read_ubyte in
  let* g := read_ubyte in
  let* r := read_ubyte in
  let* a := read_ubyte in
  ret (mkColor a r g b).
(** Texture.cc:352-357 *)
Definition color_save (c : color) : wr unit :=
  write_ubyte (co_b c) ;; write_ubyte (co_g c) ;; write_ubyte (co_r c) ;; write_ubyte (co_a c).

(** Texture.cc:307: level = count - 1, ..., 1, 0. *)
Definition levels_down (count : N) : list N := rev (map N.of_nat (seq 0 (N.to_nat count))).

(** Texture.cc:280-317, loading into the texture [t].  A mipmap that could not be read
    completely keeps the zeros it was resized with. *)
Definition tex_load (t : texture) : rd texture :=
  let* sig := read_string 4 in
  if negb (bytes_eqb sig (lit "ZTEX")) then throw ParserError else
  let* v := read_uint in
  if negb (v =? 0) then throw ParserError else
  let* fmt := read_uint in
  let* w := read_uint in
  let* h := read_uint in
  let* c := read_uint in
  let count := N.max 1 c in
  let* rw := read_uint in
  let* rh := read_uint in
  let* avg := read_uint in
  let* pal := (if fmt =? P8 then repM 256 color_load else ret (tx_palette t)) in
  let* maps := mapM (fun l => rd_fixed (mipmap_size fmt w h l)) (levels_down count) in
  ret (mkTex fmt pal w h rw rh count avg (tx_maps t ++ maps)).

(** Texture.cc:340-363 *)
Definition tex_save (t : texture) : wr unit :=
  write_string (lit "ZTEX") ;;
  write_uint 0 ;;
  write_uint (tx_format t) ;;
  write_uint (tx_width t) ;;
  write_uint (tx_height t) ;;
  write_uint (tx_count t) ;;
  write_uint (tx_ref_width t) ;;
  write_uint (tx_ref_height t) ;;
  write_uint (tx_average t) ;;
  (if tx_format t =? P8 then iterM color_save (tx_palette t) else ret tt) ;;
  iterM wr_write (tx_maps t).

(** Texture.hh:116-118 [data].  The subtraction is on [uint32_t]; an index out of range throws
    inside a [noexcept] function. *)
Definition tex_data (t : texture) (level : N) : outcome bytes :=
  match nth_N (tx_maps t) (u32 (2 ^ 32 + u32 (2 ^ 32 + tx_count t - 1) - level)) with
  | Some b => Ret b
  | None => Undef
  end.

(** Texture.hh:77-83: shifting a 32-bit number by 32 or more is undefined behaviour. *)
Definition shift_dim (x i : N) : outcome N := if i <? 32 then Ret (x / 2 ^ i) else Undef.

(** Texture.cc:319-338 [as_rgba8].  For a palette image the result vector is empty when its
    elements are written. *)
Definition as_rgba8 (sq : squish) (t : texture) (level : N) : outcome bytes :=
  obind (tex_data t level) (fun map =>
  obind (shift_dim (tx_width t) level) (fun w =>
  obind (shift_dim (tx_height t) level) (fun h =>
  if tx_format t =? P8 then (if u32 (w * h) =? 0 then Ret [] else Undef)
  else to_rgba sq map w h (tx_format t)))).

(* ------------------------------------------------------------------ *)
(** * Building textures *)

(** Texture.hh [TextureBuilder] *)
Record builder := mkBuilder { tb_width : N; tb_height : N; tb_maps : list (bytes * N) }.

(** Texture.cc:365 *)
Definition builder_new (w h : N) : builder := mkBuilder w h [].

(** Texture.cc:367-375 *)
Definition add_mipmap (b : builder) (bs : bytes) (fmt : N) : outcome builder :=
  if len bs =? mipmap_size fmt (tb_width b) (tb_height b) (u32 (len (tb_maps b)))
  then Ret (mkBuilder (tb_width b) (tb_height b) (tb_maps b ++ [(bs, fmt)]))
  else Throw InvalidMipmapSize.

(** Texture.cc:391-394 *)
Fixpoint build_maps (sq : squish) (w h i into : N) (l : list (bytes * N)) : outcome (list bytes) :=
  match l with
  | [] => Ret []
  | (bs, fmt) :: l' =>
      obind (shift_dim w i) (fun wi =>
      obind (shift_dim h i) (fun hi =>
      obind (convert_format sq bs wi hi fmt into) (fun m =>
      obind (build_maps sq w h (i + 1) into l') (fun ms => Ret (m :: ms)))))
  end.

(** Texture.cc:377-397 *)
Definition build (sq : squish) (b : builder) (fmt : N) : outcome texture :=
  if fmt =? P8 then Throw UnsupportedFormat
  else
    obind (build_maps sq (tb_width b) (tb_height b) 0 fmt (tb_maps b)) (fun maps =>
    Ret (mkTex fmt (repeat (mkColor 0 0 0 0) 256) (tb_width b) (tb_height b) (tb_width b) (tb_height b)
           (u32 (len (tb_maps b))) 0 maps)).

(* ------------------------------------------------------------------ *)
(** * DDS export *)

(** texcvt.cc:57-69 the members of [DDSURFACEDESC2] that are ever set; the others are zero. *)
Record dds := mkDds {
  ds_flags : N; ds_height : N; ds_width : N; ds_pitch : N; ds_mips : N;
  ds_pf_flags : N; ds_fourcc : N; ds_bits : N; ds_rmask : N; ds_gmask : N; ds_bmask : N; ds_amask : N;
  ds_caps1 : N
}.

Definition is_dxt (fmt : N) : bool :=
  (fmt =? DXT1) || (fmt =? DXT2) || (fmt =? DXT3) || (fmt =? DXT4) || (fmt =? DXT5).

(** texcvt.cc:6-8 *)
Definition fourcc (a b c d : byte) : N := b2n a + 2 ^ 8 * b2n b + 2 ^ 16 * b2n c + 2 ^ 24 * b2n d.

(** texcvt.cc:95-189: flags, FourCC, bit count and the masks of red, green, blue, alpha. *)
Definition dds_pixel_format (fmt : N) : N * N * N * (N * N * N * N) :=
  if fmt =? B8G8R8A8 then (65, 0, 32, (65280, 16711680, 4278190080, 255))
  else if fmt =? R8G8B8A8 then (65, 0, 32, (4278190080, 16711680, 65280, 255))
  else if fmt =? A8B8G8R8 then (65, 0, 32, (255, 65280, 16711680, 4278190080))
  else if fmt =? A8R8G8B8 then (65, 0, 32, (16711680, 65280, 255, 4278190080))
  else if fmt =? B8G8R8 then (64, 0, 24, (255, 65280, 16711680, 0))
  else if fmt =? R8G8B8 then (64, 0, 24, (16711680, 65280, 255, 0))
  else if fmt =? A4R4G4B4 then (65, 0, 16, (3840, 240, 15, 61440))
  else if fmt =? A1R5G5B5 then (65, 0, 16, (31744, 992, 31, 32768))
  else if fmt =? R5G6B5 then (64, 0, 16, (63488, 2016, 31, 0))
  else if fmt =? P8 then (32, 0, 0, (0, 0, 0, 0))
  else if fmt =? DXT1 then (4, fourcc x44 x58 x54 x31, 0, (0, 0, 0, 0))
  else if fmt =? DXT2 then (4, fourcc x44 x58 x54 x32, 0, (0, 0, 0, 0))
  else if fmt =? DXT3 then (4, fourcc x44 x58 x54 x33, 0, (0, 0, 0, 0))
  else if fmt =? DXT4 then (4, fourcc x44 x58 x54 x34, 0, (0, 0, 0, 0))
  else if fmt =? DXT5 then (4, fourcc x44 x58 x54 x35, 0, (0, 0, 0, 0))
  else (0, 0, 0, (0, 0, 0, 0)).

(** texcvt.cc:71-189.  Flags: caps 1, height 2, width 4, pitch 8, pixel format 0x1000, mipmap
    count 0x20000, linear size 0x80000; caps: texture 0x1000, mipmap 0x400000, complex 8. *)
Definition dds_header (t : texture) : dds :=
  let dxt := is_dxt (tx_format t) in
  let mips := 1 <? tx_count t in
  let '(pf, cc, bits, (r, g, b, a)) := dds_pixel_format (tx_format t) in
  mkDds (4 + 2 + 4096 + 1 + (if dxt then 524288 else 8) + (if mips then 131072 else 0))
        (tx_height t) (tx_width t)
        (if dxt then mipmap_size (tx_format t) (tx_width t) (tx_height t) 0
         else mipmap_size (tx_format t) (tx_width t) 1 0)
        (if mips then tx_count t else 0)
        pf cc bits r g b a
        (4096 + (if mips then 4194304 + 8 else 0)).

(** texcvt.cc:191-215 *)
Definition write_dds_header (d : dds) : wr unit :=
  write_uint 124 ;;
  write_uint (ds_flags d) ;;
  write_uint (ds_height d) ;;
  write_uint (ds_width d) ;;
  write_uint (ds_pitch d) ;;
  write_uint 0 ;;
  write_uint (ds_mips d) ;;
  iterM write_uint (repeat 0 11) ;;
  write_uint 32 ;;
  write_uint (ds_pf_flags d) ;;
  write_uint (ds_fourcc d) ;;
  write_uint (ds_bits d) ;;
  write_uint (ds_rmask d) ;;
  write_uint (ds_gmask d) ;;
  write_uint (ds_bmask d) ;;
  write_uint (ds_amask d) ;;
  write_uint (ds_caps1 d) ;;
  write_uint 0 ;;
  write_uint 0 ;;
  write_uint 0 ;;
  write_uint 0.

(** texcvt.cc:227-232: level = 0, 1, ..., mipmaps - 1. *)
Definition write_dds_data (t : texture) : wr unit :=
  iterM (fun l => let* d := lift (tex_data t l) in wr_write d) (map N.of_nat (seq 0 (N.to_nat (tx_count t)))).

(** texcvt.cc:234-247; the palette loop is 218-225. *)
Definition to_dds (t : texture) : outcome bytes :=
  match (write_string (lit "DDS ") ;;
         write_dds_header (dds_header t) ;;
         (if tx_format t =? P8 then iterM color_save (tx_palette t) else ret tt) ;;
         write_dds_data t) w_empty with
  | Ret (_, w) => Ret (wbuf w)
  | Throw e => Throw e
  | Undef => Undef
  | Fuel => Fuel
  end.
