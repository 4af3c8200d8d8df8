(** Specification vocabulary for the file formats. *)

From Verif Require Import MBase MStream SStream MBoxes SBoxes MModel.
Local Open Scope N_scope.

(** On every input the reader returns or throws: it neither runs forever nor touches memory
    outside the buffer; and it never moves backwards. *)
Definition forward {A} (r : rd A) : Prop :=
  forall s, r_ok s ->
    match r s with
    | Ret (_, s') => rdata s' = rdata s /\ r_ok s' /\ rpos s <= rpos s'
    | Throw _ => True
    | Undef => False
    | Fuel => False
    end.

(** Characters the line reader skips after a line. *)
Definition is_ws (c : byte) : Prop := In c ws_chars.
(** A non-empty name whose first character is not white space. *)
Definition starts_visible (s : bytes) : Prop :=
  match s with [] => False | c :: _ => ~ is_ws c end.

(** What the members of a font can hold (types of Font.hh), the glyph count fitting its
    field, and a name without line ends. *)
Definition glyph_ok (g : glyph) : Prop := gl_width g < 2 ^ 8 /\ vec2_ok (gl_uv0 g) /\ vec2_ok (gl_uv1 g).
Definition font_ok (f : font) : Prop :=
  no_eol (fo_name f) /\ fo_height f < 2 ^ 32 /\ len (fo_glyphs f) < 2 ^ 32 /\ Forall glyph_ok (fo_glyphs f).

(** The same for skeletons; [2^32] is the limit of a chunk's size field. *)
Definition hnode_ok (n : hnode) : Prop :=
  no_eol (hn_name n) /\ (- 2 ^ 15 <= hn_parent n < 2 ^ 15)%Z /\
  length (hn_transform n) = 16%nat /\ Forall f32 (hn_transform n).
Definition names_len (l : list hnode) : N := fold_right (fun n a => len (hn_name n) + a) 0 l.
Definition hier_ok (h : hierarchy) : Prop :=
  Forall hnode_ok (hi_nodes h) /\ len (hi_nodes h) < 2 ^ 16 /\ names_len (hi_nodes h) < 2 ^ 31 /\
  aabb_ok (hi_bbox h) /\ aabb_ok (hi_collision h) /\ vec3_ok (hi_root h) /\
  hi_checksum h < 2 ^ 32 /\ date_ok (hi_date h) /\ no_eol (hi_path h) /\ len (hi_path h) < 2 ^ 31.

(** What a writer leaves in a new file, and what a reader makes of a whole file. *)
Definition file_of (w : wr unit) : outcome bytes :=
  match w w_empty with Ret (_, s) => Ret (wbuf s) | Throw e => Throw e | Undef => Undef | Fuel => Fuel end.
Definition of_file {A} (r : rd A) (b : bytes) : outcome A :=
  match r (mkR b 0) with Ret (a, _) => Ret a | Throw e => Throw e | Undef => Undef | Fuel => Fuel end.
(** The value that comes back after saving and loading. *)
Definition resaved {A} (save : wr unit) (load : rd A) : outcome A := obind (file_of save) (of_file load).
