(** Model of the savers of textures (src/Texture.cc) and fonts (src/Font.cc) as programs over any
    writer. *)

From Verif Require Import MBase MStream MModel MTexture MSink.
Local Open Scope N_scope.

(** Stream.cc:118-180: one [write] each. *)
Definition qubyte (v : N) : wprog unit := qput (le_enc 1 v).
Definition qvec2 (v : vec2) : wprog unit := qput (le_enc 4 (v2x v) ++ le_enc 4 (v2y v)).
(** Texture.cc:352-357. *)
Definition qcolor (c : color) : wprog unit :=
  qseq (qubyte (co_b c)) (qseq (qubyte (co_g c)) (qseq (qubyte (co_r c)) (qubyte (co_a c)))).
(** Texture.cc:340-363 *)
Definition qtex_save (t : texture) : wprog unit :=
  qseq (qput (lit "ZTEX")) (qseq (quint 0) (qseq (quint (tx_format t)) (qseq (quint (tx_width t)) (qseq (quint (tx_height t))
  (qseq (quint (tx_count t)) (qseq (quint (tx_ref_width t)) (qseq (quint (tx_ref_height t)) (qseq (quint (tx_average t))
  (qseq (if tx_format t =? P8 then qiter qcolor (tx_palette t) else qret tt) (qiter qput (tx_maps t))))))))))).
(** Font.cc:37-54 *)
Definition qfont_save (f : font) : wprog unit :=
  qseq (qline (lit "1")) (qseq (qline (fo_name f)) (qseq (quint (fo_height f)) (qseq (quint (u32 (len (fo_glyphs f))))
  (qseq (qiter (fun g => qubyte (gl_width g)) (fo_glyphs f))
  (qseq (qiter (fun g => qvec2 (gl_uv0 g)) (fo_glyphs f)) (qiter (fun g => qvec2 (gl_uv1 g)) (fo_glyphs f))))))).
