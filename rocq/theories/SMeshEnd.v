(** Vocabulary for how loading a mesh ends, independent of the reader of meshes. *)

From Verif Require Import MBase MStream MTexture.
Local Open Scope N_scope.

(** The content of a chunk of type [ty] begins at [q]: behind the type and a size of four bytes. *)
Definition chunk_at (b : bytes) (ty q : N) : Prop := exists p, take 2 (drop p b) = le_enc 2 ty /\ q = N.min (p + 6) (len b).
(** A chunk of shared lightmaps with a wrong number: a table of [n] textures, then [k] lightmaps of
    40 bytes each, of which number [j] names a texture that the table does not have in its last four
    bytes. *)
Definition wrong_lightmap (b : bytes) : Prop := exists q n s1 ts s2 k s3 j i s4,
  chunk_at b 45094 q /\ read_uint (mkR b q) = Ret (n, s1) /\ repM (N.to_nat n) (tex_load tex_new) s1 = Ret (ts, s2) /\
  read_uint s2 = Ret (k, s3) /\ j < k /\ read_uint (mkR b (N.min (rpos s3 + 40 * j + 36) (len b))) = Ret (i, s4) /\ n <= i.
