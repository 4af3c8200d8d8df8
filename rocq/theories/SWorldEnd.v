(** Vocabulary for how loading a world ends. *)

From Verif Require Import MBase MStream MBoxes MArchive MLevel.
From Coq Require Import String.
Local Open Scope N_scope.

(** The bytes [pat] are in the data at the position [i]. *)
Definition occurs_at (pat b : bytes) (i : N) : Prop := take (len pat) (drop i b) = pat.
(** They are there at most once. *)
Definition once (pat b : bytes) : Prop := forall i j, occurs_at pat b i -> occurs_at pat b j -> i = j.
(** The class of worlds. *)
Definition world_class : bytes := lit "oCWorld:zCWorld".
(** A mesh begins at [q]: eight bytes, or as many as there are, after the beginning of an object
    called MeshAndBsp in a safe binary archive. *)
Definition mesh_begins (b : bytes) (q : N) : Prop := exists p h s,
  p <= len b /\ bs_begin (mkR b p) = Ret (Some h, mkR b s) /\ oh_name h = lit "MeshAndBsp" /\ q = N.min (s + 8) (len b).
(** Passing over the chunks of every mesh comes to an end. *)
Definition meshes_end (b : bytes) : Prop := forall q, mesh_begins b q -> exists n, skip_chunks n (mkR b q) <> Fuel.
