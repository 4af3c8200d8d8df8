(** Specification vocabulary: files made of chunks, and chunks a format does not know. *)

From Verif Require Import MBase MStream SStream SFormat.
Local Open Scope N_scope.

(** Loading from the beginning of a chunk of a type that is not [known] is loading from its end,
    whatever stands before and after it; when it is the last one, loading ends with what there
    was.  ("Does not run out of steps" is a condition on the loading from its end.) *)
Definition passes_over {A} (load : rd A) (init : A) (known : list N) : Prop :=
  (forall ty p pre post, ty < 2 ^ 16 -> len p < 2 ^ 32 -> ~ In ty known -> post <> [] ->
     len (pre ++ chunk_bytes (ty, p) ++ post) < max_size ->
     load (mkR (pre ++ chunk_bytes (ty, p) ++ post) (len (pre ++ chunk_bytes (ty, p)))) <> Fuel ->
     load (mkR (pre ++ chunk_bytes (ty, p) ++ post) (len pre)) =
     load (mkR (pre ++ chunk_bytes (ty, p) ++ post) (len (pre ++ chunk_bytes (ty, p))))) /\
  (forall ty p pre, ty < 2 ^ 16 -> len p < 2 ^ 32 -> ~ In ty known ->
     len (pre ++ chunk_bytes (ty, p)) < max_size ->
     load (mkR (pre ++ chunk_bytes (ty, p)) (len pre)) =
     Ret (init, mkR (pre ++ chunk_bytes (ty, p)) (len (pre ++ chunk_bytes (ty, p))))).

(** The types of chunks each format knows: ModelHierarchy.cc:10-12, world/BspTree.cc:15-20, Mesh.cc:15-23,
    MultiResolutionMesh.cc:12, SoftSkinMesh.cc:13-16, ModelMesh.cc:12-17, MorphMesh.cc:8-12,
    ModelAnimation.cc:20-23 and ModelScript.cc:16-45, in decimal. *)
Definition skeleton_chunks : list N := [53504; 53520; 53536].
Definition bsp_chunk_types : list N := [49152; 49168; 49216; 49221; 49232; 49407].
Definition mesh_chunk_types : list N := [45056; 45072; 45088; 45093; 45094; 45104; 45120; 45136; 45152].
Definition mrm_chunk_types : list N := [45312; 45567].
Definition skin_chunk_types : list N := [57600; 57616; 45312; 45567].
Definition model_mesh_chunks : list N := [53248; 53264; 53280; 53296; 53312; 45312].
Definition morph_chunk_types : list N := [57360; 57376; 57392; 45312; 45567].
Definition animation_chunks : list N := [40976; 40992; 41008; 41104].
Definition script_chunk_types : list N :=
  [61440; 61696; 62208; 62464; 62752; 62768; 62784; 62832; 62848; 62864; 62880; 62881; 62882; 62883; 62884; 62885; 62889; 62890].
