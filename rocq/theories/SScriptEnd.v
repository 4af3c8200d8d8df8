(** Specification vocabulary: compiled model scripts that can be loaded. *)

From Coq Require Import String.
From Verif Require Import MBase MStream SStream SArchEnd.
Local Open Scope N_scope.

(** The types of chunks with events, and of those with an animation: ModelScript.cc:24-45. *)
Definition event_chunk_types : list N := [62881; 62882; 62883; 62884; 62885; 62889; 62890].
Definition animation_chunk_type : N := 62752.
(** The words for events with a list of frames: ModelScript.cc:60-85. *)
Definition frame_words : list bytes :=
  [lit "DEF_DAM_MULTIPLY"; lit "DEF_PAR_FRAME"; lit "DEF_OPT_FRAME"; lit "DEF_HIT_END"; lit "DEF_WINDOW"].
(** The file has no event with a list of frames. *)
Definition frameless (b : bytes) : Prop := forall w, In w frame_words -> lacks w b.
(** Chunks that neither hold an event nor an animation. *)
Definition no_event (c : chunk) : Prop := chunk_ok c /\ ~ In (fst c) event_chunk_types /\ fst c <> animation_chunk_type.
