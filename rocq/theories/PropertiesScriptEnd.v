(** How loading compiled model scripts ends: C101. *)

From Coq Require Import String Lia.
From Verif Require Import MBase MStream SStream MScript SArchEnd SScriptEnd LScriptEnd LMeshEndX.
Local Open Scope N_scope.

(** Loading returns a script if no event comes before the first animation and no event has a list
    of frames: whatever the chunks before the animation hold, and whatever bytes follow it. *)
Theorem C101_compiled_partial : forall fuel s cs a rest b, Forall no_event cs -> chunk_ok (animation_chunk_type, a) ->
  b = flat_map chunk_bytes cs ++ chunk_bytes (animation_chunk_type, a) ++ rest ->
  61440 <= fst (hd (animation_chunk_type, a) cs) -> frameless b -> len b < 2 ^ 32 ->
  exists x, mds_load fuel s (r_from b) = Ret x.
Proof. exact compiled_returns. Qed.
Print Assumptions C101_compiled_partial.
(** A head, an animation that is cut off and an event that is cut off. *)
Definition demo_script : bytes :=
  chunk_bytes (61440, le_enc 4 3) ++ chunk_bytes (animation_chunk_type, lit "S_RUN" ++ [x0a]) ++ le_enc 2 62885 ++ le_enc 4 1000 ++ lit "ab".
Example C101_compiled_example :
  Forall no_event [(61440, le_enc 4 3)] /\ frameless demo_script /\
  exists x, mds_load 0 mscript_new (r_from demo_script) = Ret x /\
    match ms_animations (fst x) with [a] => len (an_pfx_stop a) = 1 | _ => False end.
Proof.
  split; [|split].
  - constructor; [|constructor]. split; [split; reflexivity|]. split; [|discriminate]. cbn [fst]. intros H. vm_compute in H. intuition discriminate.
  - intros w Hw. apply occurs_lacks. unfold frame_words in Hw. cbn [In] in Hw. repeat (destruct Hw as [<-|Hw]; [vm_compute; reflexivity|]). destruct Hw.
  - eexists. split; vm_compute; reflexivity.
Qed.
