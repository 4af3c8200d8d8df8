(** How loading a world ends, whatever the bytes are: C114 and C116. *)

From Coq Require Import String Lia.
From Verif Require Import MBase MStream SStream MBoxes SBoxes MText MClasses MArchive SArchive MVob MWorld MLib MMesh MBsp MLevel.
From Verif Require Import SFormat SArchEnd SWorldEnd LArchEndX LMeshEndX LWorldEnd LWorldEndX.
Local Open Scope N_scope.

(** ** C116: safe binary archives with worlds. *)
(** Every safe binary archive is read to an end, worlds included, unless it holds a section with a
    mesh (see C114).  [n] and [cf_depth c] bound the depth of objects and of trees and the number
    of sections: more than the length of the file is enough. *)
Theorem C116_safe_worlds_partial : forall c n b head r, len b < 2 ^ 62 ->
  (List.length b < n)%nat -> (List.length b < cf_depth c)%nat ->
  ar_open (mkR b 0) = Ret (head, r) -> ah_format head = ABinsafe -> lacks (lit "MeshAndBsp") b ->
  load_archive (c_load (library c)) (c_flags (library c)) n b <> Fuel.
Proof. exact safe_worlds_end. Qed.
Print Assumptions C116_safe_worlds_partial.
Definition text_entry (s : string) : bytes := le_enc 1 1 ++ le_enc 2 (len (lit s)) ++ lit s.
Definition int_entry (n : N) : bytes := le_enc 1 18 ++ le_enc 4 0 ++ le_enc 1 2 ++ le_enc 4 n.
Definition safe_file (l : bytes) : bytes :=
  top_lines "BIN_SAFE" ++ le_enc 4 2 ++ le_enc 4 1 ++ le_enc 4 (len (top_lines "BIN_SAFE") + 12 + len l) ++ l ++ le_enc 4 0.
(** A world with an object of no known class, whose number of children is negative, so that its
    children are skipped without an end in sight: here the end of the file stops it. *)
Definition safe_count : bytes := safe_file (text_entry "[% oCWorld:zCWorld 0 0]" ++ text_entry "[VobTree % 0 0]" ++ int_entry 1 ++
  text_entry "[% X 0 1]" ++ text_entry "[]" ++ int_entry (2 ^ 32 - 1) ++ text_entry "[% X 0 1]" ++ text_entry "[]" ++ int_entry 0).
Example C116_safe_example : lacks (lit "MeshAndBsp") safe_count /\
  (exists head r, ar_open (mkR safe_count 0) = Ret (head, r) /\ ah_format head = ABinsafe) /\
  load_archive (c_load (library (mkCfg G1 false true 40))) (c_flags (library (mkCfg G1 false true 40))) 9 safe_count = Throw ParserError.
Proof.
  split; [apply occurs_lacks; vm_compute; reflexivity|]. split; [|vm_compute; reflexivity].
  do 2 eexists. split; [vm_compute; reflexivity | reflexivity].
Qed.
(** In a binary archive the end of the file does not stop it. *)
Theorem C116_count_refuted : exists b head r,
  ar_open (mkR b 0) = Ret (head, r) /\ ah_format head = ABinary /\
  forall c n, load_archive (c_load (library c)) (c_flags (library c)) n b = Fuel.
Proof. exact count_loops. Qed.
Print Assumptions C116_count_refuted.

(** ** C114: loading a world file. *)
(** In a safe binary file the loop over the chunks of the mesh (C114_end_of_file_refuted) is the
    only one that may not end: where it ends, so does loading.  The file is one world, and its
    materials are in no archive of text (see C93). *)
Theorem C114_worlds_partial : forall c n x h0 b head r, len b < 2 ^ 62 ->
  (List.length b < n)%nat -> (List.length b < cf_depth c)%nat ->
  ar_open (mkR b 0) = Ret (head, r) -> ah_format head = ABinsafe ->
  lacks (lit "ASCII") b -> once world_class b -> meshes_end b ->
  load_level c n x h0 (mkR b 0) <> Fuel.
Proof. exact level_ends. Qed.
Print Assumptions C114_worlds_partial.
(** A world with an empty mesh and an empty tree, and one whose mesh is cut off after its end
    chunk. *)
Definition small_mesh (l : bytes) : bytes :=
  safe_file (text_entry "[% oCWorld:zCWorld 0 0]" ++ text_entry "[MeshAndBsp % 0 0]" ++ le_enc 4 bsp_version_g1 ++ le_enc 4 0 ++
    le_enc 2 45056 ++ le_enc 4 2 ++ [x01; x02] ++ le_enc 2 M_END ++ le_enc 4 0 ++ l).
Definition whole_mesh : bytes := small_mesh (le_enc 2 B_END ++ le_enc 4 1 ++ [x00] ++ text_entry "[]" ++ text_entry "[EndMarker % 0 0]" ++ text_entry "[]" ++ text_entry "[]").
Example C114_worlds_example :
  (lacks (lit "ASCII") whole_mesh /\ once world_class whole_mesh /\ meshes_end whole_mesh /\ (exists q, mesh_begins whole_mesh q) /\
   (exists head r, ar_open (mkR whole_mesh 0) = Ret (head, r) /\ ah_format head = ABinsafe)) /\
  (exists y, load_level (mkCfg G1 false true 40) 9 (lv_new 0) [] (mkR whole_mesh 0) = Ret y) /\
  meshes_end (small_mesh []).
Proof.
  split; [split; [apply occurs_lacks; vm_compute; reflexivity|]; split; [|split; [|split]]|split].
  - apply once_checked; [apply PeanoNat.Nat.leb_le; vm_compute; reflexivity | discriminate].
  - apply meshes_checked. vm_compute. reflexivity.
  - eexists. exists (len (top_lines "BIN_SAFE") + 12 + len (text_entry "[% oCWorld:zCWorld 0 0]")). do 2 eexists.
    split; [vm_compute; discriminate|]. split; [vm_compute; reflexivity|]. split; vm_compute; reflexivity.
  - do 2 eexists. split; [vm_compute; reflexivity | reflexivity].
  - eexists. vm_compute. reflexivity.
  - apply meshes_checked. vm_compute. reflexivity.
Qed.
