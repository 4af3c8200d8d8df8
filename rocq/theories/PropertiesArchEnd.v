(** How loading an archive ends, whatever the bytes are: C116 and C117. *)

From Coq Require Import String Lia.
From Verif Require Import MBase MStream SStream MBoxes SBoxes MText MClasses MArchive SArchive.
From Verif Require Import MVob MVobs MNpc MCutscene MMaterial MWorld SVob MLib SLib SReload SArchEnd LArchEnd LArchEndX LTextEnd.
From Verif Require Import PropertiesVobs PropertiesLoaded.
Local Open Scope N_scope.

(** ** C116: loading an archive ends.  [n] bounds the depth of objects within objects: more than
    the length of the file is always enough. *)
Theorem C116_opening_ends : forall b, len b < 2 ^ 62 -> ar_open (mkR b 0) <> Fuel.
Proof. exact opening_ends. Qed.
Print Assumptions C116_opening_ends.
(** Binary and safe binary archives, with worlds refused. *)
Theorem C116_loading_ends_partial : forall c n b head r, len b < 2 ^ 62 -> (List.length b < n)%nat ->
  ar_open (mkR b 0) = Ret (head, r) -> ah_format head <> AAscii ->
  load_archive (refusing is_world c) (c_flags (library c)) n b <> Fuel.
Proof. exact loading_ends. Qed.
Print Assumptions C116_loading_ends_partial.
(** An archive of seven objects, and the same archive cut off in the middle. *)
Example C116_example :
  (exists head r, ar_open (mkR demo_bytes 0) = Ret (head, r) /\ ah_format head <> AAscii) /\
  (exists x, load_archive (refusing is_world s1) (c_flags (library s1)) (S (List.length demo_bytes)) demo_bytes = Ret x) /\
  (exists head r, ar_open (mkR (take 400 demo_bytes) 0) = Ret (head, r) /\ ah_format head <> AAscii).
Proof.
  split; [|split].
  - do 2 eexists. split; [vm_compute; reflexivity | discriminate].
  - eexists. vm_compute. reflexivity.
  - do 2 eexists. split; [vm_compute; reflexivity | discriminate].
Qed.
(** Text archives in which, from every line on, at least as many lines end objects as begin
    objects, with worlds (and code masters of saved games) refused. *)
Theorem C116_text_ends_partial : forall c n b head r, len b < 2 ^ 62 -> (List.length b < n)%nat ->
  ar_open (mkR b 0) = Ret (head, r) -> ah_format head = AAscii -> closed (lines b (rpos r)) ->
  load_archive (refusing (skipping c) c) (c_flags (library c)) n b <> Fuel.
Proof. exact text_loading_ends. Qed.
Print Assumptions C116_text_ends_partial.
(** A text archive that stops within an object that is skipped: the search for the object's end
    goes on for ever, with any number of turns. *)
Theorem C116_text_refuted : exists b head r,
  ar_open (mkR b 0) = Ret (head, r) /\ ah_format head = AAscii /\
  (forall n, skip_loop n AAscii 1 (mkRar (mkR b (len b)) []) = Fuel) /\
  (forall c n, load_archive (c_load (library c)) (c_flags (library c)) n b = Fuel).
Proof. exact text_loops. Qed.
Print Assumptions C116_text_refuted.
(** A binary world with a section of size zero: the section is read again and again, for every
    number of sections [cf_depth c] allowed. *)
Theorem C116_worlds_refuted : exists b head r,
  ar_open (mkR b 0) = Ret (head, r) /\ ah_format head = ABinary /\
  forall c n, load_archive (c_load (library c)) (c_flags (library c)) n b = Fuel.
Proof. exact world_loops. Qed.
Print Assumptions C116_worlds_refuted.

(** ** C117: loading an archive has no undefined behaviour. *)
(** Binary archives, with the classes refused that trust what they read. *)
Theorem C117_binary_safe_partial : forall c n b head r, len b < 2 ^ 62 -> (List.length b < n)%nat ->
  ar_open (mkR b 0) = Ret (head, r) -> ah_format head = ABinary ->
  answers (load_archive (refusing trusting c) (c_flags (library c)) n b).
Proof. exact loading_safe. Qed.
Print Assumptions C117_binary_safe_partial.
(** Safe binary archives without ten decimal digits in a row. *)
Theorem C117_binsafe_safe_partial : forall c n b head r, len b < 2 ^ 62 -> (List.length b < n)%nat ->
  ar_open (mkR b 0) = Ret (head, r) -> ah_format head = ABinsafe -> long_number b = false ->
  answers (load_archive (refusing trusting c) (c_flags (library c)) n b).
Proof. exact loading_safe_bs. Qed.
Print Assumptions C117_binsafe_safe_partial.
(** Text archives whose colors are four numbers and whose matrices are hexadecimal digits, and in
    which from every line on at least as many lines end objects as begin objects. *)
Theorem C117_text_safe_partial : forall c n b head r, len b < 2 ^ 62 -> (List.length b < n)%nat ->
  ar_open (mkR b 0) = Ret (head, r) -> ah_format head = AAscii ->
  closed (lines b (rpos r)) -> Forall well_formed_line (lines b (rpos r)) ->
  answers (load_archive (refusing (trusting_or_skipping c) c) (c_flags (library c)) n b).
Proof. exact text_loading_answers. Qed.
Print Assumptions C117_text_safe_partial.
(** A color of three numbers in a text archive: a variable is read that was never set. *)
Theorem C117_color_refuted : exists b head r,
  ar_open (mkR b 0) = Ret (head, r) /\ ah_format head = AAscii /\
  forall c n, load_archive (c_load (library c)) (c_flags (library c)) (S n) b = Undef.
Proof. exact color_undefined. Qed.
Print Assumptions C117_color_refuted.
(** A matrix in a text archive whose text is no hexadecimal number. *)
Theorem C117_matrix_refuted : exists b head r,
  ar_open (mkR b 0) = Ret (head, r) /\ ah_format head = AAscii /\
  forall c n, load_archive (c_load (library c)) (c_flags (library c)) (S n) b = Undef.
Proof. exact matrix_undefined. Qed.
Print Assumptions C117_matrix_refuted.
(** Opening text and binary archives is safe. *)
Theorem C117_opening_safe_partial : forall b, len b < 2 ^ 62 ->
  (forall head r, head_load (mkR b 0) = Ret (head, r) -> ah_format head <> ABinsafe) -> answers (ar_open (mkR b 0)).
Proof. exact opening_safe. Qed.
Print Assumptions C117_opening_safe_partial.
(** An object's version that is no 32-bit number, in the safe binary format. *)
Theorem C117_version_refuted : exists b head r,
  ar_open (mkR b 0) = Ret (head, r) /\ ah_format head = ABinsafe /\
  forall c n, load_archive (c_load (library c)) (c_flags (library c)) (S n) b = Undef.
Proof. exact version_undefined. Qed.
Print Assumptions C117_version_refuted.
(** A table of keys with a position outside of the table. *)
Theorem C117_table_refuted : exists b, len b < 100 /\ ar_open (mkR b 0) = Undef.
Proof. exact table_undefined. Qed.
Print Assumptions C117_table_refuted.
(** A way net with a null way point. *)
Theorem C117_null_refuted : exists b head r,
  ar_open (mkR b 0) = Ret (head, r) /\ ah_format head = ABinary /\
  forall c n, load_archive (c_load (library c)) (c_flags (library c)) (S (S n)) b = Undef.
Proof. exact null_undefined. Qed.
Print Assumptions C117_null_refuted.
(** A binary world without an end marker: the end of the world is left twice. *)
Theorem C117_end_marker_refuted : exists b head r,
  ar_open (mkR b 0) = Ret (head, r) /\ ah_format head = ABinary /\
  forall c n, (0 < cf_depth c)%nat -> cf_save c = false ->
    load_archive (c_load (library c)) (c_flags (library c)) (S n) b = Undef.
Proof. exact marker_undefined. Qed.
Print Assumptions C117_end_marker_refuted.
(** An archive of several objects, and the same archive cut off. *)
Definition demo_plain_bytes : bytes :=
  match save_archive ABinary demo_env demo_env true (g_graph (library s1) (few [Otrigger zCTrigger demo_trigger; Odoor demo_door; Ovisual zCMesh; Oaihuman (mk_aihuman 0%Z 1 2 3 4 5 6 7 None 0%Z 0%Z 0%Z 0%Z false 0%Z);
           Oevman demo_evman])) 8 (lit "%") (Some 0) with
  | Ret b => b | _ => [] end.
Example C117_example :
  (exists head r, ar_open (mkR (take 300 demo_plain_bytes) 0) = Ret (head, r) /\ ah_format head = ABinary) /\
  exists x, load_archive (refusing trusting s1) (c_flags (library s1)) (S (List.length demo_plain_bytes)) demo_plain_bytes = Ret x.
Proof.
  split.
  - do 2 eexists. split; [vm_compute; reflexivity | reflexivity].
  - eexists. vm_compute. reflexivity.
Qed.

(** Archives of the other formats. *)
Definition demo_safe_bytes : bytes :=
  match save_archive ABinsafe demo_env demo_env true (g_graph (library s1) (few [Otrigger zCTrigger demo_trigger; Odoor demo_door; Ovisual zCMesh; Oaihuman (mk_aihuman 0%Z 1 2 3 4 5 6 7 None 0%Z 0%Z 0%Z 0%Z false 0%Z);
           Oevman demo_evman])) 8 (lit "%") (Some 0) with
  | Ret b => b | _ => [] end.
Example C117_binsafe_example :
  (exists head r, ar_open (mkR demo_safe_bytes 0) = Ret (head, r) /\ ah_format head = ABinsafe) /\
  long_number demo_safe_bytes = false /\
  exists x, load_archive (refusing trusting s1) (c_flags (library s1)) (S (List.length demo_safe_bytes)) demo_safe_bytes = Ret x.
Proof.
  split; [|split].
  - do 2 eexists. split; [vm_compute; reflexivity | reflexivity].
  - vm_compute. reflexivity.
  - eexists. vm_compute. reflexivity.
Qed.
Definition demo_text_bytes : bytes :=
  match save_archive AAscii demo_env demo_env true (g_graph (library s1) (few [Oaihuman (mk_aihuman 0%Z 1 2 3 4 5 6 7 None 0%Z 0%Z 0%Z 0%Z false 0%Z)])) 8 (lit "%") (Some 0) with
  | Ret b => b | _ => [] end.
Example C117_text_example :
  (exists head r, ar_open (mkR demo_text_bytes 0) = Ret (head, r) /\ ah_format head = AAscii /\
     closed (lines demo_text_bytes (rpos r)) /\ Forall well_formed_line (lines demo_text_bytes (rpos r))) /\
  exists x, load_archive (refusing (trusting_or_skipping s1) s1) (c_flags (library s1)) (S (List.length demo_text_bytes)) demo_text_bytes = Ret x.
Proof.
  split.
  - do 2 eexists. split; [vm_compute; reflexivity|]. split; [reflexivity|]. split.
    + apply closedb_closed. vm_compute. reflexivity.
    + apply well_formedb_lines. vm_compute. reflexivity.
  - eexists. vm_compute. reflexivity.
Qed.
