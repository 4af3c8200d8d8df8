(** Properties of save game directories: C103 to C110. *)

From Coq Require Import String Lia.
From Verif Require Import MBase MStream MText MClasses MArchive SArchive MVob MCutscene MWorld MLib SReload MSave SSave MTexture MSaveGame SSaveGame.
From Verif Require Import LSave LSaveGame LSaveGameP PropertiesVobs PropertiesSave.
From Verif Require SVfs.
Local Open Scope N_scope.

(** ** C103 *)
(** What the three files hold that are read on loading, the game loaded has; whether the files come
    back is C41 and C50.  Other spellings of the names in the directory do no harm. *)
Theorem C103_comes_back_partial : forall d cwd c e fuel g to W root name K b1 b2 b4 m t s h g0,
  disk_ok d -> to <> [] -> begins_with d cwd (sg_path g) to K -> own_name name ->
  (forall n, In n (five name) -> K [n] <> Some DDir) ->
  save_saveinfo c (e 0%nat) (e 1%nat) fuel (sg_meta g) = Ret b1 -> load_saveinfo c fuel b1 = Ret m ->
  file_thumb (sg_thumb g) = Ret b2 -> load_thumb b2 = Ret t ->
  save_savedat c (e 2%nat) (e 3%nat) (sg_graph g) fuel (sg_state g) = Ret b4 -> load_savedat c fuel (sg_state g0) b4 = Ret (s, h) ->
  (exists b5, file_world c (e 4%nat) (e 5%nat) W root fuel = Ret b5) ->
  sg_load (run_steps d (fst (sg_save d cwd c e fuel g to W root name))) cwd c fuel g0 to
  = (mkSg m s (heap_graph h) (Some t) to, Ret tt).
Proof. exact save_then_load. Qed.
Print Assumptions C103_comes_back_partial.
(** Without a thumbnail an empty THUMB.SAV is written, and the save game cannot be loaded. *)
Theorem C103_no_thumbnail_refuted : forall d cwd c e fuel g to W root name K g0 fuel',
  disk_ok d -> begins_with d cwd (sg_path g) to K -> own_name name ->
  (forall n, In n (five name) -> K [n] <> Some DDir) ->
  all_written (files c e fuel g W root name) -> sg_thumb g = None ->
  snd (sg_load (run_steps d (fst (sg_save d cwd c e fuel g to W root name))) cwd c fuel' g0 to) <> Ret tt.
Proof. exact no_thumb. Qed.
Print Assumptions C103_no_thumbnail_refuted.

(** A disk with a save game, whose state file is spelled with small letters. *)
Definition slot (n : bytes) : loc := [lit "saves"; n].
Definition demo_disk : disk :=
  [([lit "saves"], DDir); (slot (lit "slot1"), DDir); (slot (lit "slot1") ++ [lit "OLDWORLD.SAV"], DFile [x01]);
   (slot (lit "slot1") ++ [lit "savedat.sav"], DFile [x02]); (slot (lit "slot3"), DDir);
   (slot (lit "slot3") ++ [lit "STALE.SAV"], DFile [x03])].
Definition demo_thumb : texture := mkTex R5G6B5 (tx_palette tex_new) 1 1 1 1 1 77 [[xe0; x07]].
Definition demo_meta : savemeta := mk_savemeta (lit "Title") (lit "NEWWORLD") 1 2 3 (lit "1.1.2001") 1 2 3 4 5 (lit "App").
Definition demo_game (thumb : option texture) : sgame := mkSg demo_meta demo_saved (few demo_manager) thumb (lit "saves/slot1").
Definition demo_world : oid -> option object := alone (Oworld (mk_world [] None None None [] [] false 0)).
Definition demo_envs : nat -> wenv := fun _ => demo_env.
Example C103_example : forall thumb,
  disk_ok demo_disk /\
  begins_with demo_disk [] (sg_path (demo_game thumb)) (lit "saves/slot3") (fun r => dget demo_disk (slot (lit "slot1") ++ r)) /\
  begins_with demo_disk [] (sg_path (demo_game thumb)) (lit "saves/slot1") (fun r => dget demo_disk (slot (lit "slot1") ++ r)) /\
  begins_with demo_disk [] [] (lit "saves/new/slot1") (fun _ => None) /\
  own_name (lit "NEWWORLD") /\
  (forall n, In n (five (lit "NEWWORLD")) -> dget demo_disk (slot (lit "slot1") ++ [n]) <> Some DDir).
Proof.
  intros thumb. split; [cbn; repeat split; discriminate|]. split; [|split; [|split; [|split]]].
  - apply Copied; try reflexivity; try discriminate; apply below_none; reflexivity.
  - apply In_place; reflexivity.
  - apply Fresh; try reflexivity; try discriminate. intros p _ [q Q] b. change (locate [] (lit "saves/new/slot1")) with [lit "saves"; lit "new"; lit "slot1"] in Q.
    destruct p as [|a p]; [discriminate|]. injection Q as <- Q. destruct p as [|a p]; [discriminate|]. injection Q as <- Q.
    destruct p as [|a p]; [discriminate|]. injection Q as <- Q. destruct p; discriminate.
  - split; [split; [discriminate | cbn; intuition discriminate] | cbn; intuition discriminate].
  - intros n I. cbn in I. decompose [or] I; try contradiction; subst n; discriminate.
Qed.

(** The hypotheses on the contents are met by C41 and by computation. *)
Example C103_contents : exists b1 b2 b4 h,
  save_saveinfo s2 (demo_envs 0) (demo_envs 1) 3 demo_meta = Ret b1 /\ load_saveinfo s2 3 b1 = Ret demo_meta /\
  file_thumb (Some demo_thumb) = Ret b2 /\ load_thumb b2 = Ret demo_thumb /\
  save_savedat s2 (demo_envs 2) (demo_envs 3) (few demo_manager) 3 demo_saved = Ret b4 /\
  (exists ph, load_savedat s2 3 (sg_state sg_new) b4 = Ret (map_state ph demo_saved, h)) /\
  exists b5, file_world s2 (demo_envs 4) (demo_envs 5) demo_world 0 3 = Ret b5.
Proof.
  destruct C41_example as (H1 & H2 & H3 & H4 & nds & w & wc & H5 & H6 & H7).
  destruct (state_comes_back s2 (few demo_manager) 3 demo_saved demo_env demo_env nds w wc H1 H4 eq_refl eq_refl) as (b & h & ph & S & L & _);
    [split; repeat (apply Forall_cons; [repeat split; discriminate|]); apply Forall_nil | exact H5 | exact H6 | exact H7 |].
  do 2 eexists. exists b, h. split; [vm_compute; reflexivity|]. split; [vm_compute; reflexivity|].
  split; [vm_compute; reflexivity|]. split; [vm_compute; reflexivity|].
  split; [exact S|]. split; [exists ph; exact L|]. eexists. vm_compute. reflexivity.
Qed.

(** ** C104 *)
(** The five files aside, the directory holds what the save game held that was loaded; outside of
    the directory at most the directories leading to it are made. *)
Theorem C104_other_files_partial : forall d cwd c e fuel g to W root name K,
  disk_ok d -> begins_with d cwd (sg_path g) to K -> own_name name ->
  (forall n, In n (five name) -> K [n] <> Some DDir) ->
  all_written (files c e fuel g W root name) ->
  let d' := run_steps d (fst (sg_save d cwd c e fuel g to W root name)) in
  (forall r, r <> [] -> ~ In r (map (fun n => [n]) (five name)) -> dget d' (locate cwd to ++ r) = K r) /\
  (forall l, ~ under (locate cwd to) l ->
     dget d' l = dget d l \/ dget d l = None /\ dget d' l = Some DDir /\ under l (locate cwd to)).
Proof. exact other_files. Qed.
Print Assumptions C104_other_files_partial.
(** Saving to the directory the game was loaded from, by another path: everything but the five
    files is gone. *)
Theorem C104_other_path_refuted : forall d cwd c e fuel g to W root name,
  disk_ok d -> to <> [] -> ~ In x2f name -> same_path (sg_path g) to = false ->
  under (locate cwd to) (locate cwd (sg_path g)) -> there d cwd to = true ->
  (forall p, p <> locate cwd to -> under p (locate cwd to) -> forall b, dget d p <> Some (DFile b)) -> locate cwd to <> [] ->
  forall r, r <> [] -> ~ In r (map (fun n => [n]) (five name)) ->
    dget (run_steps d (fst (sg_save d cwd c e fuel g to W root name))) (locate cwd to ++ r) = None.
Proof. exact files_lost. Qed.
Print Assumptions C104_other_path_refuted.
Example C104_example :
  same_path (lit "saves/slot1") (lit "saves/slot1/") = false /\
  locate [] (lit "saves/slot1/") = locate [] (lit "saves/slot1") /\ locate [] (lit "saves/./slot3/../slot1") = locate [] (lit "saves/slot1") /\
  there demo_disk [] (lit "saves/slot1/") = true /\
  (forall p, p <> locate [] (lit "saves/slot1/") -> under p (locate [] (lit "saves/slot1/")) -> forall b, dget demo_disk p <> Some (DFile b)) /\
  dget demo_disk (slot (lit "slot1") ++ [lit "OLDWORLD.SAV"]) = Some (DFile [x01]).
Proof.
  split; [reflexivity|]. split; [reflexivity|]. split; [reflexivity|]. split; [reflexivity|]. split; [|reflexivity].
  intros p _ [q Q] b. change (locate [] (lit "saves/slot1/")) with [lit "saves"; lit "slot1"] in Q.
  destruct p as [|a p]; [discriminate|]. injection Q as <- Q. destruct p as [|a p]; [discriminate|]. injection Q as <- Q. destruct p; discriminate.
Qed.

(** ** C105 *)
(** Whenever the process ends, the save game in a directory that does not contain the target, and
    is not in it, is the same and loads as before. *)
Theorem C105_other_games_survive_partial : forall d cwd c e fuel g to W root name d' p g0 fuel',
  ~ In x2f name -> crashed (fst (sg_save d cwd c e fuel g to W root name)) d d' ->
  ~ under (locate cwd to) (locate cwd p) -> ~ under (locate cwd p) (locate cwd to) ->
  sg_load d' cwd c fuel' g0 p = sg_load d cwd c fuel' g0 p /\
  forall r, dget d' (locate cwd p ++ r) = dget d (locate cwd p ++ r).
Proof. exact crash_load. Qed.
Print Assumptions C105_other_games_survive_partial.
(** Saving to a directory that contains the save game loaded. *)
Theorem C105_inside_target_refuted : forall d cwd c e fuel g to W root name,
  disk_ok d -> to <> [] -> ~ In x2f name -> same_path (sg_path g) to = false ->
  under (locate cwd to) (locate cwd (sg_path g)) -> locate cwd to <> locate cwd (sg_path g) -> there d cwd to = true ->
  (forall p, p <> locate cwd to -> under p (locate cwd to) -> forall b, dget d p <> Some (DFile b)) -> locate cwd to <> [] ->
  forall r, r <> [] -> dget (run_steps d (fst (sg_save d cwd c e fuel g to W root name))) (locate cwd (sg_path g) ++ r) = None.
Proof. exact nested_lost. Qed.
Print Assumptions C105_inside_target_refuted.
Example C105_example :
  ~ under (locate [] (lit "saves/slot3")) (locate [] (lit "saves/slot1")) /\ ~ under (locate [] (lit "saves/slot1")) (locate [] (lit "saves/slot3")) /\
  same_path (lit "saves/slot1") (lit "saves") = false /\
  under (locate [] (lit "saves")) (locate [] (lit "saves/slot1")) /\ locate [] (lit "saves") <> locate [] (lit "saves/slot1") /\
  there demo_disk [] (lit "saves") = true.
Proof.
  split; [apply below_none; reflexivity|]. split; [apply below_none; reflexivity|]. split; [reflexivity|].
  split; [exists [lit "slot1"]; reflexivity|]. split; [discriminate | reflexivity].
Qed.

(** ** C106 *)
(** Saving in place: whenever the process ends, only the five files can differ. *)
Theorem C106_other_worlds_partial : forall d cwd c e fuel g to W root name d',
  ~ In x2f name -> same_path (sg_path g) to = true ->
  crashed (fst (sg_save d cwd c e fuel g to W root name)) d d' ->
  forall l, ~ In l (map (fun n => locate cwd to ++ [n]) (five name)) -> dget d' l = dget d l.
Proof. exact crash_in_place. Qed.
Print Assumptions C106_other_worlds_partial.
(** But the process may end so that neither the old nor the new game can be loaded. *)
Theorem C106_in_place_refuted : forall d cwd c e fuel g to W root name,
  to <> [] -> ~ In x2f name -> same_path (sg_path g) to = true ->
  is_dir d (locate cwd to) = true -> is_dir d (locate cwd to ++ [lit "SAVEINFO.SAV"]) = false ->
  exists d', crashed (fst (sg_save d cwd c e fuel g to W root name)) d d' /\
    forall g0 fuel', exists x, snd (sg_load d' cwd c fuel' g0 to) = Throw x.
Proof. exact crash_loses. Qed.
Print Assumptions C106_in_place_refuted.
Example C106_example :
  same_path (lit "saves//slot1") (lit "saves/slot1") = true /\ is_dir demo_disk (locate [] (lit "saves/slot1")) = true /\
  is_dir demo_disk (locate [] (lit "saves/slot1") ++ [lit "SAVEINFO.SAV"]) = false.
Proof. repeat split. Qed.

(** ** C107 *)
(** Whatever the case of the letters of the names, the files are found. *)
Theorem C107_any_case_partial : forall d cwd c fuel g p n1 n2 n4 b1 b2 b4 m t s h,
  p <> [] -> is_dir d (locate cwd p) = true ->
  only_spelling d (locate cwd p) (lit "SAVEINFO.SAV") n1 -> only_spelling d (locate cwd p) (lit "THUMB.SAV") n2 ->
  only_spelling d (locate cwd p) (lit "SAVEDAT.SAV") n4 ->
  file_at d (locate cwd p) n1 b1 -> file_at d (locate cwd p) n2 b2 -> file_at d (locate cwd p) n4 b4 ->
  load_saveinfo c fuel b1 = Ret m -> load_thumb b2 = Ret t -> load_savedat c fuel (sg_state g) b4 = Ret (s, h) ->
  sg_load d cwd c fuel g p = (mkSg m s (heap_graph h) (Some t) p, Ret tt).
Proof. exact loaded_spelled. Qed.
Print Assumptions C107_any_case_partial.
(** Not so worlds: a file that is there under the name in small letters is not found. *)
Theorem C107_worlds_refuted : exists d g name b,
  SVfs.same (lit "newworld.sav") (name ++ lit ".SAV") = true /\ file_at d (locate [] (sg_path g)) (lit "newworld.sav") b /\
  forall c fuel, sg_load_world d [] c fuel g name = Ret None.
Proof.
  exists [(slot (lit "slot1") ++ [lit "newworld.sav"], DFile [])], (demo_game None), (lit "NEWWORLD"), [].
  split; [vm_compute; reflexivity|]. split; [reflexivity|]. intros c fuel.
  apply (load_world_none _ _ _ _ _ _ (lit "NEWWORLD.SAV")); [cbn; intuition discriminate | reflexivity | | reflexivity].
  split; [discriminate|]. split; [cbn; intuition discriminate | split; discriminate].
Qed.
Print Assumptions C107_worlds_refuted.
Example C107_example : only_spelling demo_disk (slot (lit "slot1")) (lit "SAVEDAT.SAV") (lit "savedat.sav") /\
  file_at demo_disk (slot (lit "slot1")) (lit "savedat.sav") [x02].
Proof.
  split; [|reflexivity]. split; [vm_compute; reflexivity|]. intros n' H E.
  apply names_spec in H. vm_compute in H. destruct H as [<-|[<-|[]]]; [vm_compute in E; discriminate | reflexivity].
Qed.

(** ** C108 *)
(** The world is loaded by its name with the extension ".ZEN", by its name alone if that has no
    dot, and as the current world if the metadata names it. *)
Theorem C108_world_partial : forall d cwd c e fuel g to W root name K b5 g',
  disk_ok d -> begins_with d cwd (sg_path g) to K -> own_name name ->
  (forall n, In n (five name) -> K [n] <> Some DDir) ->
  all_written (files c e fuel g W root name) -> file_world c (e 4%nat) (e 5%nat) W root fuel = Ret b5 ->
  sg_path g' = to ->
  let d' := run_steps d (fst (sg_save d cwd c e fuel g to W root name)) in
  let world := match load_top (c_load (library c)) (c_flags (library c)) fuel (p_obj oCWorld) b5 with
    | Ret (Some r, h) => Ret (Some (r, h)) | Ret (None, _) => Ret None | Throw x => Throw x | Undef => Undef | Fuel => Fuel
    end in
  sg_load_world d' cwd c fuel g' (name ++ lit ".ZEN") = world /\
  (~ In x2e name -> sg_load_world d' cwd c fuel g' name = world) /\
  (savemeta_world (sg_meta g') = name -> sg_load_current d' cwd c fuel g' = world).
Proof. exact save_then_world. Qed.
Print Assumptions C108_world_partial.
(** A name with a dot in it: the world is not found under the name it was saved under. *)
Theorem C108_dots_refuted : forall d cwd c e fuel g to W root name K g' stem ext,
  disk_ok d -> begins_with d cwd (sg_path g) to K -> own_name name ->
  (forall n, In n (five name) -> K [n] <> Some DDir) ->
  all_written (files c e fuel g W root name) -> sg_path g' = to ->
  name = stem ++ x2e :: ext -> stem <> [] -> ~ In x2e ext -> name <> lit ".." -> K [stem ++ lit ".SAV"] = None ->
  ~ In (stem ++ lit ".SAV") (five name) ->
  sg_load_world (run_steps d (fst (sg_save d cwd c e fuel g to W root name))) cwd c fuel g' name = Ret None.
Proof. exact world_with_dot. Qed.
Print Assumptions C108_dots_refuted.
(** A world named as one of the other files replaces that file. *)
Theorem C108_reserved_refuted : forall d cwd c e fuel g to W root K b5,
  disk_ok d -> begins_with d cwd (sg_path g) to K ->
  (forall n, In n (five (lit "SAVEDAT")) -> K [n] <> Some DDir) ->
  all_written (files c e fuel g W root (lit "SAVEDAT")) -> file_world c (e 4%nat) (e 5%nat) W root fuel = Ret b5 ->
  file_at (run_steps d (fst (sg_save d cwd c e fuel g to W root (lit "SAVEDAT")))) (locate cwd to) (lit "SAVEDAT.SAV") b5.
Proof. exact reserved_name. Qed.
Print Assumptions C108_reserved_refuted.
Example C108_example :
  own_name (lit "NEW.WORLD") /\ lit "NEW.WORLD" = lit "NEW" ++ x2e :: lit "WORLD" /\ ~ In x2e (lit "WORLD") /\
  dget demo_disk (slot (lit "slot1") ++ [lit "NEW" ++ lit ".SAV"]) = None /\ ~ In (lit "NEW" ++ lit ".SAV") (five (lit "NEW.WORLD")) /\
  (forall n, In n (five (lit "NEW.WORLD")) -> dget demo_disk (slot (lit "slot1") ++ [n]) <> Some DDir).
Proof.
  split; [split; [split; [discriminate | cbn; intuition discriminate] | cbn; intuition discriminate]|].
  split; [reflexivity|]. split; [cbn; intuition discriminate|]. split; [reflexivity|]. split; [cbn; intuition discriminate|].
  intros n I. cbn in I. decompose [or] I; try contradiction; subst n; discriminate.
Qed.

(** ** C109 *)
(** When the directory can be made ready, the call returns and the five files are there. *)
Theorem C109_written_partial : forall d cwd c e fuel g to W root name K,
  disk_ok d -> begins_with d cwd (sg_path g) to K -> own_name name ->
  (forall n, In n (five name) -> K [n] <> Some DDir) ->
  all_written (files c e fuel g W root name) ->
  let '(ss, o) := sg_save d cwd c e fuel g to W root name in
  o = Ret (mkSg (sg_meta g) (sg_state g) (sg_graph g) (sg_thumb g) to) /\
  (forall n b, In (n, Ret b) (files c e fuel g W root name) -> file_at (run_steps d ss) (locate cwd to) n b) /\
  file_at (run_steps d ss) (locate cwd to) (lit "SAVEHDR.SAV") (name ++ lit ".ZEN" ++ [x0a]) /\
  map fst (files c e fuel g W root name) = five name.
Proof. exact files_there. Qed.
Print Assumptions C109_written_partial.
(** After a failed attempt to load from a directory that is not there, saving to it writes nothing
    and reports success. *)
Theorem C109_nothing_written_refuted : forall d cwd c e fuel g p W root name fuel',
  disk_ok d -> dget d (locate cwd p) = None -> ~ In x2f name -> all_written (files c e fuel g W root name) ->
  let g1 := fst (sg_load d cwd c fuel' g p) in
  snd (sg_load d cwd c fuel' g p) = Throw ParserError /\
  exists ss, sg_save d cwd c e fuel g1 p W root name = (ss, Ret g1) /\ forall l, dget (run_steps d ss) l = dget d l.
Proof. exact save_into_nothing. Qed.
Print Assumptions C109_nothing_written_refuted.
Example C109_example : dget demo_disk (locate [] (lit "saves/slot7")) = None /\
  all_written (files s2 demo_envs 3 (demo_game (Some demo_thumb)) demo_world 0 (lit "NEWWORLD")).
Proof.
  split; [reflexivity|]. destruct C103_contents as (b1 & b2 & b4 & h & S1 & _ & S2 & _ & S4 & _ & b5 & S5). unfold files.
  apply Forall_cons; [exists b1; exact S1|]. apply Forall_cons; [exists b2; exact S2|]. apply Forall_cons; [eexists; reflexivity|].
  apply Forall_cons; [exists b4; exact S4|]. apply Forall_cons; [exists b5; exact S5 | apply Forall_nil].
Qed.

(** ** C110 *)
(** Loading into an object that held something gives what loading into a new one gives, if the
    save game has a thumbnail and the object no missions and values of symbols (C86). *)
Theorem C110_load_over_partial : forall d cwd c fuel g p,
  find_file d (locate cwd p) (lit "THUMB.SAV") <> None ->
  st_missions (sg_state g) = [] -> Forall (fun x => sy_values x = []) (st_symbols (sg_state g)) ->
  snd (sg_load d cwd c fuel g p) = Ret tt -> sg_load d cwd c fuel g p = sg_load d cwd c fuel sg_new p.
Proof. exact load_over. Qed.
Print Assumptions C110_load_over_partial.
(** A save game without a thumbnail keeps the one of the game before. *)
Theorem C110_thumbnail_refuted : forall d cwd c fuel g p,
  find_file d (locate cwd p) (lit "THUMB.SAV") = None -> sg_thumb (fst (sg_load d cwd c fuel g p)) = sg_thumb g.
Proof. exact thumb_stays. Qed.
Print Assumptions C110_thumbnail_refuted.
Example C110_example :
  find_file demo_disk (locate [] (lit "saves/slot1")) (lit "THUMB.SAV") = None /\ sg_thumb (demo_game (Some demo_thumb)) <> sg_thumb sg_new.
Proof. split; [vm_compute; reflexivity | discriminate]. Qed.
