(** Archives whose loading goes on for ever or has no defined behaviour. *)

From Coq Require Import String Lia.
From Verif Require Import MBase MStream SStream LBase LStream MZipped MBoxes MText MClasses MArchive SArchive SFormat LFormat.
From Verif Require Import MVob MVobs MNpc MCutscene MMaterial MWorld MLib SArchEnd LArchEnd.
Local Open Scope N_scope.
Local Open Scope m_scope.

Lemma opening_ends b : len b < 2 ^ 62 -> ar_open (mkR b 0) <> Fuel.
Proof. intros H. pose proof (opens b H) as G. destruct (ar_open (mkR b 0)) as [[h r]| | |]; congruence || contradiction. Qed.
Lemma opening_safe b : len b < 2 ^ 62 ->
  (forall head r, head_load (mkR b 0) = Ret (head, r) -> ah_format head <> ABinsafe) -> answers (ar_open (mkR b 0)).
Proof.
  intros H Hf. pose proof (opens b H) as G. pose proof (open_safe b H Hf) as G2.
  destruct (ar_open (mkR b 0)) as [x|e| |]; [left; eauto|right; eauto|congruence|contradiction].
Qed.

(** ** Small files *)
Definition nl : bytes := [x0a].
Definition top_lines (format : string) : bytes :=
  lit "ZenGin Archive" ++ nl ++ lit "ver 1" ++ nl ++ lit "zCArchiverGeneric" ++ nl ++ lit format ++ nl ++
  lit "saveGame 0" ++ nl ++ lit "END" ++ nl.
Definition count_lines : bytes := lit "objects 1" ++ nl ++ lit "END" ++ nl.
Definition bin_obj (size : N) (name cls : string) : bytes :=
  le_enc 4 size ++ le_enc 2 0 ++ le_enc 4 1 ++ lit name ++ [x00] ++ lit cls ++ [x00].

Definition text_file : bytes := top_lines "ASCII" ++ count_lines ++ lit "[a % 0 0]" ++ nl.
Definition world_file : bytes :=
  top_lines "BINARY" ++ count_lines ++ bin_obj 50 "w" "oCWorld:zCWorld" ++ bin_obj 0 "s" "" ++ lit "more".
Definition version_file : bytes :=
  top_lines "BIN_SAFE" ++ le_enc 4 2 ++ le_enc 4 1 ++ le_enc 4 (len (top_lines "BIN_SAFE") + 37) ++
  le_enc 1 1 ++ le_enc 2 22 ++ lit "[a zCVob 9999999999 1]" ++ le_enc 4 0.
Definition table_file : bytes :=
  top_lines "BIN_SAFE" ++ le_enc 4 2 ++ le_enc 4 1 ++ le_enc 4 (len (top_lines "BIN_SAFE") + 12) ++ le_enc 4 1 ++
  le_enc 2 0 ++ le_enc 2 1 ++ le_enc 4 0.
Definition null_file : bytes :=
  top_lines "BINARY" ++ count_lines ++ bin_obj 100 "n" "zCWayNet" ++ le_enc 4 1 ++ le_enc 4 1 ++ bin_obj 14 "p" "%".
Definition marker_file : bytes :=
  top_lines "BINARY" ++ count_lines ++ bin_obj 28 "w" "oCWorld:zCWorld" ++ lit "more".

Definition loaded (c : cfg) (n : nat) (b : bytes) := load_archive (c_load (library c)) (c_flags (library c)) n b.

Lemma version_undefined : exists b head r,
  ar_open (mkR b 0) = Ret (head, r) /\ ah_format head = ABinsafe /\
  forall c n, load_archive (c_load (library c)) (c_flags (library c)) (S n) b = Undef.
Proof.
  exists version_file. do 2 eexists. split; [vm_compute; reflexivity|]. split; [reflexivity|].
  intros c n. unfold load_archive.
  replace (ar_open (mkR version_file 0)) with (ltac:(let x := eval vm_compute in (ar_open (mkR version_file 0)) in exact x)) by (vm_compute; reflexivity).
  cbn [ah_format read_obj]. unfold bind at 1, rgl at 1. cbn [rg_s fmt_prims p_begin].
  match goal with |- context [ar_begin ABinsafe ?s] => replace (ar_begin ABinsafe s) with (@Undef (option ohead * rar)) by (vm_compute; reflexivity) end.
  reflexivity.
Qed.
Lemma table_undefined : exists b, len b < 100 /\ ar_open (mkR b 0) = Undef.
Proof. exists table_file. split; vm_compute; reflexivity. Qed.
Lemma null_undefined : exists b head r,
  ar_open (mkR b 0) = Ret (head, r) /\ ah_format head = ABinary /\
  forall c n, load_archive (c_load (library c)) (c_flags (library c)) (S (S n)) b = Undef.
Proof.
  exists null_file. do 2 eexists. split; [vm_compute; reflexivity|]. split; [reflexivity|].
  intros c n. vm_compute. reflexivity.
Qed.
Lemma marker_undefined : exists b head r,
  ar_open (mkR b 0) = Ret (head, r) /\ ah_format head = ABinary /\
  forall c n, (0 < cf_depth c)%nat -> cf_save c = false ->
    load_archive (c_load (library c)) (c_flags (library c)) (S n) b = Undef.
Proof.
  exists marker_file. do 2 eexists. split; [vm_compute; reflexivity|]. split; [reflexivity|].
  intros [g sv k d] n Hd Hs. cbn [cf_depth cf_save] in *. subst sv. destruct d as [|d]; [lia|]. vm_compute. reflexivity.
Qed.

(** ** Loops *)
Definition text_end : rar := mkRar (mkR text_file (len text_file)) [].
Lemma text_stuck : forall n, skip_loop n AAscii 1 text_end = Fuel.
Proof.
  induction n as [|n IH]; [reflexivity|]. cbn [skip_loop]. unfold bind at 1.
  replace (ar_begin AAscii text_end) with (Ret (@None ohead, text_end)) by (vm_compute; reflexivity).
  unfold bind at 1. unfold bind at 1.
  replace (ar_end AAscii text_end) with (Ret (false, text_end)) by (vm_compute; reflexivity).
  unfold bind at 1.
  replace (ar_skip_entry AAscii text_end) with (Ret (tt, text_end)) by (vm_compute; reflexivity).
  unfold ret. change (0 <? 1)%Z with true. exact IH.
Qed.
Lemma text_loops : exists b head r,
  ar_open (mkR b 0) = Ret (head, r) /\ ah_format head = AAscii /\
  (forall n, skip_loop n AAscii 1 (mkRar (mkR b (len b)) []) = Fuel) /\
  (forall c n, load_archive (c_load (library c)) (c_flags (library c)) n b = Fuel).
Proof.
  exists text_file. do 2 eexists. split; [vm_compute; reflexivity|]. split; [reflexivity|]. split; [exact text_stuck|].
  intros c [|n]; vm_compute; reflexivity.
Qed.

Definition world_at : rar := mkRar (mkR world_file 103) [125].
Definition section_at : rar := mkRar (mkR world_file 116) [103; 125].
Lemma prun_bind {St Ob A B} (P : prims St) (fl : Ob -> Z) rec (p : prog oid A) (k : A -> prog oid B) : forall g,
  runp P fl rec (pbind p k) g = bind (runp P fl rec p) (fun a => runp P fl rec (k a)) g.
Proof.
  induction p as [a|e| | |kd c IH|c IH|c IH|c IH|b p IH]; intros g; cbn [pbind runp]; try reflexivity; unfold bind at 1 2 3.
  - destruct (rgl (p_read P kd) g) as [[x g']| | |]; try reflexivity. apply IH.
  - destruct (rec g) as [[x g']| | |]; try reflexivity. apply IH.
  - destruct (rgl (p_begin P) g) as [[x g']| | |]; try reflexivity. apply IH.
  - destruct (rgl (p_end P) g) as [[x g']| | |]; try reflexivity. apply IH.
  - destruct (rgl (p_skip P b) g) as [[x g']| | |]; try reflexivity. apply IH.
Qed.
Lemma sections_stuck c (A Ob : Type) fl rec (k : sects -> prog oid A) : forall d ss cache (h : heap Ob),
  runp (fmt_prims ABinary) fl rec (pbind (p_sections c d ss) k) (mkRg world_at cache h) = Fuel.
Proof.
  induction d as [|d IH]; intros ss cache h; [reflexivity|].
  cbn [p_sections pbind runp]. unfold bind at 1, rgl at 1. cbn [fmt_prims p_end p_begin p_skip rg_s rg_cache rg_heap].
  replace (ar_end ABinary world_at) with (Ret (false, world_at)) by (vm_compute; reflexivity).
  cbv iota beta. cbn [pbind runp]. unfold bind at 1, rgl at 1. cbn [fmt_prims p_end p_begin p_skip rg_s rg_cache rg_heap].
  replace (ar_begin ABinary world_at) with (Ret (Some (mkH (lit "s") [] 0 1), section_at)) by (vm_compute; reflexivity).
  cbv iota beta. cbn [oh_name].
  change (bytes_eqb (lit "s") (lit "EndMarker")) with false. cbv iota beta.
  change (p_section c (lit "s") ss) with (@PRet oid sects ss). cbn [pbind runp].
  unfold bind at 1, rgl at 1. cbn [fmt_prims p_end p_begin p_skip rg_s rg_cache rg_heap].
  replace (ar_end ABinary section_at) with (Ret (false, section_at)) by (vm_compute; reflexivity).
  cbv iota beta. cbn [pbind runp]. unfold bind at 1, rgl at 1. cbn [fmt_prims p_end p_begin p_skip rg_s rg_cache rg_heap].
  replace (ar_skip ABinary true section_at) with (Ret (tt, world_at)) by (vm_compute; reflexivity).
  apply IH.
Qed.
Lemma world_loops : exists b head r,
  ar_open (mkR b 0) = Ret (head, r) /\ ah_format head = ABinary /\
  forall c n, load_archive (c_load (library c)) (c_flags (library c)) n b = Fuel.
Proof.
  exists world_file. do 2 eexists. split; [vm_compute; reflexivity|]. split; [reflexivity|].
  intros c n. unfold load_archive.
  replace (ar_open (mkR world_file 0)) with (Ret (mkHead 1 (lit "zCArchiverGeneric") ABinary false [] [], mkR world_file 75)) by (vm_compute; reflexivity).
  cbv iota beta. destruct n as [|n]; [reflexivity|]. cbn [ah_format read_obj]. unfold bind at 1, rgl at 1. cbn [rg_s rg_cache rg_heap fmt_prims p_begin].
  replace (ar_begin ABinary (mkRar (mkR world_file 75) [])) with (Ret (Some (mkH (lit "w") (lit "oCWorld:zCWorld") 0 1), world_at)) by (vm_compute; reflexivity).
  cbv iota beta. cbn [oh_class oh_idx].
  change (bytes_eqb (lit "oCWorld:zCWorld") [xa7]) with false. change (bytes_eqb (lit "oCWorld:zCWorld") (lit "%")) with false.
  replace (type_of_class (lit "oCWorld:zCWorld")) with oCWorld by (vm_compute; reflexivity).
  cbv iota beta zeta. change (c_load (library c) oCWorld) with (Some (p_map Oworld (load_world c))). cbv iota.
  unfold bind at 1. cbn [rg_s rg_cache rg_heap]. unfold bind at 1.
  set (g := @mkRg rar object world_at [(1, len (@nil (hobj object)))] ([] ++ [mkHobj oCWorld 1 None])).
  assert (F : forall rec, runp (fmt_prims ABinary) (c_flags (library c)) rec (p_map Oworld (load_world c)) g = Fuel).
  { intros rec. unfold p_map, load_world. rewrite prun_bind. unfold bind at 1. unfold g. rewrite sections_stuck. reflexivity. }
  rewrite F. reflexivity.
Qed.

(** ** Text archives *)
Definition color_file : bytes :=
  top_lines "ASCII" ++ count_lines ++ lit "[% zCMaterial 17408 0]" ++ nl ++ lit "name=string:A" ++ nl ++ lit "matGroup=enum:0" ++ nl ++
  lit "color=color:255 255 255" ++ nl ++ lit "[]" ++ nl.
Lemma color_undefined : exists b head r,
  ar_open (mkR b 0) = Ret (head, r) /\ ah_format head = AAscii /\
  forall c n, load_archive (c_load (library c)) (c_flags (library c)) (S n) b = Undef.
Proof.
  exists color_file. do 2 eexists. split; [vm_compute; reflexivity|]. split; [reflexivity|].
  intros c n. vm_compute. reflexivity.
Qed.
Definition matrix_file : bytes :=
  top_lines "ASCII" ++ count_lines ++ lit "[% zCVob 12289 0]" ++ nl ++ lit "pack=int:0" ++ nl ++ lit "presetName=string:" ++ nl ++
  lit "bbox3DWS=rawFloat:0 0 0 0 0 0" ++ nl ++ lit "trafoOSToWSRot=raw:" ++ repeat x2d 72 ++ nl ++ lit "[]" ++ nl.
Lemma matrix_undefined : exists b head r,
  ar_open (mkR b 0) = Ret (head, r) /\ ah_format head = AAscii /\
  forall c n, load_archive (c_load (library c)) (c_flags (library c)) (S n) b = Undef.
Proof.
  exists matrix_file. do 2 eexists. split; [vm_compute; reflexivity|]. split; [reflexivity|].
  intros c n. vm_compute. reflexivity.
Qed.
