(** Small worlds. *)

From Coq Require Import String Lia ZifyN ZifyBool ZifyNat.
From Verif Require Import MBase MStream SStream MBoxes MText MClasses MArchive SArchive MVob MWorld MLib MMaterial MMesh MBsp MLevel.
From Verif Require Import SArchEnd LBase LArchEnd LArchEndX.
From Verif Require LSave.
Local Open Scope N_scope.

(** A binary world whose only object is of no known class and has a negative number of children. *)
Definition count_file : bytes :=
  top_lines "BINARY" ++ count_lines ++ bin_obj 500 "w" "oCWorld:zCWorld" ++ bin_obj 400 "VobTree" "" ++
  le_enc 4 1 ++ bin_obj 14 "o" "X" ++ le_enc 4 (2 ^ 32 - 1).
Definition at_end (E : list N) : rar := mkRar (mkR count_file (len count_file)) E.
Lemma end_rounds (Ob : Type) fl rec E ca (h : heap Ob) : forall d n,
  runp (fmt_prims ABinary) fl rec (p_skip_trees d n) (mkRg (at_end E) ca h) = Ret (tt, mkRg (at_end E) ca h) \/
  runp (fmt_prims ABinary) fl rec (p_skip_trees d n) (mkRg (at_end E) ca h) = Fuel.
Proof.
  induction d as [|d IH]; [right; reflexivity|]. induction n as [|n IHn]; [left; reflexivity|].
  assert (Eq : runp (fmt_prims ABinary) fl rec (p_skip_trees (S d) (S n)) (mkRg (at_end E) ca h) =
               runp (fmt_prims ABinary) fl rec (pbind (p_skip_trees d 0) (fun _ => p_skip_trees (S d) n)) (mkRg (at_end E) ca h)).
  { cbn [p_skip_trees runp]. unfold bind at 1, rgl at 1. cbn [fmt_prims p_skip rg_s rg_cache rg_heap].
    replace (ar_skip ABinary false (at_end E)) with (Ret (tt, at_end E)) by (vm_compute; reflexivity). cbv iota beta.
    rewrite LSave.runp_pbind.
    replace (runp (fmt_prims ABinary) fl rec (p_rd KInt) (mkRg (at_end E) ca h)) with (Ret (0%Z, mkRg (at_end E) ca h)) by (vm_compute; reflexivity).
    cbv iota beta. change (0 <? 0)%Z with false. cbv iota. change (Z.to_nat 0) with O. reflexivity. }
  rewrite Eq, LSave.runp_pbind. destruct (IH 0%nat) as [->| ->]; [|right; reflexivity]. cbv iota beta. exact IHn.
Qed.
Definition object_at : rar := mkRar (mkR count_file 126) [503; 575].
Definition count_at : rar := mkRar (mkR count_file 140) [503; 575].
Lemma object_read c n ca (h : heap object) : exists r ca' h',
  read_obj (fmt_prims ABinary) (c_load (library c)) (c_flags (library c)) n (mkRg object_at ca h) = Ret (r, mkRg count_at ca' h') /\ r = None \/
  read_obj (fmt_prims ABinary) (c_load (library c)) (c_flags (library c)) n (mkRg object_at ca h) = Fuel.
Proof.
  destruct n as [|n]; [exists None, ca, h; right; reflexivity|]. cbn [read_obj]. unfold bind at 1 3, rgl at 1 3. cbn [rg_s rg_cache rg_heap fmt_prims p_begin].
  replace (ar_begin ABinary object_at) with (Ret (Some (mkH (lit "o") (lit "X") 0 1), mkRar (mkR count_file 140) [140; 503; 575])) by (vm_compute; reflexivity).
  cbv iota beta. cbn [oh_class oh_idx].
  change (bytes_eqb (lit "X") [xa7]) with false. change (bytes_eqb (lit "X") (lit "%")) with false.
  replace (type_of_class (lit "X")) with unknown by (vm_compute; reflexivity).
  cbv iota beta zeta. change (c_load (library c) unknown) with (@None (prog oid object)). cbv iota.
  unfold bind, rgl, ret. cbn [rg_s rg_cache rg_heap fmt_prims p_end].
  replace (ar_end ABinary (mkRar (mkR count_file 140) [140; 503; 575])) with (Ret (true, count_at)) by (vm_compute; reflexivity).
  do 3 eexists. left. split; reflexivity.
Qed.
Lemma tree_stuck c n d ca (h : heap object) : runp (fmt_prims ABinary) (c_flags (library c)) (read_obj (fmt_prims ABinary) (c_load (library c)) (c_flags (library c)) n)
  (p_tree d) (mkRg object_at ca h) = Fuel.
Proof.
  destruct d as [|d]; [reflexivity|]. cbn [p_tree runp]. unfold bind at 1.
  destruct (object_read c n ca h) as (r & ca' & h' & [[-> ->]| ->]); [|reflexivity]. cbv iota beta.
  rewrite LSave.runp_pbind.
  replace (runp (fmt_prims ABinary) _ _ (p_rd KInt) (mkRg count_at ca' h')) with (Ret ((-1)%Z, mkRg (at_end [503; 575]) ca' h')) by (vm_compute; reflexivity).
  cbv iota beta. change (-1 <? 0)%Z with true. cbv iota. rewrite LSave.runp_pbind.
  match goal with |- match ?r with _ => _ end = _ => assert (X : r = Ret (tt, mkRg (at_end [503; 575]) ca' h') \/ r = Fuel) by
    exact (end_rounds object (c_flags (library c)) (read_obj (fmt_prims ABinary) (c_load (library c)) (c_flags (library c)) n) [503; 575] ca' h' d d);
    destruct X as [->| ->]; reflexivity end.
Qed.
Lemma count_loops : exists b head r,
  ar_open (mkR b 0) = Ret (head, r) /\ ah_format head = ABinary /\
  forall c n, load_archive (c_load (library c)) (c_flags (library c)) n b = Fuel.
Proof.
  exists count_file. do 2 eexists. split; [vm_compute; reflexivity|]. split; [reflexivity|].
  intros c n. unfold load_archive.
  replace (ar_open (mkR count_file 0)) with (Ret (mkHead 1 (lit "zCArchiverGeneric") ABinary false [] [], mkR count_file 75)) by (vm_compute; reflexivity).
  cbv iota beta. destruct n as [|n]; [reflexivity|]. cbn [ah_format read_obj]. unfold bind at 1, rgl at 1. cbn [rg_s rg_cache rg_heap fmt_prims p_begin].
  replace (ar_begin ABinary (mkRar (mkR count_file 75) [])) with (Ret (Some (mkH (lit "w") (lit "oCWorld:zCWorld") 0 1), mkRar (mkR count_file 103) [575])) by (vm_compute; reflexivity).
  cbv iota beta. cbn [oh_class oh_idx].
  change (bytes_eqb (lit "oCWorld:zCWorld") [xa7]) with false. change (bytes_eqb (lit "oCWorld:zCWorld") (lit "%")) with false.
  replace (type_of_class (lit "oCWorld:zCWorld")) with oCWorld by (vm_compute; reflexivity).
  cbv iota beta zeta. change (c_load (library c) oCWorld) with (Some (p_map Oworld (load_world c))). cbv iota.
  unfold bind at 1. cbn [rg_s rg_cache rg_heap]. unfold bind at 1.
  set (g := @mkRg rar object (mkRar (mkR count_file 103) [575]) [(1, len (@nil (hobj object)))] ([] ++ [mkHobj oCWorld 1 None])).
  assert (F : runp (fmt_prims ABinary) (c_flags (library c)) (read_obj (fmt_prims ABinary) (c_load (library c)) (c_flags (library c)) n) (p_map Oworld (load_world c)) g = Fuel).
  { unfold p_map, load_world. rewrite LSave.runp_pbind. rewrite LSave.runp_pbind. destruct (cf_depth c) as [|d]; [reflexivity|].
    cbn [p_sections runp]. unfold bind at 1, rgl at 1. cbn [fmt_prims p_end p_begin p_skip rg_s rg_cache rg_heap g].
    replace (ar_end ABinary (mkRar (mkR count_file 103) [575])) with (Ret (false, mkRar (mkR count_file 103) [575])) by (vm_compute; reflexivity).
    cbv iota beta. cbn [runp]. unfold bind at 1, rgl at 1. cbn [fmt_prims p_end p_begin p_skip rg_s rg_cache rg_heap].
    replace (ar_begin ABinary (mkRar (mkR count_file 103) [575])) with (Ret (Some (mkH (lit "VobTree") [] 0 1), mkRar (mkR count_file 122) [503; 575])) by (vm_compute; reflexivity).
    cbv iota beta. cbn [oh_name].
    change (bytes_eqb (lit "VobTree") (lit "EndMarker")) with false. cbv iota beta. rewrite LSave.runp_pbind.
    unfold p_section. change (bytes_eqb (lit "VobTree") (lit "MeshAndBsp")) with false. change (bytes_eqb (lit "VobTree") (lit "VobTree")) with true. cbv iota.
    rewrite LSave.runp_pbind.
    replace (runp (fmt_prims ABinary) _ _ p_upto (mkRg (mkRar (mkR count_file 122) [503; 575]) _ _)) with
      (Ret (1%nat, @mkRg rar object object_at [(1, len (@nil (hobj object)))] ([] ++ [mkHobj oCWorld 1 None]))) by (vm_compute; reflexivity).
    cbv iota beta. rewrite LSave.runp_pbind. cbn [p_rep]. rewrite LSave.runp_pbind.
    match goal with |- context [runp _ _ _ (p_tree ?d) ?g] => replace (runp (fmt_prims ABinary) (c_flags (library c)) (read_obj (fmt_prims ABinary) (c_load (library c)) (c_flags (library c)) n) (p_tree d) g) with (@Fuel (option vtree * @rg rar object)) by (symmetry; apply tree_stuck) end. reflexivity. }
  match goal with |- context [@runp ?A1 ?A2 ?P ?fl ?A3 ?rec ?p ?g0] => replace (@runp A1 A2 P fl A3 rec p g0) with (@Fuel (object * @rg rar object)) by (symmetry; exact F) end.
  reflexivity.
Qed.
