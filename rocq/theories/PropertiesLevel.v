(** Properties of world files with their mesh and BSP tree: C111 to C115. *)

From Coq Require Import String Lia Permutation.
From Verif Require Import MBase MStream SStream MBoxes SBoxes MText MClasses MArchive SArchive.
From Verif Require Import MVob SVob MWorld MLib SLib SReload SFormat MTexture MMaterial MMesh SMesh MBsp MLevel SLevel.
From Verif Require SBsp PropertiesMesh PropertiesBsp PropertiesVobs.
From Verif Require Import LBase LLevel.
Local Open Scope N_scope.

(** ** C111 *)
(** Any world the library can save ([level_ok]), over any heap of objects it can save
    ([library_graph]), in each of the three kinds of archives, for both games, whatever the order of
    the hash table, the uninitialised mode of the new world's BSP tree and the texts in the headers:
    the world is saved, and loading the file gives the same world, in which the objects are an
    isomorphic copy of those the world reached.  The sizes in the archive must fit their fields
    ([archive_fits]), and a Gothic 1 world must not be saved by the user "XZEN". *)
Theorem C111_worlds_partial : forall c G f dom e1 e2 m1 m2 order x mode,
  library_graph c G -> (forall r, G r <> None -> In r dom) ->
  (forall a b, refers (library c) G a b -> G b <> None) ->
  (forall r, In r (world_objects (lv_world x)) -> G r <> None) ->
  level_ok c (g_type (library c) G) x -> some_order order ->
  env_ok e2 -> env_ok m2 ->
  len (we_date e1) = len (we_date e2) -> len (we_user e1) = len (we_user e2) ->
  len (we_date m1) = len (we_date m2) -> len (we_user m1) = len (we_user m2) ->
  (cf_game c = G1 -> we_user e2 <> lit "XZEN") ->
  exists raw, let n := S (length dom) in
    (len raw < 2 ^ 31 -> file_of (save_mesh_bsp order m1 m2 (cf_game c) (lv_mesh x) (lv_bsp x)) = Ret raw) /\
    exists nd w wc, level_content c G n raw (lv_world x) = Some (nd, w, wc) /\
      (archive_fits f e2 nd (nw_idx w) (nw_keys w) ->
       exists b h ph y,
         save_level f e1 e2 m1 m2 order c G n x = Ret b /\
         of_file (load_level c n (lv_new mode) []) b = Ret (y, h) /\
         same_level ph x y /\ isomorphic_all (library c) G (world_objects (lv_world x)) ph h).
Proof. exact worlds_come_back. Qed.
Print Assumptions C111_worlds_partial.

(** A world of two objects, one below the other, a way net of one point, the mesh of
    PropertiesMesh.v and the BSP tree of PropertiesBsp.v. *)
Definition demo_env : wenv := PropertiesMesh.demo_env.
Definition demo_cfg (g : game) : cfg := mkCfg g false true 8.
Definition demo_vob (g : game) (name : bytes) : vob := 
  mkVob PropertiesVobs.unit_box (mkV3 1 2 3) PropertiesVobs.one true 1 true false true 2 false (match g with G1 => 0 | G2 => 3 end) 0%Z false 0 two
    (lit "preset") name [] None None None 0 0 None.
Definition demo_heap (g : game) : oid -> option object :=
  few [Ovob zCVobLevelCompo (demo_vob g (lit "LEVEL")); Ovob zCVob (demo_vob g (lit "STONE"));
       Owaynet (mk_waynet [(Some 3, true)] []); Owaypoint (mk_waypoint (lit "WP") 0 false (mkV3 1 2 3) (mkV3 1 0 0))].
Definition demo_world : world := mk_world [Tree 0 [Tree 1 []]] (Some 2) None None [] [] false 0.
Definition demo_level : level :=
  mkLevel demo_world
    (with_materials [PropertiesMesh.stone; PropertiesMesh.stone]
       (PropertiesMesh.demo_mesh PropertiesMesh.demo_indices PropertiesMesh.demo_findices
          (mkTris [] [] PropertiesMesh.demo_findices PropertiesMesh.demo_indices [])))
    (PropertiesBsp.demo_bsp 0 [mkV3 1 2 3; mkV3 4 5 6]).

Local Ltac ok :=
  hnf; lazymatch goal with
  | |- _ /\ _ => split; ok
  | |- _ \/ _ => first [left; ok | right; ok]
  | |- True => exact I
  | |- _ = _ => vm_compute; reflexivity
  | |- Forall _ _ => first [apply Forall_nil | apply Forall_cons; ok]
  | |- _ -> _ => let H := fresh in intro H; first [discriminate H | ok]
  end.
Lemma demo_here : forall g r x, demo_heap g r = Some x -> In r [0; 1; 2; 3].
Proof.
  intros g r x E. unfold demo_heap, few, nth_N in E. match type of E with context [?a <? ?b] => destruct (N.ltb_spec a b) as [H|H]; [|discriminate] end.
  match type of H with _ < len ?l => change (len l) with 4 in H end. cbn [In]. lia.
Qed.
Example C111_example : forall g,
  library_graph (demo_cfg g) (demo_heap g) /\ (forall r, demo_heap g r <> None -> In r [0; 1; 2; 3]) /\
  (forall a b, refers (library (demo_cfg g)) (demo_heap g) a b -> demo_heap g b <> None) /\
  (forall r, In r (world_objects demo_world) -> demo_heap g r <> None) /\
  level_ok (demo_cfg g) (g_type (library (demo_cfg g)) (demo_heap g)) demo_level /\ env_ok demo_env.
Proof.
  intros g. split; [|split; [|split; [|split; [|split]]]].
  - intros r x E. pose proof (demo_here g r x E) as I. cbn [In] in I.
    destruct g; destruct I as [<- | [<- | [<- | [<- | []]]]]; (vm_compute in E; injection E as <-; split); try (intros i I; destruct I; fail); try ok.
    all: exists [3], []; split; [reflexivity|]; split; [reflexivity|]; ok.
  - intros r E. destruct (demo_heap g r) eqn:X; [eapply (demo_here g); exact X | congruence].
  - intros a b [x [E I]]. pose proof (demo_here g a x E) as J. cbn [In] in J.
    destruct g; destruct J as [<- | [<- | [<- | [<- | []]]]]; vm_compute in E; injection E as <-; vm_compute in I; try contradiction.
    all: destruct I as [<-|[]]; discriminate.
  - intros r. cbn. intros [<-|[<-|[<-|[]]]]; discriminate.
  - split; [reflexivity|]. split; [cbn; lia|]. split; [reflexivity|]. split; [destruct g; ok|]. split; [destruct g; ok|].
    split; [apply PropertiesMesh.demo_ok|]. split; [reflexivity|]. apply PropertiesBsp.demo_bsp_ok; try solve [PropertiesBsp.plain]. destruct g; reflexivity.
  - ok.
Qed.

(** A world of one triangle and a tree of one leaf. *)
Definition tiny_level : level :=
  mkLevel (mk_world [Tree 0 []] None None None [] [] false 0)
    (PropertiesMesh.tiny [1; 2; 3] [4; 5; 6] no_tris (PropertiesMesh.plain_flags 0) 3)
    (mkBsp 0 [0] [] [mkV3 0 0 0] [] [] (SBsp.listed (-1) 0 (SBsp.Leaf (PropertiesBsp.demo_box 0) 0 1)) [0]).
Definition tiny_file (user : bytes) : bytes :=
  let e := mkEnv (lit "1") user in
  match save_level ABinary e e e e PropertiesMesh.same_as_listed (demo_cfg G1) (demo_heap G1) 2 tiny_level with Ret b => b | _ => [] end.
Example C111_example_runs : exists b y h,
  save_level ABinary demo_env demo_env demo_env demo_env PropertiesMesh.same_as_listed (demo_cfg G1) (demo_heap G1) 2 tiny_level = Ret b /\
  of_file (load_level (demo_cfg G1) 2 (lv_new 77) []) b = Ret (y, h) /\ lv_world y = lv_world tiny_level /\ len h = 1 /\
  tr_vertices (me_tris (lv_mesh y)) = [1; 2; 3].
Proof. do 3 eexists. split; [vm_compute; reflexivity|]. split; [vm_compute; reflexivity|]. repeat split. Qed.

(** A Gothic 1 world whose archive names the user "XZEN" is taken for one with wide indices: other
    corners come back.  (Besides, what C45 and C47 say of meshes and BSP trees holds here too.) *)
Theorem C111_xzen_refuted : exists b y h,
  save_level ABinary (mkEnv (lit "1") (lit "XZEN")) (mkEnv (lit "1") (lit "XZEN")) demo_env demo_env
    PropertiesMesh.same_as_listed (demo_cfg G1) (demo_heap G1) 2 tiny_level = Ret b /\
  of_file (load_level (demo_cfg G1) 2 (lv_new 0) []) b = Ret (y, h) /\
  me_vindices (lv_mesh tiny_level) = [1; 2; 3] /\ hd 0 (me_vindices (lv_mesh y)) = 262145.
Proof. do 3 eexists. split; [vm_compute; reflexivity|]. split; [vm_compute; reflexivity|]. split; reflexivity. Qed.
Print Assumptions C111_xzen_refuted.

(** ** C112 *)
(** Loading a saved world without naming the game finds the game it was saved for, and gives what
    loading it for that game gives. *)
Theorem C112_game_detected : forall c G f dom e1 e2 m1 m2 order x mode,
  library_graph c G -> (forall r, G r <> None -> In r dom) ->
  (forall a b, refers (library c) G a b -> G b <> None) ->
  (forall r, In r (world_objects (lv_world x)) -> G r <> None) ->
  level_ok c (g_type (library c) G) x -> some_order order ->
  env_ok e2 -> env_ok m2 ->
  len (we_date e1) = len (we_date e2) -> len (we_user e1) = len (we_user e2) ->
  len (we_date m1) = len (we_date m2) -> len (we_user m1) = len (we_user m2) ->
  (cf_game c = G1 -> we_user e2 <> lit "XZEN") ->
  exists raw, let n := S (length dom) in
    (len raw < 2 ^ 31 -> file_of (save_mesh_bsp order m1 m2 (cf_game c) (lv_mesh x) (lv_bsp x)) = Ret raw) /\
    exists nd w wc, level_content c G n raw (lv_world x) = Some (nd, w, wc) /\
      (archive_fits f e2 nd (nw_idx w) (nw_keys w) ->
       exists b r,
         save_level f e1 e2 m1 m2 order c G n x = Ret b /\
         of_file (load_level c n (lv_new mode) []) b = Ret r /\
         of_file (load_any (cf_pack c) (cf_depth c) n (lv_new mode) []) b = Ret (cf_game c, r)).
Proof. exact game_detected. Qed.
Print Assumptions C112_game_detected.
(** Sections before the mesh are passed over: whatever they are, the game is found by the version
    the mesh starts with, and loading is loading for that game. *)
Theorem C112_sections_passed : forall f e h pre hm v rest post idx keys n,
  env_ok e -> oh_name hm = lit "MeshAndBsp" -> v < 2 ^ 32 -> (List.length pre < n)%nat -> Forall (other_section f) pre ->
  archive_fits f e (NObj h (pre ++ NObj hm [NRaw (le_enc 4 v ++ rest)] :: post)) idx keys ->
  forall pack depth x h0, let b := archive_bytes f e false (NObj h (pre ++ NObj hm [NRaw (le_enc 4 v ++ rest)] :: post)) idx keys in
  of_file (load_any pack depth n x h0) b =
  match of_file (load_level (mkCfg (game_of v) false pack depth) n x h0) b with
  | Ret y => Ret (game_of v, y) | Throw e => Throw e | Undef => Undef | Fuel => Fuel
  end.
Proof. exact detects. Qed.
Print Assumptions C112_sections_passed.
Example C112_example_sections : forall f, f <> AAscii ->
  let pre := [NObj (mkH (lit "Old") (lit "%") 0 1) [NEntry (lit "k") 0 (EStr (lit "x")); NObj (mkH (lit "In") (lit "%") 0 2) []]] in
  Forall (other_section f) pre /\ game_of (SBsp.game_version G2) = G2 /\
  archive_fits f demo_env (NObj (mkH (lit "%") (lit "oCWorld:zCWorld") 0 0)
    (pre ++ [NObj (mkH (lit "MeshAndBsp") (lit "%") 0 3) [NRaw (le_enc 4 (SBsp.game_version G2) ++ [x07])]])) 4 [lit "k"].
Proof.
  intros [] F; try contradiction; (split; [|split; [reflexivity | ok]]); (constructor; [|constructor]);
    do 2 eexists; (split; [reflexivity|]); (split; [discriminate | reflexivity]).
Qed.
(** The archive of a save game, whatever is in it, is refused. *)
Theorem C112_save_games_refused : forall f e save h l idx keys, env_ok e -> archive_fits f e (NObj h l) idx keys ->
  forall pack depth n x h0, save = true ->
  of_file (load_any pack depth n x h0) (archive_bytes f e save (NObj h l) idx keys) = Throw ParserError.
Proof. exact refused_save. Qed.
Print Assumptions C112_save_games_refused.
Example C112_example : exists y h,
  of_file (load_any true 8 2 (lv_new 5) []) (tiny_file (lit "zenkit")) = Ret (G1, (y, h)) /\ len (bt_nodes (lv_bsp y)) = 1.
Proof. do 2 eexists. split; [vm_compute; reflexivity | reflexivity]. Qed.
Example C112_example_save : env_ok demo_env /\
  archive_fits ABinsafe demo_env (NObj (mkH (lit "%") (lit "oCSavegameInfo") 0 0) [NEntry (lit "k") 0 (EInt 7)]) 1 [lit "k"] /\
  archive_fits AAscii demo_env (NObj (mkH (lit "%") (lit "oCSavegameInfo") 0 0) [NEntry (lit "k") 0 (EInt 7)]) 1 [lit "k"].
Proof. split; [ok|]. split; ok. Qed.

(** ** C113 *)
(** Loading into a world that has trees gives the trees it had followed by those of the file:
    never only those of the file. *)
Theorem C113_trees_stay_refuted : forall c n x h0 b y h, of_file (load_level c n x h0) b = Ret (y, h) ->
  exists l, world_vobs (lv_world y) = world_vobs (lv_world x) ++ l.
Proof. exact loading_adds. Qed.
Print Assumptions C113_trees_stay_refuted.
Example C113_example : exists y h z h2,
  of_file (load_level (demo_cfg G1) 2 (lv_new 0) []) (tiny_file (lit "zenkit")) = Ret (y, h) /\
  of_file (load_level (demo_cfg G1) 2 y h) (tiny_file (lit "zenkit")) = Ret (z, h2) /\
  len (world_vobs (lv_world y)) = 1 /\ len (world_vobs (lv_world z)) = 2.
Proof. do 4 eexists. split; [vm_compute; reflexivity|]. split; [vm_compute; reflexivity|]. repeat split. Qed.
(** Apart from that the old trees do not matter: loading into a world gives what loading into the
    world without its trees gives, with the old trees before the new ones. *)
Theorem C113_trees_partial : forall c n x h0 b,
  of_file (load_level c n x h0) b =
  match of_file (load_level c n (with_vobs [] x) h0) b with
  | Ret (y, h) => Ret (with_vobs (world_vobs (lv_world x) ++ world_vobs (lv_world y)) y, h)
  | Throw e => Throw e | Undef => Undef | Fuel => Fuel
  end.
Proof. exact loading_keeps_trees. Qed.
Print Assumptions C113_trees_partial.

(** ** C114 *)
(** A world file that ends where its mesh should begin: with any bound on the rounds of the loops
    and on the depth of what is read, the bound is reached. *)
Definition cut_file : bytes := lit "ZenGin Archive
ver 1
zCArchiverGeneric
ASCII
saveGame 0
date 1
user x
END
objects 1
END

[% oCWorld:zCWorld 64513 0]
[MeshAndBsp % 0 0]
".
Theorem C114_cut_file_refuted : forall c n x h0, of_file (load_level c n x h0) cut_file = Fuel.
Proof. intros [g s p d] n x h0. destruct d; vm_compute; reflexivity. Qed.
Print Assumptions C114_cut_file_refuted.
(** The loop that passes over the chunks of the mesh never ends once the file has: *)
Theorem C114_end_of_file_refuted : forall n D, len D < max_size -> skip_chunks n (mkR D (len D)) = Fuel.
Proof. exact skip_stuck. Qed.
Print Assumptions C114_end_of_file_refuted.
(** and the bound on its rounds used in [load_mesh_bsp] is no restriction: where the loop ends at
    all, it ends within it, with the same result. *)
Theorem C114_chunks_partial : forall n s, r_ok s -> len (rdata s) < 2 ^ 62 -> skip_chunks n s <> Fuel ->
  skip_chunks (S (N.to_nat (len (rdata s) - rpos s))) s = skip_chunks n s.
Proof. exact skip_enough. Qed.
Print Assumptions C114_chunks_partial.
Example C114_example : exists s', skip_chunks 2 (mkR (le_enc 2 45312 ++ le_enc 4 3 ++ [x01; x02; x03] ++ le_enc 2 M_END ++ le_enc 4 0 ++ [x07]) 0) = Ret (tt, s') /\
  rpos s' = 15.
Proof. eexists. split; vm_compute; reflexivity. Qed.

(** ** C115 *)
(** An archive of anything else is refused: whatever is in an archive whose first object is not a
    world, loading it as one throws. *)
Theorem C115_others_refused : forall f e save h l idx keys, env_ok e -> archive_fits f e (NObj h l) idx keys ->
  forall c n x h0, shown_class f (oh_class h) <> lit "oCWorld:zCWorld" ->
  of_file (load_level c n x h0) (archive_bytes f e save (NObj h l) idx keys) = Throw ParserError.
Proof. exact refused_other. Qed.
Print Assumptions C115_others_refused.
Example C115_example : shown_class AAscii (lit "oCSavegameInfo") <> lit "oCWorld:zCWorld" /\
  shown_class ABinsafe (lit "oCWorld") <> lit "oCWorld:zCWorld" /\
  of_file (load_level (demo_cfg G1) 2 (lv_new 0) [])
    (archive_bytes ABinsafe demo_env false (NObj (mkH (lit "%") (lit "oCSavegameInfo") 0 0) [NEntry (lit "k") 0 (EInt 7)]) 1 [lit "k"])
  = Throw ParserError.
Proof. split; [discriminate|]. split; [discriminate|]. vm_compute. reflexivity. Qed.
