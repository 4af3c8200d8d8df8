(** Properties of BSP trees: C45, C46, C91. *)

From Coq Require Import Lia ZifyN ZifyBool ZifyNat Sorted Permutation.
From Verif Require Import MBase MStream SStream MBoxes SBoxes SFormat MBsp SBsp SArchEnd SBspFile.
From Verif Require Import LBase LStream LFormat LBsp LEnds LBspSafe.
Local Open Scope N_scope.

(** For showing that concrete values meet the conditions. *)
Ltac plain :=
  repeat match goal with
  | |- _ <> _ => discriminate
  | |- _ < _ => reflexivity
  | |- _ <= _ => discriminate
  | |- _ = _ => reflexivity
  | |- _ /\ _ => split
  | |- ?P => let P' := eval hnf in P in progress change P'
  | |- _ => constructor
  end.

(** ** C45 *)
(** For both games, into a new tree whatever its uninitialised mode: every well-formed tree comes
    back exactly. *)
Theorem C45_bsp_partial : forall g m, round_trips (bsp_save g) (bsp_load (bsp_new m) (game_version g)) (bsp_ok g).
Proof. exact bsp_round_trip. Qed.
Print Assumptions C45_bsp_partial.

Definition demo_box (n : N) : aabb := mkAabb (mkV3 n 2 3) (mkV3 4 5 n).
Definition demo_plane : plane4 := mkPlane 1 2 3 4.
(** An inner node with a leaf in front and, behind, an inner node with only a leaf behind. *)
Definition demo_shape (lod : N) : shape :=
  Inner (demo_box 0) 0 0 demo_plane lod (Some (Leaf (demo_box 1) 1 2))
    (Some (Inner (demo_box 2) 0 0 demo_plane lod None (Some (Leaf (demo_box 3) 0 2)))).
Definition demo_bsp (lod : N) (lights : list vec3) : bsp :=
  mkBsp 1 [9; 7; 8] [7; 7; 8; 9] lights [mkSector (lit "S1") [1; 2] [3]; mkSector [] [] []] [4; 5]
    (listed (-1) 0 (demo_shape lod)) (leaves_of 0 (demo_shape lod)).
Lemma demo_bsp_ok g lod l1 l2 : vec3_ok l1 -> vec3_ok l2 -> match g with G1 => lod < 2 ^ 8 | G2 => lod = 0 end ->
  bsp_ok g (demo_bsp lod [l1; l2]).
Proof.
  intros H1 H2 Hlod.
  refine (conj _ (conj _ (conj _ (conj _ (conj _ (conj _ (conj _ (conj _ (conj _ (conj _ (conj _ (conj _ (conj _ (conj _ _)))))))))))))).
  1-3: solve [plain].
  { exists (demo_shape lod). split; [|split; reflexivity]. cbn. split; [left; discriminate|]. split; [exact I|].
    split; [right; discriminate|]. split; exact I. }
  { cbn [bt_nodes demo_bsp demo_shape listed].
    repeat apply Forall_cons; try apply Forall_nil; unfold node_ok; cbn [bn_lod bn_index bn_count bn_plane bn_bbox];
      (refine (conj _ (conj _ (conj _ (conj _ _)))); [solve [plain] | solve [plain] | reflexivity | reflexivity |]); try exact Hlod;
      destruct g; reflexivity. }
  { reflexivity. }
  { repeat apply Forall_cons; try apply Forall_nil; vm_compute; discriminate. }
  { cbn [bt_leaf_polygons demo_bsp]. repeat constructor; discriminate. }
  { change (Permutation [7; 7; 8; 9] ([7; 8] ++ [9; 7])). apply perm_skip.
    change [7; 8; 9] with ([] ++ 7 :: [8; 9]). change ([8] ++ [9; 7]) with ([8; 9] ++ [7]).
    change ([] ++ 7 :: [8; 9]) with ([7] ++ [8; 9]). apply Permutation_app_comm. }
  { reflexivity. }
  { repeat apply Forall_cons; try apply Forall_nil; assumption. }
  { cbn [bt_sectors demo_bsp]. repeat apply Forall_cons; try apply Forall_nil; solve [plain]. }
  1-3: solve [plain].
Qed.
Example C45_bsp_partial_nonvacuous :
  bsp_ok G1 (demo_bsp 3 [mkV3 1 2 3; mkV3 4 5 6]) /\ bsp_ok G2 (demo_bsp 0 [mkV3 1 2 3; mkV3 4 5 6]) /\
  len (bt_nodes (demo_bsp 3 [])) = 4.
Proof. split; [apply demo_bsp_ok; plain|]. split; [apply demo_bsp_ok; plain | reflexivity]. Qed.

(** Trees that do not come back.  A tree without light points (an indoor level) gets one for each
    leaf, made of the bytes of the next section; *)
Definition leaf_bsp (lights : list vec3) : bsp :=
  mkBsp 0 [] [] lights [] [] (listed (-1) 0 (Leaf (demo_box 0) 0 0)) [0].
Theorem C45_lights_refuted : exists t t', bt_lights t = [] /\
  resaved (bsp_save G2 t) (bsp_load (bsp_new 0) (game_version G2)) = Ret t' /\ bt_lights t' <> [].
Proof.
  exists (leaf_bsp []). eexists. split; [reflexivity|]. split; [vm_compute; reflexivity | discriminate].
Qed.
Print Assumptions C45_lights_refuted.
(** an inner node without children becomes a leaf and loses its plane; *)
Theorem C45_childless_refuted : exists t t' n n',
  bt_nodes t = [n] /\ bt_leaves t = [] /\ resaved (bsp_save G2 t) (bsp_load (bsp_new 0) (game_version G2)) = Ret t' /\
  bt_nodes t' = [n'] /\ bn_plane n' <> bn_plane n /\ bt_leaves t' = [0].
Proof.
  exists (mkBsp 0 [] [] [] [] [] (listed (-1) 0 (Inner (demo_box 0) 0 0 demo_plane 0 None None)) []). do 3 eexists.
  split; [reflexivity|]. split; [reflexivity|]. split; [vm_compute; reflexivity|]. split; [reflexivity|].
  split; [discriminate | reflexivity].
Qed.
Print Assumptions C45_childless_refuted.
(** and Gothic 2 files do not store the level of detail. *)
Theorem C45_lod_refuted : exists t t', bsp_ok G1 t /\
  resaved (bsp_save G2 t) (bsp_load (bsp_new 0) (game_version G2)) = Ret t' /\ map bn_lod (bt_nodes t') <> map bn_lod (bt_nodes t).
Proof.
  exists (demo_bsp 3 [mkV3 1 2 3; mkV3 4 5 6]). eexists. split; [apply demo_bsp_ok; plain|].
  split; [vm_compute; reflexivity | discriminate].
Qed.
Print Assumptions C45_lod_refuted.

(** ** C46 *)
(** The links of every loaded node list agree with each other, and the leaf list names nodes
    without children, in increasing order.  (Node indices are 32-bit signed.) *)
Theorem C46_links : forall m version s t s', bsp_load (bsp_new m) version s = Ret (t, s') -> len (bt_nodes t) < 2 ^ 31 ->
  links_ok (bt_nodes t) /\ leaves_ok (bt_nodes t) (bt_leaves t).
Proof. exact bsp_links. Qed.
Print Assumptions C46_links.
(** More exactly, the node list is what listing trees in pre-order gives (one tree for each TREE
    section), and the leaf list the leaves of these trees. *)
Theorem C46_preorder : forall m version s t s', bsp_load (bsp_new m) version s = Ret (t, s') -> len (bt_nodes t) < 2 ^ 31 ->
  exists ts, bt_nodes t = forest_listed 0 ts /\ bt_leaves t = forest_leaves 0 ts.
Proof. exact bsp_preorder. Qed.
Print Assumptions C46_preorder.
(** The leaf polygons can be searched: they are sorted. *)
Theorem C46_leaf_polygons_sorted : forall m version s t s', bsp_load (bsp_new m) version s = Ret (t, s') ->
  Sorted N.le (bt_leaf_polygons t).
Proof. exact bsp_leaf_polygons_sorted. Qed.
Print Assumptions C46_leaf_polygons_sorted.
(** Files of other tools, with sections in another order, unknown sections and slack: the tree
    in the file is the tree that is read.  (An END section ends the reading.) *)
Theorem C46_tree_in_file : forall m version cs count ps sh t,
  ordered_file (game_of version) cs count ps sh -> len (flat_map chunk_bytes cs) < max_size -> end_last cs ->
  of_file (bsp_load (bsp_new m) version) (flat_map chunk_bytes cs) = Ret t ->
  bt_nodes t = listed (-1) 0 sh /\ bt_leaves t = leaves_of 0 sh /\
  Sorted N.le (bt_leaf_polygons t) /\ Permutation (bt_leaf_polygons t) (leaf_polygons ps sh).
Proof. exact bsp_file_read. Qed.
Print Assumptions C46_tree_in_file.
Example C46_nonvacuous : exists s t s', bsp_load (bsp_new 0) version_g1 s = Ret (t, s') /\ len (bt_nodes t) = 4 /\
  bt_leaves t = [1; 3].
Proof.
  destruct (bsp_round_trip G1 0 (demo_bsp 3 [mkV3 1 2 3; mkV3 4 5 6])) as (bs & _ & Hr); [apply demo_bsp_ok; plain|].
  destruct (N.lt_ge_cases (len bs) max_size) as [Hl|Hl].
  - exists (mkR bs 0), (demo_bsp 3 [mkV3 1 2 3; mkV3 4 5 6]). eexists. split; [|split; reflexivity].
    specialize (Hr [] [] I). rewrite app_nil_r in Hr. exact (Hr Hl).
  - exists (mkR (match file_of (bsp_save G1 (demo_bsp 3 [mkV3 1 2 3; mkV3 4 5 6])) with Ret b => b | _ => [] end) 0). do 2 eexists.
    split; [vm_compute; reflexivity | split; reflexivity].
Qed.

(** ** C91 *)
(** Loading always ends. *)
Theorem C91_bsp_ends_partial : forall t version, ends (bsp_load t version).
Proof. exact bsp_ends. Qed.
Print Assumptions C91_bsp_ends_partial.
(** But it can have undefined behaviour: a TREE section that holds more nodes than it announces
    (a reference to a node is used after the vector has moved), *)
Definition tree_file (count : N) : bytes :=
  chunk_bytes (B_TREE, le_enc 4 count ++ le_enc 4 2 ++ (zeros 32 ++ [x0f] ++ zeros 16) ++ zeros 32 ++ zeros 32) ++
  chunk_bytes (B_END, [x42]).
Theorem C91_bsp_growth_refuted : of_file (bsp_load (bsp_new 0) (game_version G2)) (tree_file 0) = Undef /\
  exists t, of_file (bsp_load (bsp_new 0) (game_version G2)) (tree_file 3) = Ret t /\ len (bt_nodes t) = 3.
Proof. split; [vm_compute; reflexivity|]. eexists. split; [vm_compute; reflexivity | reflexivity]. Qed.
Print Assumptions C91_bsp_growth_refuted.
(** and a leaf that names a polygon beyond the polygon list. *)
Theorem C91_bsp_polygons_refuted : of_file (bsp_load (bsp_new 0) version_g1)
  (chunk_bytes (B_TREE, le_enc 4 1 ++ le_enc 4 1 ++ zeros 28 ++ le_enc 4 1)) = Undef.
Proof. vm_compute. reflexivity. Qed.
Print Assumptions C91_bsp_polygons_refuted.
(** Without these two mistakes it returns or throws: files without a TREE section, whatever their
    sections hold; *)
Theorem C91_no_tree_partial : forall m version cs, cs <> [] -> Forall chunk_ok cs -> no_section B_TREE cs ->
  len (flat_map chunk_bytes cs) < max_size ->
  answers (of_file (bsp_load (bsp_new m) version) (flat_map chunk_bytes cs)).
Proof. exact no_tree_fine. Qed.
Print Assumptions C91_no_tree_partial.
(** and files with one TREE section that announces enough nodes and whose leaves name polygons of
    the list before it, whatever the other sections hold. *)
Theorem C91_fitting_tree_partial : forall m version cs count ps sh,
  ordered_file (game_of version) cs count ps sh -> len (flat_map chunk_bytes cs) < max_size ->
  answers (of_file (bsp_load (bsp_new m) version) (flat_map chunk_bytes cs)).
Proof. exact bsp_file_fine. Qed.
Print Assumptions C91_fitting_tree_partial.
(** Lights before the tree, a HEADER section cut short, an unknown section, nine announced nodes. *)
Definition demo_sections : list chunk :=
  [(B_LIGHT, []); polygons_section [9; 7; 8] [x55]; (B_HEADER, [x01]); (4660, [x02; x03]);
   tree_section G2 9 77 (demo_shape 0) [x66]; (B_OUTDOORS, le_enc 4 0 ++ le_enc 4 0); (B_END, [x42])].
Lemma demo_sections_ordered : ordered_file G2 demo_sections 9 [9; 7; 8] (demo_shape 0).
Proof.
  exists [(B_LIGHT, [])], [(B_HEADER, [x01]); (4660, [x02; x03])], [(B_OUTDOORS, le_enc 4 0 ++ le_enc 4 0); (B_END, [x42])], 77, [x55], [x66].
  split; [reflexivity|]. split; [reflexivity|].
  split; [unfold demo_sections; repeat (apply Forall_cons; [split; vm_compute; reflexivity|]); apply Forall_nil|].
  do 4 (split; [unfold no_section; repeat (apply Forall_cons; [discriminate|]); apply Forall_nil|]).
  split; [|split; [|split; [|split; [|split; [|split]]]]].
  - cbn [demo_shape listed]. repeat apply Forall_cons; try apply Forall_nil; unfold node_ok; cbn [bn_lod bn_index bn_count bn_plane bn_bbox];
      (refine (conj _ (conj _ (conj _ (conj _ _)))); [solve [plain] | solve [plain] | reflexivity | reflexivity | reflexivity]).
  - repeat apply Forall_cons; try apply Forall_nil; reflexivity.
  - reflexivity.
  - reflexivity.
  - vm_compute. discriminate.
  - split; discriminate.
  - cbn [demo_shape leaf_ranges app]. repeat apply Forall_cons; try apply Forall_nil; vm_compute; discriminate.
Qed.
Example C91_fitting_tree_example :
  ordered_file (game_of 67698688) demo_sections 9 [9; 7; 8] (demo_shape 0) /\ end_last demo_sections /\
  exists t, of_file (bsp_load (bsp_new 0) 67698688) (flat_map chunk_bytes demo_sections) = Ret t /\ len (bt_nodes t) = 4.
Proof.
  split; [exact demo_sections_ordered|].
  split.
  { intros a c b E Hc. unfold demo_sections in E. do 6 (destruct a as [|? a]; [injection E as <- <-; discriminate Hc | injection E as _ E]).
    destruct a as [|? a]; [injection E as _ <-; reflexivity | injection E as _ E; destruct a; discriminate]. }
  eexists. split; vm_compute; reflexivity.
Qed.
