(** Specification vocabulary: the TREE section of a BSP file, and files whose sections are in order. *)

From Verif Require Import MBase MStream SStream MBoxes SBoxes MBsp SBsp.
Local Open Scope N_scope.

Definition vec_bytes (v : vec3) : bytes := le_enc 4 (v3x v) ++ le_enc 4 (v3y v) ++ le_enc 4 (v3z v).
Definition node_bytes (bb : aabb) (start count : N) : bytes :=
  vec_bytes (bb_min bb) ++ vec_bytes (bb_max bb) ++ le_enc 4 start ++ le_enc 4 count.
Definition a_leaf (t : shape) : bool := match t with Leaf _ _ _ => true | Inner _ _ _ _ _ _ _ => false end.
(** What an inner node says about a child: whether there is one and whether it is a leaf. *)
Definition child_bits (o : option shape) (present leaf : N) : N :=
  match o with None => 0 | Some x => present + if a_leaf x then leaf else 0 end.
(** The bytes of a tree: nodes in pre-order. *)
Fixpoint tree_bytes (g : game) (t : shape) : bytes :=
  match t with
  | Leaf bb i c => node_bytes bb i c
  | Inner bb i c pl lod f b =>
      node_bytes bb i c ++ le_enc 1 (child_bits f 1 4 + child_bits b 2 8) ++
      le_enc 4 (pl_w pl) ++ le_enc 4 (pl_x pl) ++ le_enc 4 (pl_y pl) ++ le_enc 4 (pl_z pl) ++
      (match g with G1 => le_enc 1 lod | G2 => [] end) ++
      (match f with Some x => tree_bytes g x | None => [] end) ++
      (match b with Some x => tree_bytes g x | None => [] end)
  end.
(** The ranges of the polygon list the leaves name, from left to right: start and number. *)
Fixpoint leaf_ranges (t : shape) : list (N * N) :=
  match t with
  | Leaf _ start count => [(start, count)]
  | Inner _ _ _ _ _ f b =>
      (match f with Some x => leaf_ranges x | None => [] end) ++ (match b with Some x => leaf_ranges x | None => [] end)
  end.
(** The polygons they name. *)
Definition leaf_polygons (ps : list N) (t : shape) : list N :=
  flat_map (fun r => take (snd r) (drop (fst r) ps)) (leaf_ranges t).
(** A POLYGONS section with the list [ps], and a TREE section with the tree [t] that announces
    [count] nodes; [slack] is what a file may have after them in the same section. *)
Definition polygons_section (ps : list N) (slack : bytes) : chunk :=
  (B_POLYGONS, le_enc 4 (len ps) ++ flat_map (le_enc 4) ps ++ slack).
Definition tree_section (g : game) (count leaves : N) (t : shape) (slack : bytes) : chunk :=
  (B_TREE, le_enc 4 count ++ le_enc 4 leaves ++ tree_bytes g t ++ slack).
(** Sections without a tree: whatever they are and whatever they hold. *)
Definition no_section (ty : N) (cs : list chunk) : Prop := Forall (fun c => fst c <> ty) cs.
(** The tree fits the announced number of nodes, and its leaves the polygon list before it. *)
Definition tree_fits (g : game) (count : N) (ps : list N) (t : shape) : Prop :=
  Forall (node_ok g) (listed (-1) 0 t) /\ Forall f32 ps /\ len ps < 2 ^ 32 /\ count < 2 ^ 31 /\
  size t <= count /\ (count = 1 <-> a_leaf t = true) /\ 
  Forall (fun r => fst r + snd r <= len ps) (leaf_ranges t).
(** A file of sections in any order and with any contents, among them one TREE section, which
    holds the tree [t] and announces [count] nodes; the last POLYGONS section before it holds
    the list [ps]. *)
Definition ordered_file (g : game) (cs : list chunk) (count : N) (ps : list N) (t : shape) : Prop :=
  exists pre mid post leaves slack1 slack2,
    cs = pre ++ polygons_section ps slack1 :: mid ++ tree_section g count leaves t slack2 :: post /\
    leaves < 2 ^ 32 /\ Forall chunk_ok cs /\
    no_section B_TREE pre /\ no_section B_TREE mid /\ no_section B_TREE post /\ no_section B_POLYGONS mid /\
    tree_fits g count ps t.
(** The game a version number stands for. *)
Definition game_of (version : N) : game := if version =? version_g1 then G1 else G2.
(** An END section comes last, if there is one. *)
Definition end_last (cs : list chunk) : Prop := forall a c b, cs = a ++ c :: b -> fst c = B_END -> b = [].
