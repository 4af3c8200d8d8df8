(** Specification vocabulary for BSP trees. *)

From Coq Require Import Sorted Permutation.
From Verif Require Import MBase MStream SStream MBoxes SBoxes MBsp.
Local Open Scope N_scope.

(** A tree as such, without indices. *)
Inductive shape :=
| Leaf (bb : aabb) (start count : N)
| Inner (bb : aabb) (start count : N) (pl : plane4) (lod : N) (front back : option shape).

Fixpoint size (t : shape) : N :=
  match t with
  | Leaf _ _ _ => 1
  | Inner _ _ _ _ _ f b =>
      1 + (match f with Some x => size x | None => 0 end) + (match b with Some x => size x | None => 0 end)
  end.

(** The node list of a tree in pre-order, its root at index [self]: each node knows its parent
    and its children by index, -1 being "none". *)
Fixpoint listed (parent : Z) (self : N) (t : shape) : list bspnode :=
  match t with
  | Leaf bb i c => [mkNode no_plane bb i c (-1) (-1) parent 0]
  | Inner bb i c pl lod f b =>
      let back_at := self + 1 + match f with Some x => size x | None => 0 end in
      mkNode pl bb i c
        (match f with Some _ => Z.of_N (self + 1) | None => -1 end)%Z
        (match b with Some _ => Z.of_N back_at | None => -1 end)%Z parent lod ::
      (match f with Some x => listed (Z.of_N self) (self + 1) x | None => [] end) ++
      (match b with Some x => listed (Z.of_N self) back_at x | None => [] end)
  end.
(** The indices of its leaves. *)
Fixpoint leaves_of (self : N) (t : shape) : list N :=
  match t with
  | Leaf _ _ _ => [self]
  | Inner _ _ _ _ _ f b =>
      (match f with Some x => leaves_of (self + 1) x | None => [] end) ++
      (match b with Some x => leaves_of (self + 1 + match f with Some x => size x | None => 0 end) x | None => [] end)
  end.
(** Trees one after another, as two TREE sections leave them. *)
Fixpoint forest_listed (self : N) (ts : list shape) : list bspnode :=
  match ts with
  | [] => []
  | t :: ts' => listed (-1) self t ++ forest_listed (self + size t) ts'
  end.
Fixpoint forest_leaves (self : N) (ts : list shape) : list N :=
  match ts with
  | [] => []
  | t :: ts' => leaves_of self t ++ forest_leaves (self + size t) ts'
  end.

(** Every inner node has a child. *)
Fixpoint proper (t : shape) : Prop :=
  match t with
  | Leaf _ _ _ => True
  | Inner _ _ _ _ _ f b =>
      (f <> None \/ b <> None) /\
      (match f with Some x => proper x | None => True end) /\
      (match b with Some x => proper x | None => True end)
  end.

(** What the members of a node can hold; the level of detail is only stored by Gothic 1. *)
Definition plane_ok (p : plane4) : Prop := f32 (pl_w p) /\ f32 (pl_x p) /\ f32 (pl_y p) /\ f32 (pl_z p).
Definition node_ok (g : game) (n : bspnode) : Prop :=
  plane_ok (bn_plane n) /\ aabb_ok (bn_bbox n) /\ bn_index n < 2 ^ 32 /\ bn_count n < 2 ^ 32 /\
  match g with G1 => bn_lod n < 2 ^ 8 | G2 => bn_lod n = 0 end.
Definition sector_ok (s : sector) : Prop :=
  no_eol (se_name s) /\ len (se_nodes s) < 2 ^ 32 /\ len (se_portals s) < 2 ^ 32 /\
  Forall f32 (se_nodes s) /\ Forall f32 (se_portals s).

(** The polygons of a node: [count] entries of the polygon list from [start] on. *)
Definition polygons_of (t : bsp) (n : bspnode) : list N :=
  take (bn_count n) (drop (bn_index n) (bt_polygons t)).
Definition leaf_nodes (t : bsp) : list bspnode :=
  flat_map (fun i => match nth_N (bt_nodes t) i with Some n => [n] | None => [] end) (bt_leaves t).

(** The bytes of a section. *)
Definition sector_size (s : sector) : N := len (se_name s) + 9 + 4 * len (se_nodes s) + 4 * len (se_portals s).
Fixpoint total (l : list N) : N := match l with [] => 0 | x :: l' => x + total l' end.

(** A well-formed tree: the nodes list a tree in pre-order, the leaf list its leaves; the
    polygons of the leaves exist and are what the leaf polygon list holds, sorted; there is a
    light point for every leaf; and all sections fit the size field of a section. *)
Definition bsp_ok (g : game) (t : bsp) : Prop :=
  bt_mode t < 2 ^ 32 /\
  Forall f32 (bt_polygons t) /\ len (bt_polygons t) < 2 ^ 29 /\
  (exists sh, proper sh /\ bt_nodes t = listed (-1) 0 sh /\ bt_leaves t = leaves_of 0 sh) /\
  Forall (node_ok g) (bt_nodes t) /\ len (bt_nodes t) < 2 ^ 24 /\
  Forall (fun n => bn_index n + bn_count n <= len (bt_polygons t)) (leaf_nodes t) /\
  Sorted N.le (bt_leaf_polygons t) /\
  Permutation (bt_leaf_polygons t) (flat_map (polygons_of t) (leaf_nodes t)) /\
  len (bt_lights t) = len (bt_leaves t) /\ Forall vec3_ok (bt_lights t) /\
  Forall sector_ok (bt_sectors t) /\ total (map sector_size (bt_sectors t)) < 2 ^ 29 /\
  Forall f32 (bt_portals t) /\ len (bt_portals t) < 2 ^ 29.

(** The number a file of each game carries as its version, BspTree.cc:10 and :13 of World.cc. *)
Definition game_version (g : game) : N := match g with G1 => version_g1 | G2 => 67698688 end.

(** Links between nodes: a child comes after its parent and points back to it; a parent
    comes before its child, which is one of its two children. *)
Definition child_ok (l : list bspnode) (i : N) (z : Z) : Prop :=
  z = (-1)%Z \/ exists j c, z = Z.of_N j /\ i < j /\ nth_N l j = Some c /\ bn_parent c = Z.of_N i.
Definition parent_ok (l : list bspnode) (i : N) (z : Z) : Prop :=
  z = (-1)%Z \/ exists p n, z = Z.of_N p /\ p < i /\ nth_N l p = Some n /\
    (bn_front n = Z.of_N i \/ bn_back n = Z.of_N i).
Definition links_ok (l : list bspnode) : Prop :=
  forall i n, nth_N l i = Some n ->
    child_ok l i (bn_front n) /\ child_ok l i (bn_back n) /\ parent_ok l i (bn_parent n) /\
    (bn_front n <> (-1)%Z -> bn_front n <> bn_back n).
Definition leaves_ok (l : list bspnode) (leaves : list N) : Prop :=
  StronglySorted N.lt leaves /\
  forall i, In i leaves -> exists n, nth_N l i = Some n /\ bn_front n = (-1)%Z /\ bn_back n = (-1)%Z.

(** On every input the reader returns, throws or runs into undefined behaviour, but ends; and
    it never moves backwards. *)
Definition ends {A} (r : rd A) : Prop :=
  forall s, r_ok s ->
    match r s with
    | Ret (_, s') => rdata s' = rdata s /\ r_ok s' /\ rpos s <= rpos s'
    | Throw _ => True
    | Undef => True
    | Fuel => False
    end.
