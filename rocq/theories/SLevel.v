(** Specification vocabulary for worlds with their mesh and BSP tree. *)

From Coq Require Import String.
From Verif Require Import MBase MStream MBoxes MText MClasses MArchive SArchive MVob SVob MWorld MLib MTexture MMaterial MMesh SMesh MBsp MLevel.
From Verif Require SBsp.
Local Open Scope N_scope.

(** The content of the archive a world is saved into, as [content] of SArchive.v: what
    [write_level] leaves if archives are trees of entries.  [raw] are the bytes of the mesh and the
    BSP tree. *)
Definition n_raw (raw : bytes) : M nw unit := fun w => Ret (tt, nw_put (NRaw raw) (nw_keys w) w).
Definition level_content (c : cfg) (G : oid -> option object) (fuel : nat) (raw : bytes) (x : world)
    : option (node * nw * list (oid * N)) :=
  match write_level nwprims (g_graph (library c) G) (n_raw raw) fuel x (mkWg nw_empty []) with
  | Ret (_, g) => match nw_cur (wg_s g) with
                  | [n] => Some (n, wg_s g, wg_cache g)
                  | _ => None
                  end
  | _ => None
  end.

(** The objects a world refers to itself: those in its trees, and the way net. *)
Fixpoint tree_objects (t : vtree) : list oid := let 'Tree r l := t in r :: flat_map tree_objects l.
Definition world_objects (x : world) : list oid :=
  flat_map tree_objects (world_vobs x) ++ (match world_way_net x with Some r => [r] | None => [] end).

(** Reachable from one of several objects, and a heap that is a copy of all that is; as
    [isomorphic] of SArchive.v. *)
Definition from_any (C : classes) (G : oid -> option (c_ob C)) (roots : list oid) (r : oid) : Prop :=
  exists a, In a roots /\ reaches C G a r.
Definition isomorphic_all (C : classes) (G : oid -> option (c_ob C)) (roots : list oid) (ph : oid -> oid) (h : heap (c_ob C)) : Prop :=
  (forall r, from_any C G roots r -> exists x i, G r = Some x /\
     nth_N h (ph r) = Some (mkHobj (c_type C x) i (Some (c_map C ph x)))) /\
  (forall r r', from_any C G roots r -> from_any C G roots r' -> ph r = ph r' -> r = r') /\
  (exists l, NoDup l /\ (forall r, from_any C G roots r <-> In r l) /\ len h = len l).

(** A world the library can save: the counts fit into 32 bits, the objects in the trees are ones,
    the way net is one, and the mesh and the BSP tree can be held by a file of the game. *)
Definition level_ok (c : cfg) (ty : oid -> otype) (x : level) : Prop :=
  cf_save c = false /\ (4 <= cf_depth c)%nat /\
  len (world_vobs (lv_world x)) < 2 ^ 31 /\
  Forall (ok_tree ty (cf_depth c)) (world_vobs (lv_world x)) /\
  refers_to ty (world_way_net (lv_world x)) zCWayNet /\
  mesh_ok (cf_game c) (lv_mesh x) /\ len (me_vindices (lv_mesh x)) < 2 ^ 32 /\
  SBsp.bsp_ok (cf_game c) (lv_bsp x).

(** [y] is the world [x] with its objects renamed, as far as archives that are not save games hold
    worlds: the same trees of objects, way net, mesh and BSP tree.  The triangles of the mesh are
    those of the drawn polygons in the leaves of the tree. *)
Definition same_level (ph : oid -> oid) (x y : level) : Prop :=
  lv_world y = mk_world (map (map_tree ph) (world_vobs (lv_world x))) (option_map ph (world_way_net (lv_world x)))
                 None None [] [] false 0 /\
  lv_bsp y = lv_bsp x /\
  same_mesh (lv_mesh x) (lv_mesh y) /\
  me_tris (lv_mesh y) = listed_triangles (leaf_triangles (lv_mesh x) (bt_leaf_polygons (lv_bsp x))).

(** The world [x] with other trees. *)
Definition with_vobs (l : list vtree) (x : level) : level :=
  let w := lv_world x in
  mkLevel (mk_world l (world_way_net w) (world_player w) (world_sky w) (world_npcs w) (world_spawns w)
             (world_spawn_enabled w) (world_spawn_flags w)) (lv_mesh x) (lv_bsp x).

(** A section before the mesh: an object with another name, that can be skipped. *)
Definition other_section (f : fmt) (n : node) : Prop :=
  exists h l, n = NObj h l /\ oh_name h <> lit "MeshAndBsp" /\ forallb (skip_ok f) l = true.
(** The game whose worlds have the version [v]. *)
Definition game_of (v : N) : game := if v =? SBsp.game_version G2 then G2 else G1.
