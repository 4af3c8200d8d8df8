(** Model of src/world/BspTree.cc and include/zenkit/world/BspTree.hh.

    Simplified: memory exhaustion (counts read from the file are used for allocations), stack
    exhaustion by deep trees, and log output. *)

From Verif Require Import MBase MStream MBoxes.
Local Open Scope N_scope.
Local Open Scope m_scope.

(** Misc.hh [Vec4], here in the order of the file: w, x, y, z. *)
Record plane4 := mkPlane { pl_w : N; pl_x : N; pl_y : N; pl_z : N }.
(** BspTree.hh [BspNode] *)
Record bspnode := mkNode {
  bn_plane : plane4;
  bn_bbox : aabb;
  bn_index : N;
  bn_count : N;
  bn_front : Z;
  bn_back : Z;
  bn_parent : Z;
  bn_lod : N
}.
(** BspTree.hh [BspSector] *)
Record sector := mkSector { se_name : bytes; se_nodes : list N; se_portals : list N }.
(** BspTree.hh [BspTree] *)
Record bsp := mkBsp {
  bt_mode : N;
  bt_polygons : list N;
  bt_leaf_polygons : list N;
  bt_lights : list vec3;
  bt_sectors : list sector;
  bt_portals : list N;
  bt_nodes : list bspnode;
  bt_leaves : list N
}.
(** A new tree; [mode] is not initialised by the constructor: any value [m]. *)
Definition bsp_new (m : N) : bsp := mkBsp m [] [] [] [] [] [] [].

(** BspTree.hh [is_leaf] *)
Definition is_leaf (n : bspnode) : bool := (bn_front n =? -1)%Z && (bn_back n =? -1)%Z.

(** BspTree.cc:10 *)
Definition version_g1 : N := 34144256.
(** BspTree.cc:13-20 *)
Definition B_HEADER : N := 49152.
Definition B_POLYGONS : N := 49168.
Definition B_TREE : N := 49216.
Definition B_OUTDOORS : N := 49232.
Definition B_LIGHT : N := 49221.
Definition B_END : N := 49407.

(** Assignment to a member of the node at an index. *)
Definition set_nth {A} (l : list A) (i : N) (f : A -> A) : list A :=
  match nth_N l i with
  | Some x => take i l ++ f x :: drop (i + 1) l
  | None => l
  end.
Definition with_front (z : Z) (n : bspnode) : bspnode :=
  mkNode (bn_plane n) (bn_bbox n) (bn_index n) (bn_count n) z (bn_back n) (bn_parent n) (bn_lod n).
Definition with_back (z : Z) (n : bspnode) : bspnode :=
  mkNode (bn_plane n) (bn_bbox n) (bn_index n) (bn_count n) (bn_front n) z (bn_parent n) (bn_lod n).
Definition no_plane : plane4 := mkPlane 0 0 0 0.

(** BspTree.cc:23-72 [_parse_bsp_nodes].  [cap] is the capacity the node vector is known to
    have.  Line 63 assigns through a reference taken before the front subtree was read: when
    the vector has grown beyond its capacity in the meantime, the reference dangles.  Every
    call but those at the end of the data consumes a byte, and at the end of the data the flags
    are zero: "remaining bytes + 2" levels of recursion suffice. *)
Fixpoint parse_nodes (fuel : nat) (g1 : bool) (cap : N) (parent : Z) (leaf : bool)
    (nodes : list bspnode) (leaves : list N) : rd (list bspnode * list N) :=
  match fuel with
  | O => fuelout
  | S f =>
      let self := len nodes in
      let* bb := aabb_load in
      let* pi := read_uint in
      let* pc := read_uint in
      if leaf then ret (nodes ++ [mkNode no_plane bb pi pc (-1) (-1) parent 0], leaves ++ [self])
      else
        let* flags := read_ubyte in
        let* w := read_float in
        let* x := read_float in
        let* y := read_float in
        let* z := read_float in
        let* lod := (if g1 then read_ubyte else ret 0) in
        let nodes1 := nodes ++ [mkNode (mkPlane w x y z) bb pi pc (-1) (-1) parent lod] in
        let* r := (if N.testbit flags 0
                   then parse_nodes f g1 cap (sint 32 (u32 self)) (N.testbit flags 2)
                          (set_nth nodes1 self (with_front (sint 32 (u32 (len nodes1))))) leaves
                   else ret (nodes1, leaves)) in
        if N.testbit flags 1 then
          if (len nodes1 <? len (fst r)) && (cap <? len (fst r)) then undef
          else parse_nodes f g1 cap (sint 32 (u32 self)) (N.testbit flags 3)
                 (set_nth (fst r) self (with_back (sint 32 (u32 (len (fst r)))))) (snd r)
        else ret r
  end.

(** [std::sort] of numbers: the result is the only sorted permutation. *)
Fixpoint insert_sorted (x : N) (l : list N) : list N :=
  match l with
  | [] => [x]
  | y :: l' => if x <=? y then x :: l else y :: insert_sorted x l'
  end.
Fixpoint sort_N (l : list N) : list N :=
  match l with
  | [] => []
  | x :: l' => insert_sorted x (sort_N l')
  end.

(** BspTree.cc:103-105: the polygons of a node; the sum is on [uint32_t], an index outside the
    list is undefined behaviour. *)
Fixpoint node_polygons (polygons : list N) (start : N) (n : nat) : outcome (list N) :=
  match n with
  | O => Ret []
  | S n' =>
      match nth_N polygons (u32 start) with
      | None => Undef
      | Some p => obind (node_polygons polygons (start + 1) n') (fun l => Ret (p :: l))
      end
  end.
(** BspTree.cc:100-106 *)
Fixpoint gather (polygons : list N) (nodes : list bspnode) (leaves : list N) : outcome (list N) :=
  match leaves with
  | [] => Ret []
  | i :: leaves' =>
      match nth_N nodes i with
      | None => Undef
      | Some n =>
          obind (node_polygons polygons (bn_index n) (N.to_nat (bn_count n))) (fun a =>
          obind (gather polygons nodes leaves') (fun b => Ret (a ++ b)))
      end
  end.

(** BspTree.cc:122-139 *)
Definition sector_load : rd sector :=
  let* name := read_line false in
  let* nn := read_uint in
  let* np := read_uint in
  let* ns := repM (N.to_nat nn) read_uint in
  let* ps := repM (N.to_nat np) read_uint in
  ret (mkSector name ns ps).

(** BspTree.cc:75-157, the callback. *)
Definition bsp_chunk (g1 : bool) (ty : N) (t : bsp) : rd (bool * bsp) :=
  if ty =? B_HEADER then
    let* _ := read_ushort in
    let* mode := read_uint in
    ret (false, mkBsp mode (bt_polygons t) (bt_leaf_polygons t) (bt_lights t) (bt_sectors t)
                  (bt_portals t) (bt_nodes t) (bt_leaves t))
  else if ty =? B_POLYGONS then
    let* n := read_uint in
    let* l := repM (N.to_nat n) read_uint in
    ret (false, mkBsp (bt_mode t) l (bt_leaf_polygons t) (bt_lights t) (bt_sectors t)
                  (bt_portals t) (bt_nodes t) (bt_leaves t))
  else if ty =? B_TREE then
    let* node_count := read_uint in
    let* _leaf_count := read_uint in
    let* r := (fun s => parse_nodes (S (S (N.to_nat (len (rdata s) - rpos s)))) g1
                 (N.max node_count (len (bt_nodes t))) (-1) (node_count =? 1) (bt_nodes t) (bt_leaves t) s) in
    let* ps := lift (gather (bt_polygons t) (fst r) (snd r)) in
    ret (false, mkBsp (bt_mode t) (bt_polygons t) (sort_N (bt_leaf_polygons t ++ ps)) (bt_lights t) (bt_sectors t)
                  (bt_portals t) (fst r) (snd r))
  else if ty =? B_LIGHT then
    let* l := repM (length (bt_leaves t)) read_vec3 in
    ret (false, mkBsp (bt_mode t) (bt_polygons t) (bt_leaf_polygons t) l (bt_sectors t)
                  (bt_portals t) (bt_nodes t) (bt_leaves t))
  else if ty =? B_OUTDOORS then
    let* n := read_uint in
    let* ss := repM (N.to_nat n) sector_load in
    let* np := read_uint in
    let* ps := repM (N.to_nat np) read_uint in
    ret (false, mkBsp (bt_mode t) (bt_polygons t) (bt_leaf_polygons t) (bt_lights t) (bt_sectors t ++ ss)
                  ps (bt_nodes t) (bt_leaves t))
  else if ty =? B_END then let* _ := read_ubyte in ret (true, t)
  else ret (false, t).

(** BspTree.cc:74-158, loading into the tree [t]. *)
Definition bsp_load (t : bsp) (version : N) : rd bsp := fun s =>
  read_chunked (S (N.to_nat (len (rdata s) - rpos s))) (bsp_chunk (version =? version_g1)) t s.

(** BspTree.cc:188-196: an index outside the list is undefined behaviour. *)
Definition child_flag (nodes : list bspnode) (i : Z) (present leaf : N) : outcome N :=
  if (i =? -1)%Z then Ret 0
  else match nth_N nodes (uint 32 i) with
       | None => Undef
       | Some c => Ret (present + if is_leaf c then leaf else 0)
       end.

(** BspTree.cc:180-208; the two flags have no bit in common, so that or is addition. *)
Definition node_save (g1 : bool) (nodes : list bspnode) (n : bspnode) : wr unit :=
  aabb_save (bn_bbox n) ;;
  write_uint (bn_index n) ;;
  write_uint (bn_count n) ;;
  if is_leaf n then ret tt
  else
    let* a := lift (child_flag nodes (bn_front n) 1 4) in
    let* b := lift (child_flag nodes (bn_back n) 2 8) in
    write_ubyte (a + b) ;;
    write_float (pl_w (bn_plane n)) ;;
    write_float (pl_x (bn_plane n)) ;;
    write_float (pl_y (bn_plane n)) ;;
    write_float (pl_z (bn_plane n)) ;;
    (if g1 then write_ubyte (bn_lod n) else ret tt).

(** BspTree.cc:221-231 *)
Definition sector_save (s : sector) : wr unit :=
  write_line (se_name s) ;;
  write_uint (u32 (len (se_nodes s))) ;;
  write_uint (u32 (len (se_portals s))) ;;
  iterM write_uint (se_nodes s) ;;
  iterM write_uint (se_portals s).

(** BspTree.cc:160-243 *)
Definition bsp_save (g : game) (t : bsp) : wr unit :=
  write_chunk B_HEADER (write_ushort 2 ;; write_uint (bt_mode t)) ;;
  write_chunk B_POLYGONS (write_uint (u32 (len (bt_polygons t))) ;; iterM write_uint (bt_polygons t)) ;;
  write_chunk B_TREE
    (write_uint (u32 (len (bt_nodes t))) ;;
     write_uint (u32 (len (bt_leaves t))) ;;
     iterM (node_save (match g with G1 => true | G2 => false end) (bt_nodes t)) (bt_nodes t)) ;;
  write_chunk B_LIGHT (iterM write_vec3 (bt_lights t)) ;;
  write_chunk B_OUTDOORS
    (write_uint (u32 (len (bt_sectors t))) ;;
     iterM sector_save (bt_sectors t) ;;
     write_uint (u32 (len (bt_portals t))) ;;
     iterM write_uint (bt_portals t)) ;;
  write_chunk B_END (write_ubyte 66).
