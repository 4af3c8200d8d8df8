(** Model of src/world/WayNet.cc, src/world/VobTree.cc and src/World.cc:73-247. *)

From Coq Require Import String.
From Verif Require Import MBase MStream MBoxes MText MClasses MArchive MVob.
Local Open Scope N_scope.

(** world/WayNet.hh:16 [WayPoint] *)
Record waypoint := mk_waypoint { waypoint_name : bytes; waypoint_water_depth : Z; waypoint_under_water : bool; waypoint_position : vec3;
  waypoint_direction : vec3 }.
(** world/WayNet.cc:10-16 *)
Definition load_waypoint (c : cfg) : prog oid waypoint :=
  (do name_ <- p_rd KStr ;
   do water_depth_ <- p_rd KInt ;
   do under_water_ <- p_rd KBool ;
   do position_ <- p_rd KVec3 ;
   do direction_ <- p_rd KVec3 ;
   PRet (mk_waypoint name_ water_depth_ under_water_ position_ direction_))%p.
(** world/WayNet.cc:18-24 *)
Definition save_waypoint (c : cfg) (x : waypoint) : list (wop oid) :=
  [wS "wpName" (waypoint_name x); wI "waterDepth" (waypoint_water_depth x);
   wB "underWater" (waypoint_under_water x); wV3 "position" (waypoint_position x);
   wV3 "direction" (waypoint_direction x)].
(** The object with its references renamed. *)
Definition map_waypoint (ph : oid -> oid) (x : waypoint) : waypoint :=
  mk_waypoint (waypoint_name x) (waypoint_water_depth x) (waypoint_under_water x) (waypoint_position x)
  (waypoint_direction x).
(** ** The way net *)
(** WayNet.hh:83-121 [WayNet].  Simplification: [free_point], a member of the way point, stands
    beside the pointer in [points]. *)
Record waynet := mk_waynet { waynet_points : list (option oid * bool); waynet_edges : list (option oid * option oid) }.
Definition opt_eqb (a b : option oid) : bool :=
  match a, b with Some x, Some y => x =? y | None, None => true | _, _ => false end.
(** [use_count() < 3]: besides the pointer itself only the archive's table refers to the
    object; the number of a null pointer is 0. *)
Definition held (p : option oid) (points : list (option oid * bool)) (edges : list (option oid * option oid)) : bool :=
  existsb (fun q => opt_eqb p (fst q)) points ||
  existsb (fun e => opt_eqb p (fst e) || opt_eqb p (snd e)) edges.
Definition few_users (p other : option oid) (points : list (option oid * bool)) (edges : list (option oid * option oid)) : bool :=
  match p with None => true | Some _ => negb (held p points edges) && negb (opt_eqb p other) end.
(** WayNet.cc:41-49: one edge.  At line 45 [wayl] may already be in [points]. *)
Definition add_edge (st : list (option oid * bool) * list (option oid * option oid)) (e : option oid * option oid) :=
  let '(points, edges) := st in
  let '(l, r) := e in
  let points1 := if few_users l r points edges then points ++ [(l, false)] else points in
  let points2 := if few_users r l points1 edges then points1 ++ [(r, false)] else points1 in
  (points2, edges ++ [e]).
(** WayNet.cc:32-35: null is dereferenced. *)
Definition p_point : prog oid (option oid * bool) :=
  pbind (p_obj zCWaypoint) (fun r => match r with None => PUndef | Some _ => PRet (r, true) end).
Definition p_edge : prog oid (option oid * option oid) :=
  (do l <- p_obj zCWaypoint ; do r <- p_obj zCWaypoint ; PRet (l, r))%p.
(** WayNet.cc:27-50 *)
Definition load_waynet (c : cfg) : prog oid waynet :=
  (do _ <- p_rd KInt ;
   do n <- p_size ;
   do points <- p_rep n p_point ;
   do m <- p_size ;
   do edges <- p_rep m p_edge ;
   let (points, edges) := fold_left add_edge edges (points, []) in
   PRet (mk_waynet points edges))%p.
(** WayNet.cc:52-76: null is dereferenced at line 56. *)
Definition save_waynet (c : cfg) (x : waynet) : list (wop oid) :=
  if existsb (fun p => negb (is_some (fst p))) (waynet_points x) then [wI "waynetVersion" 1; WUndef]
  else
    let free := map fst (filter snd (waynet_points x)) in
    [wI "waynetVersion" 1; wCount "numWaypoints" free] ++
    map (fun p => WObj (numbered "waypoint" (fst p)) (snd p)) (indexed 0 free) ++
    [wCount "numWays" (waynet_edges x)] ++
    flat_map (fun p => [WObj (numbered "wayl" (fst p)) (fst (snd p)); WObj (numbered "wayr" (fst p)) (snd (snd p))])
      (indexed 0 (waynet_edges x)).
Definition map_waynet (ph : oid -> oid) (x : waynet) : waynet :=
  mk_waynet (map (fun p => (option_map ph (fst p), snd p)) (waynet_points x))
    (map (fun e => (option_map ph (fst e), option_map ph (snd e))) (waynet_edges x)).

(** ** Trees of objects *)
(** [VirtualObject::children], VirtualObject.hh:377.  Simplification: the tree stands beside the
    objects; null children are not modelled. *)
Inductive vtree := Tree (root : oid) (children : list vtree).
(** VobTree.cc:22-29: objects whose parent cannot be read are skipped.  A negative count becomes
    one of about [2^64], which the 32-bit [i] never reaches: that loop only ends by an exception,
    and neither do [d] rounds of it end otherwise. *)
Fixpoint p_skip_trees (depth : nat) (n : nat) : prog oid unit :=
  match depth with
  | O => PFuel
  | S d =>
      (fix go (n : nat) : prog oid unit :=
         match n with
         | O => PRet tt
         | S n' =>
             PSkip false
               (do k <- p_rd KInt ;
                if (k <? 0)%Z then do _ <- p_skip_trees d d ; PFuel else do _ <- p_skip_trees d (Z.to_nat k) ; go n')%p
         end) n
  end.
(** VobTree.cc:8-45 [parse_vob_tree] *)
Fixpoint p_tree (depth : nat) : prog oid (option vtree) :=
  match depth with
  | O => PFuel
  | S d =>
      PObj (fun o =>
        do n <- p_rd KInt ;
        match o with
        | Some (r, t, _) =>
            if is_vobject t then
              if (n <? 0)%Z then PThrow OtherExn
              else do l <- p_rep (Z.to_nat n) (p_tree d) ;
                   PRet (Some (Tree r (flat_map (fun o => match o with Some t => [t] | None => [] end) l)))
            else if (n <? 0)%Z then do _ <- p_skip_trees d d ; PFuel else do _ <- p_skip_trees d (Z.to_nat n) ; PRet None
        | None => if (n <? 0)%Z then do _ <- p_skip_trees d d ; PFuel else do _ <- p_skip_trees d (Z.to_nat n) ; PRet None
        end)%p
  end.
(** VobTree.cc:47-61 [save_vob_tree]: the number for the name is passed along. *)
Fixpoint save_tree (t : vtree) (n : N) : list (wop oid) * N :=
  match t with
  | Tree r l =>
      let '(ops, n') :=
        (fix go (l : list vtree) (n : N) : list (wop oid) * N :=
           match l with
           | [] => ([], n)
           | t :: l' => let '(a, n1) := save_tree t n in let '(b, n2) := go l' n1 in (a ++ b, n2)
           end) l (n + 1) in
      (wO "%" (Some r) :: WEntry (numbered "childs" n) (EInt (sint 32 (len l))) :: ops, n')
  end.
Fixpoint map_tree (ph : oid -> oid) (t : vtree) : vtree :=
  match t with Tree r l => Tree (ph r) (map (map_tree ph) l) end.

(** ** Worlds *)
(** World.hh:42-47 [SpawnLocation] *)
Record spawn := mkSpawn { sp_npc : option oid; sp_position : vec3; sp_timer : N }.
(** World.hh:52-110 [World] without the mesh and the BSP tree, which only worlds outside of save
    games contain (MMesh.v and MBsp.v). *)
Record world := mk_world {
  world_vobs : list vtree; world_way_net : option oid; world_player : option oid; world_sky : option oid;
  world_npcs : list (option oid); world_spawns : list spawn; world_spawn_enabled : bool; world_spawn_flags : Z }.
(** What the sections leave behind. *)
Record sects := mkSects { ss_vobs : list vtree; ss_way : option oid; ss_player : option oid; ss_sky : option oid }.
(** World.cc:115-133: the content of a section; other sections have none. *)
Definition p_section (c : cfg) (name : bytes) (s : sects) : prog oid sects :=
  if bytes_eqb name (lit "MeshAndBsp") then PFuel
  else if bytes_eqb name (lit "VobTree") then
    (do n <- p_upto ;
     do l <- p_rep n (p_tree (cf_depth c)) ;
     PRet (mkSects (ss_vobs s ++ flat_map (fun o => match o with Some t => [t] | None => [] end) l)
             (ss_way s) (ss_player s) (ss_sky s)))%p
  else if bytes_eqb name (lit "WayNet") then
    (do r <- p_obj zCWayNet ; PRet (mkSects (ss_vobs s) r (ss_player s) (ss_sky s)))%p
  else if bytes_eqb name (lit "CutscenePlayer") then
    (do r <- p_obj oCCSPlayer ; PRet (mkSects (ss_vobs s) (ss_way s) r (ss_sky s)))%p
  else if bytes_eqb name (lit "SkyCtrl") then
    (do r <- p_obj zCSkyControler_Outdoor ; PRet (mkSects (ss_vobs s) (ss_way s) (ss_player s) r))%p
  else PRet s.
(** World.cc:77-148 *)
Fixpoint p_sections (c : cfg) (fuel : nat) (s : sects) : prog oid sects :=
  match fuel with
  | O => PFuel
  | S f =>
      PEnd (fun e => if e then PRet s else
      PBegin (fun h =>
        match h with
        | None => PThrow ParserError
        | Some h =>
            if bytes_eqb (oh_name h) (lit "EndMarker") then PEnd (fun _ => PRet s)
            else do s' <- p_section c (oh_name h) s ;
                 PEnd (fun e => if e then p_sections c f s' else PSkip true (p_sections c f s'))
        end))%p
  end.
(** World.cc:162-166 *)
Definition p_spawn : prog oid spawn :=
  (do r <- p_obj oCNpc ; do v <- p_rd KVec3 ; do t <- p_rd KFloat ; PRet (mkSpawn r v t))%p.
(** World.cc:150-173: what save games hold besides; [flags] are the flags the world has. *)
Definition p_tail (c : cfg) (flags : Z) : prog oid (list (option oid) * list spawn * bool * Z) :=
  (do n <- p_size ;
   do npcs <- p_rep n (p_obj oCNpc) ;
   do m <- p_size ;
   do spawns <- p_rep m p_spawn ;
   do enabled <- p_rd KBool ;
   do flags <- (if g2 c then p_rd KInt else PRet flags) ;
   PRet (npcs, spawns, enabled, flags))%p.
(** World.cc:73-174 *)
Definition load_world (c : cfg) : prog oid world :=
  (do s <- p_sections c (cf_depth c) (mkSects [] None None None) ;
   do '(npcs, spawns, enabled, flags) <- (if cf_save c then p_tail c 0 else PRet ([], [], false, 0%Z)) ;
   PRet (mk_world (ss_vobs s) (ss_way s) (ss_player s) (ss_sky s) npcs spawns enabled flags))%p.
(** [write_object_begin(name, "", 0)] up to [write_object_end()] *)
Definition section (name : string) (l : list (wop oid)) : wop oid := WSub (lit name) [] 0 l.
(** World.cc:176-247.  The section MeshAndBsp of a world that is not a save game is not part of
    this model: no operation stands for it ([WUndef]).  Line 244 writes the number as a truth
    value. *)
Definition save_world (c : cfg) (x : world) : list (wop oid) :=
  (if cf_save c then [] else [WUndef]) ++
  [section "VobTree" (wCount "childs0" (world_vobs x) :: flat_map (fun t => fst (save_tree t 0)) (world_vobs x))] ++
  (if cf_save c then
     (if is_some (world_player x) then [section "CutscenePlayer" [wO "%" (world_player x)]] else []) ++
     (if is_some (world_sky x) then [section "SkyCtrl" [wO "%" (world_sky x)]] else [])
   else []) ++
  [section "WayNet" [wO "%" (world_way_net x)]; section "EndMarker" []] ++
  (if cf_save c then
     [wCount "npcCount" (world_npcs x)] ++
     map (fun p => WObj (numbered "npc" (fst p)) (snd p)) (indexed 0 (world_npcs x)) ++
     [wCount "NoOfEntries" (world_spawns x)] ++
     flat_map (fun s => [wO "npc" (sp_npc s); wV3 "spawnPos" (sp_position s); wF "timer" (sp_timer s)]) (world_spawns x) ++
     [wB "spawningEnabled" (world_spawn_enabled x)] ++
     (if g2 c then [wB "spawnFlags" (negb (world_spawn_flags x =? 0)%Z)] else [])
   else []).
Definition map_world (ph : oid -> oid) (x : world) : world :=
  mk_world (map (map_tree ph) (world_vobs x)) (option_map ph (world_way_net x)) (option_map ph (world_player x))
    (option_map ph (world_sky x)) (map (option_map ph) (world_npcs x))
    (map (fun s => mkSpawn (option_map ph (sp_npc s)) (sp_position s) (sp_timer s)) (world_spawns x))
    (world_spawn_enabled x) (world_spawn_flags x).
