(** Model: worlds outside of save games, with their mesh and BSP tree (src/World.cc:10-247). *)

From Coq Require Import String.
From Verif Require Import MBase MStream MBoxes MText MClasses MArchive SArchive MVob MWorld MLib MTexture MMaterial MMesh MBsp.
Local Open Scope N_scope.
Local Open Scope m_scope.

(** World.hh:52-110 [World]: the members of MWorld.v, the mesh and the BSP tree. *)
Record level := mkLevel { lv_world : world; lv_mesh : mesh; lv_bsp : bsp }.
(** [World {}].  [BspTree::mode] has no initial value (BspTree.hh:87): [mode] is what it is. *)
Definition lv_new (mode : N) : level :=
  mkLevel (mk_world [] None None None [] [] false 0) mesh_new (bsp_new mode).

(** World.cc:12-13 *)
Definition bsp_version_g1 : N := 34144256.
Definition bsp_version_g2 : N := 67698688.

(* ------------------------------------------------------------------ *)
(** * Loading *)

(** World.cc:98-101.  At the end of the file the type is 0 and nothing moves: the loop does not
    end, and neither do the [fuel] rounds. *)
Fixpoint skip_chunks (fuel : nat) : rd unit :=
  match fuel with
  | O => fuelout
  | S n =>
      let* ty := read_ushort in
      let* size := read_uint in
      rd_seek (Z.of_N size) CUR ;;
      if ty =? M_END then ret tt else skip_chunks n
  end.
(** World.cc:90-114; the mesh and the tree are loaded into [m] and [t]. *)
Definition load_mesh_bsp (xzen : bool) (m : mesh) (t : bsp) : rd (mesh * bsp) :=
  let* version := read_uint in
  let* _size := read_uint in
  let* mesh_offset := rd_tell in
  (fun s => skip_chunks (S (N.to_nat (len (rdata s) - rpos s))) s) ;;
  let* t' := bsp_load t version in
  let* e := rd_tell in
  rd_seek (Z.of_N mesh_offset) BEG ;;
  let* m' := mesh_load_leaves m (bt_leaf_polygons t') xzen in
  rd_seek (Z.of_N e) BEG ;;
  ret (m', t').

Section Load.
  Context {St Ob : Type} (P : prims St).
  Variable flags_of : Ob -> Z.
  (** [read_object], and reading the section of the mesh. *)
  Variable rec : M (@rg St Ob) (option oid).
  Variable raw : mesh -> bsp -> M St (mesh * bsp).

  (** World.cc:77-148; as [p_sections] of MWorld.v, with the section of the mesh. *)
  Fixpoint level_sections (c : cfg) (fuel : nat) (m : mesh) (t : bsp) (s : sects) : M (@rg St Ob) (mesh * bsp * sects) :=
    match fuel with
    | O => fuelout
    | S n =>
        let* e := rgl (p_end P) in
        if e then ret (m, t, s) else
        let* h := rgl (p_begin P) in
        match h with
        | None => throw ParserError
        | Some h =>
            if bytes_eqb (oh_name h) (lit "EndMarker") then rgl (p_end P) ;; ret (m, t, s)
            else
              let* r := (if bytes_eqb (oh_name h) (lit "MeshAndBsp")
                         then let* mt := rgl (raw m t) in ret (fst mt, snd mt, s)
                         else let* s' := runp P flags_of rec (p_section c (oh_name h) s) in ret (m, t, s')) in
              let* e := rgl (p_end P) in
              (if e then ret tt else rgl (p_skip P true)) ;;
              level_sections c n (fst (fst r)) (snd (fst r)) (snd r)
        end
    end.
  (** World.cc:73-174 *)
  Definition load_into (c : cfg) (x : level) : M (@rg St Ob) level :=
    let w := lv_world x in
    let* r := level_sections c (cf_depth c) (lv_mesh x) (lv_bsp x)
                (mkSects (world_vobs w) (world_way_net w) (world_player w) (world_sky w)) in
    let* t := (if cf_save c then runp P flags_of rec (p_tail c (world_spawn_flags w))
               else ret (world_npcs w, world_spawns w, world_spawn_enabled w, world_spawn_flags w)) in
    let '(npcs, spawns, enabled, flags) := t in
    let s := snd r in
    ret (mkLevel (mk_world (ss_vobs s) (ss_way s) (ss_player s) (ss_sky s) npcs spawns enabled flags)
                 (fst (fst r)) (snd (fst r))).
  (** World.cc:59-70: a header that is not one has no class. *)
  Definition load_root (c : cfg) (x : level) : M (@rg St Ob) level :=
    let* h := rgl (p_begin P) in
    match h with
    | None => throw ParserError
    | Some h =>
        if negb (bytes_eqb (oh_class h) (lit "oCWorld:zCWorld")) then throw ParserError else
        let* y := load_into c x in
        let* e := rgl (p_end P) in
        (if e then ret tt else rgl (p_skip P true)) ;;
        ret y
    end.
End Load.

(** World.cc:56-71 [World::load(Read*, GameVersion)] into the world [x].  What [x] refers to is in
    the heap [h0]. *)
Definition load_level (c : cfg) (fuel : nat) (x : level) (h0 : heap object) : rd (level * heap object) := fun s =>
  match ar_open s with
  | Ret (h, r) =>
      let P := fmt_prims (ah_format h) in
      let c := mkCfg (cf_game c) (ah_save h) (cf_pack c) (cf_depth c) in
      let raw := fun m t => rdl (load_mesh_bsp (bytes_eqb (ah_user h) (lit "XZEN")) m t) in
      match load_root P (c_flags (library c)) (read_obj P (c_load (library c)) (c_flags (library c)) fuel) raw c x
              (mkRg (mkRar r []) [] h0) with
      | Ret (y, g) => Ret ((y, rg_heap g), ra_r (rg_s g))
      | Throw e => Throw e | Undef => Undef | Fuel => Fuel
      end
  | Throw e => Throw e | Undef => Undef | Fuel => Fuel
  end.

(** World.cc:33-45: a head that cannot be read leaves the name of the one before. *)
Fixpoint find_version (f : fmt) (fuel : nat) (name : bytes) : ard game :=
  match fuel with
  | O => fuelout
  | S n =>
      let* e := ar_end f in
      if e then ret G1 else
      let* h := ar_begin f in
      let name := match h with Some h => oh_name h | None => name end in
      if bytes_eqb name (lit "MeshAndBsp") then
        let* v := rdl read_uint in
        ret (if v =? bsp_version_g2 then G2 else G1)
      else ar_skip f true ;; find_version f n name
  end.
(** World.cc:23-46 [determine_world_version] *)
Definition determine_version (fuel : nat) : rd game := fun s =>
  match ar_open s with
  | Ret (h, r) =>
      if ah_save h then Throw ParserError else
      match (let* o := ar_begin (ah_format h) in
             find_version (ah_format h) fuel (match o with Some o => oh_name o | None => [] end)) (mkRar r []) with
      | Ret (g, a) => Ret (g, ra_r a)
      | Throw e => Throw e | Undef => Undef | Fuel => Fuel
      end
  | Throw e => Throw e | Undef => Undef | Fuel => Fuel
  end.
(** World.cc:48-54 [World::load] of a stream alone *)
Definition load_any (pack : bool) (depth fuel : nat) (x : level) (h0 : heap object) : rd (game * (level * heap object)) :=
  let* start := rd_tell in
  let* g := determine_version fuel in
  rd_seek (Z.of_N start) BEG ;;
  let* y := load_level (mkCfg g false pack depth) fuel x h0 in
  ret (g, y).

(* ------------------------------------------------------------------ *)
(** * Saving *)

(** World.cc:180-192 *)
Definition save_mesh_bsp (order : list N -> list N) (e1 e2 : wenv) (g : game) (m : mesh) (t : bsp) : wr unit :=
  write_uint (match g with G1 => bsp_version_g1 | G2 => bsp_version_g2 end) ;;
  let* size_off := wr_tell in
  write_uint 0 ;;
  mesh_save order e1 e2 g m ;;
  bsp_save g t ;;
  let* here := wr_tell in
  let size := u32 (here - u32 size_off - 4) in
  wr_seek (Z.of_N (u32 size_off)) BEG ;;
  write_uint size ;;
  wr_seek (Z.of_N size) CUR.
(** World.cc:197-223 in an archive that is not a save game *)
Definition level_ops (x : world) : list (wop oid) :=
  [section "VobTree" (wCount "childs0" (world_vobs x) :: flat_map (fun t => fst (save_tree t 0)) (world_vobs x));
   section "WayNet" [wO "%" (world_way_net x)];
   section "EndMarker" []].
Section Save.
  Context {St : Type} (P : wprims St).
  Variable graph : oid -> option (otype * N * list (wop oid)).
  Variable raw : M St unit.
  (** Archive.cc:563-591 for the world, with World.cc:176-223.  Simplification: the world is not
      put into the table of written objects, because no object can refer to a world. *)
  Definition write_level (fuel : nat) (x : world) : M (@wg St) unit :=
    wgl (wp_begin P (lit "%") (lit "oCWorld:zCWorld") 64513) ;;
    wgl (wp_begin P (lit "MeshAndBsp") [] 0) ;;
    wgl raw ;;
    wgl (wp_end P) ;;
    run_wops P (write_obj P graph fuel) (level_ops x) ;;
    wgl (wp_end P).
End Save.
(** A world saved into an archive that is not a save game, the way the library writes archives (see
    [save_archive]).  [e1] and [e2] are the environments of the archive's headers, [m1] and [m2]
    those of the headers of the material archive in the mesh, [order] is the order in which a hash
    table lists the images. *)
Definition save_level (f : fmt) (e1 e2 m1 m2 : wenv) (order : list N -> list N) (c : cfg)
    (G : oid -> option object) (fuel : nat) (x : level) : outcome bytes :=
  match ar_create f e1 false w_empty with
  | Ret s =>
      match write_level (fmt_wprims f) (g_graph (library c) G) (wrl (save_mesh_bsp order m1 m2 (cf_game c) (lv_mesh x) (lv_bsp x)))
              fuel (lv_world x) (mkWg s []) with
      | Ret (_, g) =>
          match ar_wheader f e2 (wg_s g) with
          | Ret (_, s') => Ret (wbuf (wa_w s'))
          | Throw x => Throw x | Undef => Undef | Fuel => Fuel
          end
      | Throw x => Throw x | Undef => Undef | Fuel => Fuel
      end
  | Throw x => Throw x | Undef => Undef | Fuel => Fuel
  end.
