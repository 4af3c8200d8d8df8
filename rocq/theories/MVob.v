(** Model of the objects of a world: src/vobs/VirtualObject.cc and the classes it uses.

    Each class is a record, a [load_...] program and a list of writing operations
    [save_...].  Floats are 32-bit patterns, enumerations their numbers.  The common
    simplifications: [type] and [id] (Archive.cc:503-507) and [children] (see MWorld.v) are not
    part of the records; the copies [associated_visual_type] and [visual_decal] of what
    [visual] refers to are left out; a weak pointer is a pointer.  Part of this file is
    written by a script from the C++ sources of the [load] and [save] functions. *)

From Coq Require Import String.
From Verif Require Import MBase MStream MBoxes MText MClasses MArchive.
Local Open Scope N_scope.

(** What loading and saving depend on: the game, whether the archive is a save game
    ([is_save_game()]) [VirtualObject::enable_packed_save]
    (VirtualObject.cc:12 and 322-324), and how many calls deep the recursive functions of the
    world may go: beyond that nothing is said (outcome [Fuel]). *)
Record cfg := mkCfg { cf_game : game; cf_save : bool; cf_pack : bool; cf_depth : nat }.
Definition g2 (c : cfg) : bool := match cf_game c with G2 => true | G1 => false end.

(** [w.write_string("name", s)] and so on; [write_object(obj, version)] uses the name "%"
    (Archive.cc:563-565). *)
Definition wS (n : string) (s : bytes) : wop oid := WEntry (lit n) (EStr s).
Definition wI (n : string) (z : Z) : wop oid := WEntry (lit n) (EInt z).
Definition wF (n : string) (x : N) : wop oid := WEntry (lit n) (EFloat x).
Definition wY (n : string) (x : N) : wop oid := WEntry (lit n) (EByte x).
Definition wW (n : string) (x : N) : wop oid := WEntry (lit n) (EWord x).
Definition wE (n : string) (x : N) : wop oid := WEntry (lit n) (EEnum x).
Definition wB (n : string) (b : bool) : wop oid := WEntry (lit n) (EBool b).
Definition wC (n : string) (x : color) : wop oid := WEntry (lit n) (EColor x).
Definition wV3 (n : string) (v : vec3) : wop oid := WEntry (lit n) (EVec3 v).
Definition wV2 (n : string) (v : vec2) : wop oid := WEntry (lit n) (EVec2 v).
Definition wR (n : string) (b : bytes) : wop oid := WEntry (lit n) (ERaw b).
Definition wO (n : string) (r : option oid) : wop oid := WObj (lit n) r.
(** [w.write_int("name", v.size())]: a [size_t] as an [int32_t]. *)
Definition wCount {A} (n : string) (l : list A) : wop oid := wI n (sint 32 (len l)).
(** The elements of a list with their positions. *)
Fixpoint indexed {A} (i : N) (l : list A) : list (N * A) :=
  match l with [] => [] | a :: l' => (i, a) :: indexed (i + 1) l' end.
(** A name with a number: ["name" + std::to_string(i)]. *)
Definition numbered (n : string) (i : N) : bytes := lit n ++ dec i.

(** [r.read_raw(n)] and what is then read from the bytes. *)
Definition from_raw {A} (b : bytes) (m : rd A) : outcome A :=
  match m (mkR b 0) with Ret (a, _) => Ret a | Throw e => Throw e | Undef => Undef | Fuel => Fuel end.
Definition p_raw {A} (n : N) (m : rd A) : prog oid A :=
  pbind (p_rd (KRaw n)) (fun b => p_lift (from_raw b m)).
(** The bytes a writer to an empty vector leaves ([Write::to(&vector)]). *)
Definition raw_of (m : wr unit) : bytes := match m w_empty with Ret (_, w) => wbuf w | _ => [] end.

(** [std::dynamic_pointer_cast<VirtualObject>(r.read_object(version))]: null for other objects.
    The classes below [VirtualObject] are those [is_vobject] accepts. *)
Definition p_vob : prog oid (option oid) :=
  PObj (fun o => PRet (match o with Some (r, t, _) => if is_vobject t then Some r else None | None => None end)).
(** VirtualObject.cc:15-23 [visual_type_map]: all classes below [Visual], VirtualObject.hh:98-150. *)
Definition is_visual (t : otype) : bool :=
  existsb (otype_eqb t) [zCDecal; zCMesh; zCProgMeshProto; zCParticleFX; zCModel; zCAICamera; zCMorphMesh].
(** [std::dynamic_pointer_cast<Visual>(r.read_object(version))] *)
Definition p_visual : prog oid (option oid) :=
  PObj (fun o => PRet (match o with Some (r, t, _) => if is_visual t then Some r else None | None => None end)).
(** [static_cast<size_t>(r.read_int())] as the length of a vector: a negative number makes
    [resize] throw [std::length_error]. *)
Definition p_size : prog oid nat :=
  pbind (p_rd KInt) (fun z => if (z <? 0)%Z then PThrow OtherExn else PRet (Z.to_nat z)).
(** [for (auto i = 0; i < r.read_int(); ++i)]: nothing for a negative number. *)
Definition p_upto : prog oid nat := pbind (p_rd KInt) (fun z => PRet (Z.to_nat z)).

(** vobs/VirtualObject.hh:127 [VisualDecal] *)
Record decal := mk_decal { decal_name : bytes; decal_dimension : vec2; decal_offset : vec2; decal_two_sided : bool;
  decal_alpha_func : N; decal_texture_anim_fps : N; decal_alpha_weight : N; decal_ignore_daylight : bool }.
(** vobs/VirtualObject.cc:31-43 *)
Definition load_decal (c : cfg) : prog oid decal :=
  (do name_ <- p_rd KStr ;
   do dimension_ <- p_rd KVec2 ;
   do offset_ <- p_rd KVec2 ;
   do two_sided_ <- p_rd KBool ;
   do alpha_func_ <- p_rd KEnum ;
   do texture_anim_fps_ <- p_rd KFloat ;
   do '(alpha_weight_, ignore_daylight_) <- (if g2 c then (
        do alpha_weight_ <- p_rd KByte ;
        do ignore_daylight_ <- p_rd KBool ;
        PRet (alpha_weight_, ignore_daylight_))%p else PRet (0, false)) ;
   PRet (mk_decal name_ dimension_ offset_ two_sided_ alpha_func_ texture_anim_fps_ alpha_weight_ ignore_daylight_))%p.
(** vobs/VirtualObject.cc:45-59 *)
Definition save_decal (c : cfg) (x : decal) : list (wop oid) :=
  [wS "name" (decal_name x); wV2 "decalDim" (decal_dimension x); wV2 "decalOffset" (decal_offset x);
   wB "decal2Sided" (decal_two_sided x); wE "decalAlphaFunc" (decal_alpha_func x);
   wF "decalTexAniFPS" (decal_texture_anim_fps x)] ++
  (if g2 c then [wY "decalAlphaWeight" (decal_alpha_weight x); wB "ignoreDayLight" (decal_ignore_daylight x)] else []).
(** The object with its references renamed. *)
Definition map_decal (ph : oid -> oid) (x : decal) : decal :=
  mk_decal (decal_name x) (decal_dimension x) (decal_offset x) (decal_two_sided x) (decal_alpha_func x)
  (decal_texture_anim_fps x) (decal_alpha_weight x) (decal_ignore_daylight x).
(** vobs/VirtualObject.hh:186 [RigidBody] *)
Record body := mk_body { body_vel : vec3; body_mode : N; body_gravity_enabled : bool; body_gravity_scale : N;
  body_slide_direction : vec3 }.
(** vobs/VirtualObject.cc:326-332 *)
Definition load_body (c : cfg) : prog oid body :=
  (do vel_ <- p_rd KVec3 ;
   do mode_ <- p_rd KByte ;
   do gravity_enabled_ <- p_rd KBool ;
   do gravity_scale_ <- p_rd KFloat ;
   do slide_direction_ <- p_rd KVec3 ;
   PRet (mk_body vel_ mode_ gravity_enabled_ gravity_scale_ slide_direction_))%p.
(** vobs/VirtualObject.cc:334-340 *)
Definition save_body (c : cfg) (x : body) : list (wop oid) :=
  [wV3 "vel" (body_vel x); wY "mode" (body_mode x); wB "gravOn" (body_gravity_enabled x);
   wF "gravScale" (body_gravity_scale x); wV3 "slideDir" (body_slide_direction x)].
(** The object with its references renamed. *)
Definition map_body (ph : oid -> oid) (x : body) : body :=
  mk_body (body_vel x) (body_mode x) (body_gravity_enabled x) (body_gravity_scale x) (body_slide_direction x).
(** vobs/VirtualObject.hh:197 [EventManager] *)
Record evman := mk_evman { evman_cleared : bool; evman_active : bool; evman_cutscene : option oid }.
(** vobs/VirtualObject.cc:342-346 *)
Definition load_evman (c : cfg) : prog oid evman :=
  (do cleared_ <- p_rd KBool ;
   do active_ <- p_rd KBool ;
   do cutscene_ <- (p_obj zCCSCutsceneContext) ;
   PRet (mk_evman cleared_ active_ cutscene_))%p.
(** vobs/VirtualObject.cc:348-352 *)
Definition save_evman (c : cfg) (x : evman) : list (wop oid) :=
  [wB "cleared" (evman_cleared x); wB "active" (evman_active x); wO "emCutscene" (evman_cutscene x)].
(** The object with its references renamed. *)
Definition map_evman (ph : oid -> oid) (x : evman) : evman :=
  mk_evman (evman_cleared x) (evman_active x) (option_map ph (evman_cutscene x)).
(** vobs/VirtualObject.hh:212 [AiHuman] *)
Record aihuman := mk_aihuman { aihuman_water_level : Z; aihuman_floor_y : N; aihuman_water_y : N; aihuman_ceil_y : N; aihuman_feet_y : N;
  aihuman_head_y : N; aihuman_fall_dist_y : N; aihuman_fall_start_y : N; aihuman_npc : option oid;
  aihuman_walk_mode : Z; aihuman_weapon_mode : Z; aihuman_wmode_ast : Z; aihuman_wmode_select : Z;
  aihuman_change_weapon : bool; aihuman_action_mode : Z }.
(** vobs/VirtualObject.cc:354-372 *)
Definition load_aihuman (c : cfg) : prog oid aihuman :=
  (do water_level_ <- p_rd KInt ;
   do floor_y_ <- p_rd KFloat ;
   do water_y_ <- p_rd KFloat ;
   do ceil_y_ <- p_rd KFloat ;
   do feet_y_ <- p_rd KFloat ;
   do head_y_ <- p_rd KFloat ;
   do fall_dist_y_ <- p_rd KFloat ;
   do fall_start_y_ <- p_rd KFloat ;
   do npc_ <- (p_obj oCNpc) ;
   do walk_mode_ <- p_rd KInt ;
   do weapon_mode_ <- p_rd KInt ;
   do wmode_ast_ <- p_rd KInt ;
   do wmode_select_ <- p_rd KInt ;
   do change_weapon_ <- p_rd KBool ;
   do action_mode_ <- p_rd KInt ;
   PRet (mk_aihuman water_level_ floor_y_ water_y_ ceil_y_ feet_y_ head_y_ fall_dist_y_ fall_start_y_ npc_ walk_mode_
     weapon_mode_ wmode_ast_ wmode_select_ change_weapon_ action_mode_))%p.
(** vobs/VirtualObject.cc:374-392 *)
Definition save_aihuman (c : cfg) (x : aihuman) : list (wop oid) :=
  [wI "waterLevel" (aihuman_water_level x); wF "floorY" (aihuman_floor_y x); wF "waterY" (aihuman_water_y x);
   wF "ceilY" (aihuman_ceil_y x); wF "feetY" (aihuman_feet_y x); wF "headY" (aihuman_head_y x);
   wF "fallDistY" (aihuman_fall_dist_y x); wF "fallStartY" (aihuman_fall_start_y x);
   wO "aiNpc" (aihuman_npc x); wI "walkMode" (aihuman_walk_mode x); wI "weaponMode" (aihuman_weapon_mode x);
   wI "wmodeLast" (aihuman_wmode_ast x); wI "wmodeSelect" (aihuman_wmode_select x);
   wB "changeWeapon" (aihuman_change_weapon x); wI "actionMode" (aihuman_action_mode x)].
(** The object with its references renamed. *)
Definition map_aihuman (ph : oid -> oid) (x : aihuman) : aihuman :=
  mk_aihuman (aihuman_water_level x) (aihuman_floor_y x) (aihuman_water_y x) (aihuman_ceil_y x) (aihuman_feet_y x)
  (aihuman_head_y x) (aihuman_fall_dist_y x) (aihuman_fall_start_y x) (option_map ph (aihuman_npc x))
  (aihuman_walk_mode x) (aihuman_weapon_mode x) (aihuman_wmode_ast x) (aihuman_wmode_select x)
  (aihuman_change_weapon x) (aihuman_action_mode x).
(** vobs/VirtualObject.hh:235 [AiMove] *)
Record aimove := mk_aimove { aimove_vob : option oid; aimove_owner : option oid }.
(** vobs/VirtualObject.cc:394-399 *)
Definition load_aimove (c : cfg) : prog oid aimove :=
  (do vob_ <- p_any ;
   do owner_ <- (p_obj oCNpc) ;
   PRet (mk_aimove vob_ owner_))%p.
(** vobs/VirtualObject.cc:401-406 *)
Definition save_aimove (c : cfg) (x : aimove) : list (wop oid) :=
  [wO "vob" (aimove_vob x); wO "owner" (aimove_owner x)].
(** The object with its references renamed. *)
Definition map_aimove (ph : oid -> oid) (x : aimove) : aimove :=
  mk_aimove (option_map ph (aimove_vob x)) (option_map ph (aimove_owner x)).
(** VirtualObject.hh:275-310: the visual of an object: which object it is, its name, and
    whether its [type] is known.  Null and [DEFAULT_VISUAL] (VirtualObject.cc:11), both without
    a name and of unknown type, are not told apart.  The name is a member of the visual in the
    code: [load] sets it (line 169), and only the objects using the visual save it; a visual
    used by two objects with different names is not modelled. *)
Record vref := mkVref { vr_obj : oid; vr_name : bytes; vr_known : bool }.
(** VirtualObject.hh:305-470 [VirtualObject] *)
Record vob := mkVob {
  vb_bbox : aabb; vb_position : vec3; vb_rotation : mat; vb_show_visual : bool; vb_align : N;
  vb_cd_static : bool; vb_cd_dynamic : bool; vb_static : bool; vb_shadow : N; vb_physics : bool;
  vb_anim_mode : N; vb_bias : Z; vb_ambient : bool; vb_anim_strength : N; vb_far_clip : N;
  vb_preset : bytes; vb_name : bytes; vb_visual_name : bytes; vb_visual : option vref;
  vb_ai : option oid; vb_evman : option oid; vb_sleep : N; vb_timer : N; vb_body : option body }.
(** The initial value of [far_clip_scale], 2.0. *)
Definition two : N := 1073741824.
(** What the first half of [load] finds: the fields and which objects follow. *)
Record vhead := mkVhead { vh_vob : vob; vh_visual : bool; vh_ai : bool; vh_evman : bool }.
Definition empty {A} (l : list A) : bool := match l with [] => true | _ => false end.
Definition bit (b : bool) (i : N) : N := N.shiftl (if b then 1 else 0) i.
(** VirtualObject.cc:74-115: the packed bytes; a Gothic 1 object has no animation fields. *)
Definition read_packed (c : cfg) : rd (aabb * vec3 * mat * N * N * N * N) :=
  (let* box := aabb_load in
   let* pos := read_vec3 in
   let* rot := read_mat3 in
   let* bit0 := read_ubyte in
   let* bit1 := (if g2 c then read_ushort else read_ubyte) in
   let* strength := (if g2 c then read_float else ret 0) in
   let* far := (if g2 c then read_float else ret two) in
   ret (box, pos, rot, bit0, bit1, strength, far))%m.
(** [r.read_string()] if the flag is set *)
Definition p_if_str (b : bool) : prog oid bytes := if b then p_rd KStr else PRet [].
(** VirtualObject.cc:73-127.  Line 109 is [bit1 & (0b110000000 >> 7)]. *)
Definition load_packed (c : cfg) : prog oid vhead :=
  (do '(box, pos, rot, bit0, bit1, strength, far) <- p_raw (if g2 c then 83 else 74) (read_packed c) ;
   do preset <- p_if_str (N.testbit bit1 0) ;
   do name <- p_if_str (N.testbit bit1 1) ;
   do visual <- p_if_str (N.testbit bit1 2) ;
   PRet (mkVhead
     (mkVob box pos rot (N.testbit bit0 0) (N.shiftr (N.land bit0 6) 1)
        (N.testbit bit0 3) (N.testbit bit0 4) (N.testbit bit0 5) (N.shiftr (N.land bit0 192) 6)
        (N.testbit bit1 6)
        (if g2 c then N.land bit1 (N.shiftr 384 7) else 0)
        (if g2 c then Z.of_N (N.shiftr (N.land bit1 15872) 9) else 0%Z)
        (if g2 c then N.testbit bit1 14 else false)
        strength far preset name visual None None None 0 0 None)
     (N.testbit bit1 3) (N.testbit bit1 4) (N.testbit bit1 5 && cf_save c)))%p.
(** VirtualObject.cc:129-155.  [physics_enabled] keeps its initial value. *)
Definition load_unpacked (c : cfg) : prog oid vhead :=
  (do preset <- p_rd KStr ;
   do box <- p_rd KBox ;
   do rot <- p_rd KMat3 ;
   do pos <- p_rd KVec3 ;
   do name <- p_rd KStr ;
   do visual <- p_rd KStr ;
   do show <- p_rd KBool ;
   do align <- p_rd KEnum ;
   do '(mode, strength, far) <- (if g2 c then (
        do mode <- p_rd KEnum ;
        do strength <- p_rd KFloat ;
        do far <- p_rd KFloat ;
        PRet (u8 mode, strength, far))%p else PRet (0, 0, two)) ;
   do cds <- p_rd KBool ;
   do cdd <- p_rd KBool ;
   do static <- p_rd KBool ;
   do shadow <- p_rd KEnum ;
   do '(bias, ambient) <- (if g2 c then (
        do bias <- p_rd KInt ;
        do ambient <- p_rd KBool ;
        PRet (bias, ambient))%p else PRet (0%Z, false)) ;
   PRet (mkVhead
     (mkVob box pos rot show (u8 align) cds cdd static (u8 shadow) true mode bias ambient strength far
        preset name visual None None None 0 0 None)
     true true false))%p.
(** VirtualObject.cc:65-201 *)
Definition load_vob (c : cfg) : prog oid vob :=
  (do packed <- p_rd KInt ;
   do h <- (if (packed =? 0)%Z then load_unpacked c else load_packed c) ;
   let v := vh_vob h in
   do visual <- (if vh_visual h then p_visual else PRet None) ;
   do ai <- (if vh_ai h then p_any else PRet None) ;
   do evman <- (if vh_evman h then p_obj zCEventManager else PRet None) ;
   do '(sleep, timer, rb) <- (if cf_save c then (
        do sleep <- p_rd KByte ;
        do timer <- p_rd KFloat ;
        do rb <- (if vb_physics v then (do x <- load_body c ; PRet (Some x))%p else PRet None) ;
        PRet (sleep, timer, rb))%p else PRet (0, 0, None)) ;
   PRet (mkVob (vb_bbox v) (vb_position v) (vb_rotation v) (vb_show_visual v) (vb_align v)
     (vb_cd_static v) (vb_cd_dynamic v) (vb_static v) (vb_shadow v) (vb_physics v) (vb_anim_mode v)
     (vb_bias v) (vb_ambient v) (vb_anim_strength v) (vb_far_clip v) (vb_preset v) (vb_name v)
     (vb_visual_name v)
     (match visual with Some r => Some (mkVref r (vb_visual_name v) true) | None => None end)
     ai evman sleep timer rb))%p.
Definition visual_name (v : vob) : bytes := match vb_visual v with Some r => vr_name r | None => [] end.
(** VirtualObject.cc:295 *)
Definition visual_saved (v : vob) : option oid :=
  match vb_visual v with Some r => if vr_known r then Some (vr_obj r) else None | None => None end.
Definition is_some {A} (o : option A) : bool := match o with Some _ => true | None => false end.
(** VirtualObject.cc:215-222 *)
Definition bit0_of (v : vob) : N :=
  u8 (N.lor (bit (vb_show_visual v) 0)
     (N.lor (N.shiftl (N.land (vb_align v) 3) 1)
     (N.lor (bit (vb_cd_static v) 3)
     (N.lor (bit (vb_cd_dynamic v) 4)
     (N.lor (bit (vb_static v) 5)
            (N.shiftl (N.land (vb_shadow v) 3) 6)))))).
(** VirtualObject.cc:226-244.  [bias] is converted to [uint8_t]; the bits above 15 are lost. *)
Definition bit1_of (c : cfg) (v : vob) : N :=
  u16 (N.lor (bit (negb (empty (vb_preset v))) 0)
      (N.lor (bit (negb (empty (vb_name v))) 1)
      (N.lor (bit (negb (empty (visual_name v))) 2)
      (N.lor (bit (is_some (visual_saved v)) 3)
      (N.lor (bit (is_some (vb_ai v)) 4)
      (N.lor (bit (is_some (vb_evman v)) 5)
      (N.lor (bit (vb_physics v && (negb (g2 c) || is_some (vb_body v))) 6)
      (if g2 c then
         N.lor (N.shiftl (N.land (vb_anim_mode v) 2) 7)
        (N.lor (N.shiftl (N.land (uint 8 (vb_bias v)) 31) 13)
               (bit (vb_ambient v) 14))
       else 0)))))))).
(** VirtualObject.cc:211-251 *)
Definition write_packed (c : cfg) (v : vob) : wr unit :=
  (aabb_save (vb_bbox v) ;;
   write_vec3 (vb_position v) ;;
   write_mat3 (vb_rotation v) ;;
   write_ubyte (bit0_of v) ;;
   if g2 c then
     write_ushort (bit1_of c v) ;;
     write_float (vb_anim_strength v) ;;
     write_float (vb_far_clip v)
   else write_ubyte (N.land (bit1_of c v) 255))%m.
Definition w_if_str (n : string) (s : bytes) : list (wop oid) := if empty s then [] else [wS n s].
Definition w_if_obj (n : string) (r : option oid) : list (wop oid) := match r with Some _ => [wO n r] | None => [] end.
(** VirtualObject.cc:203-316 *)
Definition save_vob (c : cfg) (v : vob) : list (wop oid) :=
  (if cf_pack c then
     [wI "pack" 1; wR "dataRaw" (raw_of (write_packed c v))]
   else
     [wI "pack" 0; wS "presetName" (vb_preset v); WEntry (lit "bbox3DWS") (EBox (vb_bbox v));
      WEntry (lit "trafoOSToWSRot") (EMat3 (vb_rotation v)); wV3 "trafoOSToWSPos" (vb_position v);
      wS "vobName" (vb_name v); wS "visual" (vb_visual_name v); wB "showVisual" (vb_show_visual v);
      wE "visualCamAlign" (vb_align v)] ++
     (if g2 c then
        [wE "visualAniMode" (vb_anim_mode v); wF "visualAniModeStrength" (vb_anim_strength v);
         wF "vobFarClipZScale" (vb_far_clip v)]
      else []) ++
     [wB "cdStatic" (vb_cd_static v); wB "cdDyn" (vb_cd_dynamic v); wB "staticVob" (vb_static v);
      wE "dynShadow" (vb_shadow v)] ++
     (if g2 c then [wI "zbias" (vb_bias v); wB "isAmbient" (vb_ambient v)] else [])) ++
  w_if_str "presetName" (vb_preset v) ++
  w_if_str "vobName" (vb_name v) ++
  w_if_str "visual" (visual_name v) ++
  w_if_obj "visual" (visual_saved v) ++
  w_if_obj "ai" (vb_ai v) ++
  w_if_obj "%" (vb_evman v) ++
  (if cf_save c then
     [wY "sleepMode" (vb_sleep v); wF "nextOnTimer" (vb_timer v)] ++
     (if vb_physics v then match vb_body v with Some b => save_body c b | None => [] end else [])
   else []).
Definition map_vref (ph : oid -> oid) (r : vref) : vref := mkVref (ph (vr_obj r)) (vr_name r) (vr_known r).
(** The object with its references renamed. *)
Definition map_vob (ph : oid -> oid) (v : vob) : vob :=
  mkVob (vb_bbox v) (vb_position v) (vb_rotation v) (vb_show_visual v) (vb_align v)
    (vb_cd_static v) (vb_cd_dynamic v) (vb_static v) (vb_shadow v) (vb_physics v) (vb_anim_mode v)
    (vb_bias v) (vb_ambient v) (vb_anim_strength v) (vb_far_clip v) (vb_preset v) (vb_name v)
    (vb_visual_name v) (option_map (map_vref ph) (vb_visual v)) (option_map ph (vb_ai v))
    (option_map ph (vb_evman v)) (vb_sleep v) (vb_timer v) (vb_body v).
(** Object.cc:8-10; VirtualObject.cc:318-320 *)
Definition ver_plain (c : cfg) : N := 0.
Definition ver_vob (c : cfg) : N := if g2 c then 52224 else 12289.
