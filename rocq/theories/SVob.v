(** What the objects of the library must be like for a saved object to load as the same object.

    The predicates [ok_...] say it class by class; they are what remains of "any object" after
    the defects of the code.  Values that do not fit an entry of the archive (a string with a
    line end in a text archive, say) are excluded separately, by [archive_fits] of SArchive.v.
    [ty] gives the type of every object of the graph, [fl] the flags another object may see. *)

From Coq Require Import String.
From Verif Require Import MBase MStream SStream MBoxes SBoxes MText MClasses MArchive SArchive MVob MVobs MNpc MCutscene MMaterial MWorld SFloat.
Local Open Scope N_scope.

(** The reference is null or to an object of the type, or of a type below [VirtualObject]. *)
Definition refers_to (ty : oid -> otype) (r : option oid) (t : otype) : Prop :=
  match r with None => True | Some r => ty r = t end.
Definition refers_vob (ty : oid -> otype) (r : option oid) : Prop :=
  match r with None => True | Some r => is_vobject (ty r) = true end.
(** A list of references that can be counted in 32 bits. *)
Definition ok_refs (ty : oid -> otype) (t : otype) (l : list (option oid)) : Prop :=
  len l < 2 ^ 31 /\ Forall (fun r => refers_to ty r t) l.
Definition int32 (z : Z) : Prop := (- 2 ^ 31 <= z < 2 ^ 31)%Z.

(** ** VirtualObject *)
(** Outside of save games nothing is stored of these. *)
Definition no_save_state (v : vob) : Prop :=
  vb_evman v = None /\ vb_sleep v = 0 /\ vb_timer v = 0 /\ vb_body v = None.
(** Gothic 1 does not store these. *)
Definition no_animation (v : vob) : Prop :=
  vb_anim_mode v = 0 /\ vb_bias v = 0%Z /\ vb_ambient v = false /\ vb_anim_strength v = 0 /\
   vb_far_clip v = two.
(** Packed: the fields fit their bits, the visual has the name the object says, an object with
    physics has a rigid body in a save game, and in Gothic 2 the animation mode is what the
    presence of the preset and the name make it. *)
Definition ok_packed_vob (c : cfg) (ty : oid -> otype) (v : vob) : Prop :=
  aabb_ok (vb_bbox v) /\ vec3_ok (vb_position v) /\ length (vb_rotation v) = 9%nat /\
   Forall f32 (vb_rotation v) /\
  vb_align v < 4 /\ vb_shadow v < 4 /\ f32 (vb_anim_strength v) /\ f32 (vb_far_clip v) /\
  vb_visual_name v = visual_name v /\
  match vb_visual v with None => True | Some r => vr_known r = true /\ is_visual (ty (vr_obj r)) = true end /\
  refers_to ty (vb_evman v) zCEventManager /\
  (if cf_save c then vb_physics v = is_some (vb_body v) else no_save_state v /\
   (g2 c = true -> vb_physics v = false)) /\
  (if g2 c then vb_anim_mode v = (if empty (vb_preset v) then 0 else 1) + (if empty (vb_name v) then 0 else 2) /\ vb_bias v = 0%Z
   else no_animation v).
(** Not packed: the object has a visual and an AI, and neither preset nor names, because these
    are stored twice and the second time is not expected. *)
Definition ok_plain_vob (c : cfg) (ty : oid -> otype) (v : vob) : Prop :=
  vb_preset v = [] /\ vb_name v = [] /\ vb_visual_name v = [] /\
  match vb_visual v with None => False | Some r => vr_known r = true /\ vr_name r = [] /\
   is_visual (ty (vr_obj r)) = true end /\
  vb_ai v <> None /\ vb_evman v = None /\ vb_physics v = true /\
  vb_align v < 256 /\ vb_shadow v < 256 /\ vb_anim_mode v < 256 /\
  (if cf_save c then vb_body v <> None else no_save_state v) /\
  (g2 c = false -> no_animation v).
Definition ok_vob (c : cfg) (ty : oid -> otype) (v : vob) : Prop :=
  if cf_pack c then ok_packed_vob c ty v else ok_plain_vob c ty v.

(** ** Parts of other classes *)
(** Key frames: as many as a 16-bit number counts; without any, nothing else is stored. *)
Definition sample_ok (s : sample) : Prop := vec3_ok (sm_pos s) /\ f32 (sm_x s) /\ f32 (sm_y s) /\ f32 (sm_z s) /\ f32 (sm_w s).
Definition ok_frames (x : N * N * N * list sample) : Prop :=
  let '(speed, lerp, mode, l) := x in
  len l < 2 ^ 16 /\ Forall sample_ok l /\ (l = [] -> speed = 0 /\ lerp = 1 /\ mode = 0).
(** A pose comes back transposed, so only symmetric ones are kept. *)
Definition ok_pose (m : mat) : Prop := length m = 16%nat /\ Forall f32 m /\ transpose4 m = m.
(** The colors of an animated light; of a light with animated ranges they are lost. *)
Definition color_ok (k : color) : Prop := c_r k < 256 /\ c_g k < 256 /\ c_b k < 256 /\ c_a k = 255.
Definition ok_dyn (c : cfg) (d : dynlight) : Prop :=
  dl_ranges d = [] /\ Forall color_ok (dl_colors d) /\ (g2 c = false -> dl_can_move d = true).
Definition ok_slot (ty : oid -> otype) (s : slot) : Prop :=
  refers_to ty (sl_item s) oCItem /\ (sl_used s = false -> sl_item s = None /\ sl_in_inventory s = false).
(** Script variables: Gothic 1 stores only 50 of the 100. *)
Definition ok_vars (c : cfg) (l : list Z) : Prop :=
  length l = 100%nat /\ Forall int32 l /\ (g2 c = false -> skipn 50 l = repeat 0%Z 50).
(** Nine strings, of which Gothic 2 keeps only the first. *)
Definition ok_packed (c : cfg) (l : list bytes) : Prop :=
  len l = 9 /\ (g2 c = true -> exists s, l = s :: repeat [] 8 /\ ~ In x3b s).
(** The block inside a cutscene block. *)
Definition ok_sub (ty : oid -> otype) (s : option sub) : Prop :=
  exists x, s = Some x /\ ty (sb_obj x) = (if sb_atomic x then zCCSAtomicBlock else zCCSBlock).
(** The blocks of a cutscene library are in the order of their names. *)
Fixpoint in_order (l : list bytes) : Prop :=
  match l with
  | a :: (b :: _) as l' => bytes_ltb b a = false /\ in_order l'
  | _ => True
  end.
Definition ok_blocks (fl : oid -> Z) (l : list (option oid)) : Prop :=
  exists rs names, l = map Some rs /\ map fl rs = map code names /\ in_order names.

(** ** The classes *)
Definition ok_decal (c : cfg) (ty : oid -> otype) (x : decal) : Prop :=
  (g2 c = false -> decal_alpha_weight x = 0 /\ decal_ignore_daylight x = false).
Definition ok_body (c : cfg) (ty : oid -> otype) (x : body) : Prop :=
  True.
Definition ok_evman (c : cfg) (ty : oid -> otype) (x : evman) : Prop :=
  refers_to ty (evman_cutscene x) zCCSCutsceneContext.
Definition ok_aihuman (c : cfg) (ty : oid -> otype) (x : aihuman) : Prop :=
  refers_to ty (aihuman_npc x) oCNpc.
Definition ok_aimove (c : cfg) (ty : oid -> otype) (x : aimove) : Prop :=
  refers_to ty (aimove_owner x) oCNpc.
Definition ok_trigger (c : cfg) (ty : oid -> otype) (x : trigger) : Prop :=
  ok_vob c ty (trigger_base x) /\ (trigger_flags x) < 256 /\ (trigger_filter_flags x) < 256 /\
  trigger_start_enabled x = N.testbit (trigger_flags x) 0 /\
  trigger_send_untrigger x = N.testbit (trigger_flags x) 2 /\
  trigger_react_to_on_trigger x = N.testbit (trigger_filter_flags x) 0 /\
  trigger_react_to_on_touch x = N.testbit (trigger_filter_flags x) 1 /\
  trigger_react_to_on_damage x = N.testbit (trigger_filter_flags x) 2 /\
  trigger_respond_to_object x = N.testbit (trigger_filter_flags x) 3 /\
  trigger_respond_to_pc x = N.testbit (trigger_filter_flags x) 4 /\
  trigger_respond_to_npc x = N.testbit (trigger_filter_flags x) 5 /\
  (cf_save c = false -> trigger_s_next_time_triggerable x = 0 /\ trigger_s_other_vob x = None /\
   trigger_s_count_can_be_activated x = (trigger_max_activation_count x) /\ trigger_s_is_enabled x = true) /\
  refers_vob ty (trigger_s_other_vob x) /\ (g2 c = false -> trigger_s_is_enabled x = true).
Definition ok_mover (c : cfg) (ty : oid -> otype) (x : mover) : Prop :=
  ok_trigger c ty (mover_base x) /\ (g2 c = false -> mover_auto_rotate x = false) /\
  ok_frames (mover_frames x) /\
  (cf_save c = false -> mover_s_act_key_pos_delta x = (mkV3 0 0 0) /\ mover_s_act_keyframe_f x = 0 /\
   mover_s_act_keyframe x = 0%Z /\ mover_s_next_keyframe x = 0%Z /\ mover_s_move_speed_unit x = 0 /\
   mover_s_advance_dir x = 0 /\ mover_s_mover_state x = 0 /\ mover_s_trigger_event_count x = 0%Z /\
   mover_s_stay_open_time_dest x = 0).
Definition ok_tlist (c : cfg) (ty : oid -> otype) (x : tlist) : Prop :=
  ok_trigger c ty (tlist_base x) /\ len (tlist_targets x) < 256 /\
  (cf_save c = false -> tlist_s_act_target x = 0 /\ tlist_s_send_on_trigger x = false).
Definition ok_tscript (c : cfg) (ty : oid -> otype) (x : tscript) : Prop :=
  ok_trigger c ty (tscript_base x).
Definition ok_tlevel (c : cfg) (ty : oid -> otype) (x : tlevel) : Prop :=
  ok_trigger c ty (tlevel_base x).
Definition ok_tstart (c : cfg) (ty : oid -> otype) (x : tstart) : Prop :=
  ok_vob c ty (tstart_base x) /\
  (cf_save c && g2 c = false -> tstart_s_has_fired x = false).
Definition ok_tuntouch (c : cfg) (ty : oid -> otype) (x : tuntouch) : Prop :=
  ok_vob c ty (tuntouch_base x).
Definition ok_movable (c : cfg) (ty : oid -> otype) (x : movable) : Prop :=
  ok_vob c ty (movable_base x).
Definition ok_interactive (c : cfg) (ty : oid -> otype) (x : interactive) : Prop :=
  ok_movable c ty (interactive_base x).
Definition ok_container (c : cfg) (ty : oid -> otype) (x : container) : Prop :=
  ok_interactive c ty (container_base x) /\ (cf_save c = false -> container_s_items x = []) /\
  ok_refs ty oCItem (container_s_items x).
Definition ok_door (c : cfg) (ty : oid -> otype) (x : door) : Prop :=
  ok_interactive c ty (door_base x).
Definition ok_fire (c : cfg) (ty : oid -> otype) (x : fire) : Prop :=
  ok_interactive c ty (fire_base x).
Definition ok_sound (c : cfg) (ty : oid -> otype) (x : sound) : Prop :=
  ok_vob c ty (sound_base x) /\
  (cf_save c = false -> sound_s_is_running x = false /\ sound_s_is_allowed_to_run x = false).
Definition ok_daysound (c : cfg) (ty : oid -> otype) (x : daysound) : Prop :=
  ok_sound c ty (daysound_base x).
Definition ok_music (c : cfg) (ty : oid -> otype) (x : music) : Prop :=
  ok_vob c ty (music_base x) /\
  (cf_save c = false -> music_s_local_enabled x = true /\ music_s_day_entrance_done x = false /\
   music_s_night_entrance_done x = false).
Definition ok_farplane (c : cfg) (ty : oid -> otype) (x : farplane) : Prop :=
  ok_vob c ty (farplane_base x).
Definition ok_fog (c : cfg) (ty : oid -> otype) (x : fog) : Prop :=
  ok_vob c ty (fog_base x) /\
  (g2 c = false -> fog_fade_out_sky x = false /\ fog_override_color x = false).
Definition ok_camframe (c : cfg) (ty : oid -> otype) (x : camframe) : Prop :=
  ok_vob c ty (camframe_base x) /\ ok_pose (camframe_original_pose x).
Definition ok_cscamera (c : cfg) (ty : oid -> otype) (x : cscamera) : Prop :=
  ok_vob c ty (cscamera_base x) /\
  cscamera_position_count x = Z.of_N (len (cscamera_trajectory_frames x)) /\
   Forall (fun r => refers_to ty r zCCamTrj_KeyFrame) (cscamera_trajectory_frames x) /\
  cscamera_target_count x = Z.of_N (len (cscamera_target_frames x)) /\
   Forall (fun r => refers_to ty r zCCamTrj_KeyFrame) (cscamera_target_frames x) /\
  (cf_save c && g2 c = false -> cscamera_paused x = false /\ cscamera_started x = false /\
   cscamera_goto_time_mode x = false /\ cscamera_cs_time x = 0).
Definition ok_light (c : cfg) (ty : oid -> otype) (x : light) : Prop :=
  ok_vob c ty (light_base x) /\
  (if light_is_static x then (light_dyn x) = dyn_default else ok_dyn c (light_dyn x)).
Definition ok_animate (c : cfg) (ty : oid -> otype) (x : animate) : Prop :=
  ok_vob c ty (animate_base x) /\ (cf_save c = false -> animate_s_is_running x = (animate_start_on x)).
Definition ok_item (c : cfg) (ty : oid -> otype) (x : item) : Prop :=
  ok_vob c ty (item_base x) /\
  (cf_save c = false -> item_s_amount x = 0%Z /\ item_s_flags x = 0%Z).
Definition ok_lensflare (c : cfg) (ty : oid -> otype) (x : lensflare) : Prop :=
  ok_vob c ty (lensflare_base x).
Definition ok_pfxctl (c : cfg) (ty : oid -> otype) (x : pfxctl) : Prop :=
  ok_vob c ty (pfxctl_base x).
Definition ok_msgfilter (c : cfg) (ty : oid -> otype) (x : msgfilter) : Prop :=
  ok_vob c ty (msgfilter_base x).
Definition ok_codemaster (c : cfg) (ty : oid -> otype) (x : codemaster) : Prop :=
  ok_vob c ty (codemaster_base x) /\ len (codemaster_slaves x) < 256 /\
  (cf_save c && g2 c = false /\ (codemaster_s_num_triggered_slaves x) = 0).
Definition ok_movctl (c : cfg) (ty : oid -> otype) (x : movctl) : Prop :=
  ok_vob c ty (movctl_base x).
Definition ok_touchdmg (c : cfg) (ty : oid -> otype) (x : touchdmg) : Prop :=
  ok_vob c ty (touchdmg_base x).
Definition ok_quake (c : cfg) (ty : oid -> otype) (x : quake) : Prop :=
  ok_vob c ty (quake_base x).
Definition ok_screenfx (c : cfg) (ty : oid -> otype) (x : screenfx) : Prop :=
  ok_vob c ty (screenfx_base x).
Definition ok_talent (c : cfg) (ty : oid -> otype) (x : talent) : Prop :=
  True.
Definition ok_npc (c : cfg) (ty : oid -> otype) (fl : oid -> Z) (x : npc) : Prop :=
  ok_vob c ty (npc_base x) /\ len (npc_overlays x) < 2 ^ 31 /\ ok_refs ty oCNpcTalent (npc_talents x) /\
  len (npc_attributes x) = 8 /\
  (if g2 c then len (npc_hit_chance x) = 4 else (npc_hit_chance x) = repeat 0%Z 4) /\
  len (npc_missions x) = 5 /\ ok_vars c (npc_aivar x) /\ len (npc_news x) < 2 ^ 31 /\
  refers_vob ty (npc_carry_vob x) /\ refers_vob ty (npc_enemy x) /\ ok_packed c (npc_packed x) /\
  ok_refs ty oCItem (npc_items x) /\ Forall (fun r => r <> None) (npc_items x) /\
  len (npc_slots x) < 2 ^ 31 /\ Forall (ok_slot ty) (npc_slots x) /\
  len (npc_protection x) = 8 /\ Forall int32 (npc_protection x) /\
  (g2 c = false -> npc_bs_interruptable_override x = 0%Z /\ npc_npc_type x = 0%Z /\ npc_spell_mana x = 0%Z).
Definition ok_message (c : cfg) (ty : oid -> otype) (x : message) : Prop :=
  (cf_save c = false -> message_high_priority x = false /\ message_used x = false /\ message_deleted x = false).
Definition ok_atomic (c : cfg) (ty : oid -> otype) (x : atomic) : Prop :=
  refers_to ty (atomic_message x) oCMsgConversation.
Definition ok_cblock (c : cfg) (ty : oid -> otype) (x : cblock) : Prop :=
  ok_sub ty (cblock_block x).
Definition ok_cslib (c : cfg) (ty : oid -> otype) (fl : oid -> Z) (x : cslib) : Prop :=
  ok_refs ty zCCSBlock (cslib_blocks x) /\ ok_blocks fl (cslib_blocks x).
Definition ok_csprops (c : cfg) (ty : oid -> otype) (x : csprops) : Prop :=
  True.
Definition ok_cscontext (c : cfg) (ty : oid -> otype) (x : cscontext) : Prop :=
  ok_cblock c ty (cscontext_base x) /\ refers_to ty (cscontext_props x) zCCSProps /\
  refers_to ty (cscontext_npc x) oCNpc /\ refers_to ty (cscontext_main_role x) oCNpc.
Definition ok_savemeta (c : cfg) (ty : oid -> otype) (x : savemeta) : Prop :=
  (g2 c = false -> savemeta_version_point x = 0%Z /\ savemeta_version_int x = 0%Z /\
   savemeta_version_app_name x = []).
Definition ok_poolitem (c : cfg) (ty : oid -> otype) (x : poolitem) : Prop :=
  True.
Definition ok_csmanager (c : cfg) (ty : oid -> otype) (x : csmanager) : Prop :=
  ok_refs ty zCCSPoolItem (csmanager_pool_items x).
Definition ok_csplayer (c : cfg) (ty : oid -> otype) (x : csplayer) : Prop :=
  ok_refs ty zCCSCutsceneContext (csplayer_playlists x).
Definition ok_sky (c : cfg) (ty : oid -> otype) (x : sky) : Prop :=
  (g2 c = false -> sky_fade_scale x = 0 /\ sky_render_lightning x = false /\ sky_is_raining x = false /\
   sky_rain_ctr x = 0%Z).
Definition ok_material (c : cfg) (ty : oid -> otype) (x : material) : Prop :=
  (material_group x) < 256 /\
  finite_vec2 (material_texture_scale x) = true /\
  finite_vec2 (material_texture_anim_map_dir x) = true /\
  (g2 c = false -> material_detail_object_scale x = 0 /\ material_force_occluder x = false /\
   material_environment_mapping x = false /\ material_environment_mapping_strength x = 0 /\
   material_wave_mode x = 0 /\ material_wave_speed x = 0 /\ material_wave_max_amplitude x = 0 /\
   material_wave_grid_size x = 0 /\ material_ignore_sun x = false /\ material_alpha_func x = 0).
Definition ok_waypoint (c : cfg) (ty : oid -> otype) (x : waypoint) : Prop :=
  True.

(** ** Materials *)
(** Gothic 2 stores the blend function in a way it cannot be read. *)
Definition ok_mat (c : cfg) (ty : oid -> otype) (x : material) : Prop := g2 c = false /\ ok_material c ty x.

(** ** Way nets *)
(** First occurrences, in order. *)
Fixpoint firsts (seen l : list oid) : list oid :=
  match l with
  | [] => []
  | a :: l' => if existsb (N.eqb a) seen then firsts seen l' else a :: firsts (a :: seen) l'
  end.
(** Every point is free or the end of an edge, the free ones first, the others in the order the
    edges mention them; no edge leads from a point to itself. *)
Definition ok_waynet (c : cfg) (ty : oid -> otype) (x : waynet) : Prop :=
  exists free es,
    waynet_edges x = map (fun e => (Some (fst e), Some (snd e))) es /\
    waynet_points x = map (fun r => (Some r, true)) free ++
                      map (fun r => (Some r, false)) (firsts free (flat_map (fun e => [fst e; snd e]) es)) /\
    Forall (fun e => fst e <> snd e) es /\
    len free < 2 ^ 31 /\ len es < 2 ^ 31 /\
    Forall (fun r => ty r = zCWaypoint) free /\
    Forall (fun e => ty (fst e) = zCWaypoint /\ ty (snd e) = zCWaypoint) es.

(** ** Worlds *)
(** All objects of the tree are virtual objects, children can be counted, and the tree is at
    most [d] levels deep. *)
Fixpoint ok_tree (ty : oid -> otype) (d : nat) (t : vtree) : Prop :=
  match d, t with
  | O, _ => False
  | S d', Tree r l => is_vobject (ty r) = true /\ len l < 2 ^ 31 /\
      (fix all (l : list vtree) : Prop := match l with [] => True | t :: l' => ok_tree ty d' t /\ all l' end) l
  end.
(** A world of a Gothic 1 save game (Gothic 2 stores its spawn flags in a way they cannot be
    read; worlds outside of save games also have a mesh). *)
Definition ok_world (c : cfg) (ty : oid -> otype) (x : world) : Prop :=
  cf_save c = true /\ g2 c = false /\ (6 <= cf_depth c)%nat /\
  len (world_vobs x) < 2 ^ 31 /\ Forall (ok_tree ty (cf_depth c)) (world_vobs x) /\
  refers_to ty (world_way_net x) zCWayNet /\ refers_to ty (world_player x) oCCSPlayer /\
  refers_to ty (world_sky x) zCSkyControler_Outdoor /\
  ok_refs ty oCNpc (world_npcs x) /\ len (world_spawns x) < 2 ^ 31 /\
  Forall (fun s => refers_to ty (sp_npc s) oCNpc) (world_spawns x) /\ world_spawn_flags x = 0%Z.
