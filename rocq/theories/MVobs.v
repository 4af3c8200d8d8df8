(** Model of the subclasses of [VirtualObject] except [VNpc]: src/vobs/Trigger.cc,
    MovableObject.cc, Sound.cc, Zone.cc, Camera.cc, Light.cc and Misc.cc.  Part of this file is
    written by a script from the C++ sources of the [load] and [save] functions. *)

From Coq Require Import String.
From Verif Require Import MBase MStream MBoxes MText MClasses MArchive MVob.
Local Open Scope N_scope.

(** [r.read_raw(1)->read_ubyte()] *)
Definition p_flag : prog oid N := p_raw 1 read_ubyte.
(** vobs/Trigger.hh:95-180 [VTrigger]; also [VCutsceneTrigger] *)
Record trigger := mk_trigger { trigger_base : vob; trigger_target : bytes; trigger_flags : N;
  trigger_filter_flags : N; trigger_vob_target : bytes; trigger_max_activation_count : Z;
  trigger_retrigger_delay_sec : N; trigger_damage_threshold : N; trigger_fire_delay_sec : N;
  trigger_start_enabled : bool; trigger_send_untrigger : bool; trigger_react_to_on_trigger : bool;
  trigger_react_to_on_touch : bool; trigger_react_to_on_damage : bool; trigger_respond_to_object : bool;
  trigger_respond_to_pc : bool; trigger_respond_to_npc : bool; trigger_s_next_time_triggerable : N;
  trigger_s_other_vob : option oid; trigger_s_count_can_be_activated : Z; trigger_s_is_enabled : bool }.
(** vobs/Trigger.cc:11-44 *)
Definition load_trigger (c : cfg) : prog oid trigger :=
  (do b <- load_vob c ;
   do target_ <- p_rd KStr ;
   do flags_ <- p_flag ;
   do filter_flags_ <- p_flag ;
   do vob_target_ <- p_rd KStr ;
   do max_activation_count_ <- p_rd KInt ;
   do retrigger_delay_sec_ <- p_rd KFloat ;
   do damage_threshold_ <- p_rd KFloat ;
   do fire_delay_sec_ <- p_rd KFloat ;
   let start_enabled_ := N.testbit flags_ 0 in
   let send_untrigger_ := N.testbit flags_ 2 in
   let react_to_on_trigger_ := N.testbit filter_flags_ 0 in
   let react_to_on_touch_ := N.testbit filter_flags_ 1 in
   let react_to_on_damage_ := N.testbit filter_flags_ 2 in
   let respond_to_object_ := N.testbit filter_flags_ 3 in
   let respond_to_pc_ := N.testbit filter_flags_ 4 in
   let respond_to_npc_ := N.testbit filter_flags_ 5 in
   do '(s_next_time_triggerable_, s_other_vob_, s_count_can_be_activated_, s_is_enabled_) <- (if cf_save c then (
        do s_next_time_triggerable_ <- p_rd KFloat ;
        do s_other_vob_ <- p_vob ;
        do s_count_can_be_activated_ <- p_rd KInt ;
        do s_is_enabled_ <- (if g2 c then (
             do s_is_enabled_ <- p_rd KBool ;
             PRet s_is_enabled_)%p else PRet true) ;
        PRet (s_next_time_triggerable_, s_other_vob_, s_count_can_be_activated_, s_is_enabled_))%p else PRet (0, None, max_activation_count_, true)) ;
   PRet (mk_trigger b target_ flags_ filter_flags_ vob_target_ max_activation_count_ retrigger_delay_sec_
     damage_threshold_ fire_delay_sec_ start_enabled_ send_untrigger_ react_to_on_trigger_
     react_to_on_touch_ react_to_on_damage_ respond_to_object_ respond_to_pc_ respond_to_npc_
     s_next_time_triggerable_ s_other_vob_ s_count_can_be_activated_ s_is_enabled_))%p.
(** vobs/Trigger.cc:46-67 *)
Definition save_trigger (c : cfg) (x : trigger) : list (wop oid) :=
  save_vob c (trigger_base x) ++
  [wS "triggerTarget" (trigger_target x)] ++
  [wR "flags" [n2b (trigger_flags x)]] ++
  [wR "filterFlags" [n2b (trigger_filter_flags x)]] ++
  [wS "respondToVobName" (trigger_vob_target x); wI "numCanBeActivated" (trigger_max_activation_count x);
   wF "retriggerWaitSec" (trigger_retrigger_delay_sec x); wF "damageThreshold" (trigger_damage_threshold x);
   wF "fireDelaySec" (trigger_fire_delay_sec x)] ++
  (if cf_save c then [wF "nextTimeTriggerable" (trigger_s_next_time_triggerable x); wO "savedOtherVob" (trigger_s_other_vob x);
   wI "countCanBeActivated" (trigger_s_count_can_be_activated x)] ++
  (if g2 c then [wB "isEnabled" (trigger_s_is_enabled x)] else []) else []).
(** The object with its references renamed. *)
Definition map_trigger (ph : oid -> oid) (x : trigger) : trigger :=
  mk_trigger (map_vob ph (trigger_base x)) (trigger_target x) (trigger_flags x) (trigger_filter_flags x)
  (trigger_vob_target x) (trigger_max_activation_count x) (trigger_retrigger_delay_sec x)
  (trigger_damage_threshold x) (trigger_fire_delay_sec x) (trigger_start_enabled x)
  (trigger_send_untrigger x) (trigger_react_to_on_trigger x) (trigger_react_to_on_touch x)
  (trigger_react_to_on_damage x) (trigger_respond_to_object x) (trigger_respond_to_pc x)
  (trigger_respond_to_npc x) (trigger_s_next_time_triggerable x) (option_map ph (trigger_s_other_vob x))
  (trigger_s_count_can_be_activated x) (trigger_s_is_enabled x).
(** Misc.hh [AnimationSample] as [VMover] stores it: position and x, y, z, w of the rotation. *)
Record sample := mkSample { sm_pos : vec3; sm_x : N; sm_y : N; sm_z : N; sm_w : N }.
(** vobs/Trigger.cc:101-108 *)
Definition read_sample : rd sample :=
  (let* p := read_vec3 in
   let* x := read_float in
   let* y := read_float in
   let* z := read_float in
   let* w := read_float in
   ret (mkSample p x y z w))%m.
(** vobs/Trigger.cc:158-162 *)
Definition write_sample (s : sample) : wr unit :=
  (write_vec3 (sm_pos s) ;; write_float (sm_x s) ;; write_float (sm_y s) ;; write_float (sm_z s) ;; write_float (sm_w s))%m.
(** vobs/Trigger.cc:93-110: speed, interpolation, speed mode, samples. *)
Definition p_keyframes : prog oid (N * N * N * list sample) :=
  (do n <- p_rd KWord ;
   if n =? 0 then PRet (0, 1, 0, []) else
   do speed <- p_rd KFloat ;
   do lerp <- p_rd KEnum ;
   do mode <- p_rd KEnum ;
   do l <- p_raw (n * 28) (repM (N.to_nat n) read_sample) ;
   PRet (speed, lerp, mode, l))%p.
(** vobs/Trigger.cc:147-166: the number of samples is converted to [uint16_t]. *)
Definition w_keyframes (speed lerp mode : N) (l : list sample) : list (wop oid) :=
  wW "numKeyframes" (u16 (len l)) ::
  if empty l then []
  else [wF "moveSpeed" speed; wE "posLerpType" lerp; wE "speedType" mode; wR "keyframes" (raw_of (iterM write_sample l))].
(** vobs/Trigger.hh:230-322 [VMover]; [frames] is speed, lerp_mode, speed_mode and keyframes *)
Record mover := mk_mover { mover_base : trigger; mover_behavior : N; mover_touch_blocker_damage : N;
  mover_stay_open_time_sec : N; mover_locked : bool; mover_auto_link : bool; mover_auto_rotate : bool;
  mover_frames : N * N * N * list sample; mover_s_act_key_pos_delta : vec3; mover_s_act_keyframe_f : N;
  mover_s_act_keyframe : Z; mover_s_next_keyframe : Z; mover_s_move_speed_unit : N; mover_s_advance_dir : N;
  mover_s_mover_state : N; mover_s_trigger_event_count : Z; mover_s_stay_open_time_dest : N;
  mover_sfx_open_start : bytes; mover_sfx_open_end : bytes; mover_sfx_transitioning : bytes;
  mover_sfx_close_start : bytes; mover_sfx_close_end : bytes; mover_sfx_lock : bytes;
  mover_sfx_unlock : bytes; mover_sfx_use_locked : bytes }.
(** vobs/Trigger.cc:81-133 *)
Definition load_mover (c : cfg) : prog oid mover :=
  (do b <- load_trigger c ;
   do behavior_ <- p_rd KEnum ;
   do touch_blocker_damage_ <- p_rd KFloat ;
   do stay_open_time_sec_ <- p_rd KFloat ;
   do locked_ <- p_rd KBool ;
   do auto_link_ <- p_rd KBool ;
   do auto_rotate_ <- (if g2 c then (
        do auto_rotate_ <- p_rd KBool ;
        PRet auto_rotate_)%p else PRet false) ;
   do frames_ <- p_keyframes ;
   do '(s_act_key_pos_delta_, s_act_keyframe_f_, s_act_keyframe_, s_next_keyframe_, s_move_speed_unit_, s_advance_dir_, s_mover_state_, s_trigger_event_count_, s_stay_open_time_dest_) <- (if cf_save c then (
        do s_act_key_pos_delta_ <- p_rd KVec3 ;
        do s_act_keyframe_f_ <- p_rd KFloat ;
        do s_act_keyframe_ <- p_rd KInt ;
        do s_next_keyframe_ <- p_rd KInt ;
        do s_move_speed_unit_ <- p_rd KFloat ;
        do s_advance_dir_ <- p_rd KFloat ;
        do s_mover_state_ <- p_rd KEnum ;
        do s_trigger_event_count_ <- p_rd KInt ;
        do s_stay_open_time_dest_ <- p_rd KFloat ;
        PRet (s_act_key_pos_delta_, s_act_keyframe_f_, s_act_keyframe_, s_next_keyframe_, s_move_speed_unit_, s_advance_dir_, s_mover_state_, s_trigger_event_count_, s_stay_open_time_dest_))%p else PRet ((mkV3 0 0 0), 0, 0%Z, 0%Z, 0, 0, 0, 0%Z, 0)) ;
   do sfx_open_start_ <- p_rd KStr ;
   do sfx_open_end_ <- p_rd KStr ;
   do sfx_transitioning_ <- p_rd KStr ;
   do sfx_close_start_ <- p_rd KStr ;
   do sfx_close_end_ <- p_rd KStr ;
   do sfx_lock_ <- p_rd KStr ;
   do sfx_unlock_ <- p_rd KStr ;
   do sfx_use_locked_ <- p_rd KStr ;
   PRet (mk_mover b behavior_ touch_blocker_damage_ stay_open_time_sec_ locked_ auto_link_ auto_rotate_
     frames_ s_act_key_pos_delta_ s_act_keyframe_f_ s_act_keyframe_ s_next_keyframe_ s_move_speed_unit_
     s_advance_dir_ s_mover_state_ s_trigger_event_count_ s_stay_open_time_dest_ sfx_open_start_
     sfx_open_end_ sfx_transitioning_ sfx_close_start_ sfx_close_end_ sfx_lock_ sfx_unlock_ sfx_use_locked_))%p.
(** vobs/Trigger.cc:135-189 *)
Definition save_mover (c : cfg) (x : mover) : list (wop oid) :=
  save_trigger c (mover_base x) ++
  [wE "moverBehavior" (mover_behavior x); wF "autoLinkEnabled" (mover_touch_blocker_damage x);
   wF "autoLinkEnabled" (mover_stay_open_time_sec x); wB "autoLinkEnabled" (mover_locked x);
   wB "autoLinkEnabled" (mover_auto_link x)] ++
  (if g2 c then [wB "autoRotate" (mover_auto_rotate x)] else []) ++
  (let '(s, l, m, k) := (mover_frames x) in w_keyframes s l m k) ++
  (if cf_save c then [wV3 "actKeyPosDelta" (mover_s_act_key_pos_delta x); wF "actKeyframeF" (mover_s_act_keyframe_f x);
   wI "actKeyframe" (mover_s_act_keyframe x); wI "nextKeyframe" (mover_s_next_keyframe x);
   wF "moveSpeedUnit" (mover_s_move_speed_unit x); wF "advanceDir" (mover_s_advance_dir x);
   wE "moverState" (mover_s_mover_state x); wI "numTriggerEvents" (mover_s_trigger_event_count x);
   wF "stayOpenTimeDest" (mover_s_stay_open_time_dest x)] else []) ++
  [wS "sfxOpenStart" (mover_sfx_open_start x); wS "sfxOpenEnd" (mover_sfx_open_end x);
   wS "sfxMoving" (mover_sfx_transitioning x); wS "sfxCloseStart" (mover_sfx_close_start x);
   wS "sfxCloseEnd" (mover_sfx_close_end x); wS "sfxLock" (mover_sfx_lock x);
   wS "sfxUnlock" (mover_sfx_unlock x); wS "sfxUseLocked" (mover_sfx_use_locked x)].
(** The object with its references renamed. *)
Definition map_mover (ph : oid -> oid) (x : mover) : mover :=
  mk_mover (map_trigger ph (mover_base x)) (mover_behavior x) (mover_touch_blocker_damage x)
  (mover_stay_open_time_sec x) (mover_locked x) (mover_auto_link x) (mover_auto_rotate x) (mover_frames x)
  (mover_s_act_key_pos_delta x) (mover_s_act_keyframe_f x) (mover_s_act_keyframe x)
  (mover_s_next_keyframe x) (mover_s_move_speed_unit x) (mover_s_advance_dir x) (mover_s_mover_state x)
  (mover_s_trigger_event_count x) (mover_s_stay_open_time_dest x) (mover_sfx_open_start x)
  (mover_sfx_open_end x) (mover_sfx_transitioning x) (mover_sfx_close_start x) (mover_sfx_close_end x)
  (mover_sfx_lock x) (mover_sfx_unlock x) (mover_sfx_use_locked x).
(** vobs/Trigger.hh:343-350 [VTriggerList::Target]: name and delay. *)
Definition p_target : prog oid (bytes * N) := (do n <- p_rd KStr ; do d <- p_rd KFloat ; PRet (n, d))%p.
Definition w_targets (l : list (bytes * N)) : list (wop oid) :=
  flat_map (fun p => [WEntry (numbered "triggerTarget" (fst p)) (EStr (fst (snd p)));
                      WEntry (numbered "fireDelay" (fst p)) (EFloat (snd (snd p)))]) (indexed 0 l).
(** vobs/Trigger.hh:340-367 [VTriggerList] *)
Record tlist := mk_tlist { tlist_base : trigger; tlist_mode : N; tlist_targets : list (bytes * N);
  tlist_s_act_target : N; tlist_s_send_on_trigger : bool }.
(** vobs/Trigger.cc:199-216 *)
Definition load_tlist (c : cfg) : prog oid tlist :=
  (do b <- load_trigger c ;
   do mode_ <- p_rd KEnum ;
   do targets_ <- (do n <- p_rd KByte ; p_rep (N.to_nat n) p_target)%p ;
   do '(s_act_target_, s_send_on_trigger_) <- (if cf_save c then (
        do s_act_target_ <- p_rd KByte ;
        do s_send_on_trigger_ <- p_rd KBool ;
        PRet (s_act_target_, s_send_on_trigger_))%p else PRet (0, false)) ;
   PRet (mk_tlist b mode_ targets_ s_act_target_ s_send_on_trigger_))%p.
(** vobs/Trigger.cc:218-233: the number of targets is converted to [uint8_t], all are written *)
Definition save_tlist (c : cfg) (x : tlist) : list (wop oid) :=
  save_trigger c (tlist_base x) ++
  [wE "listProcess" (tlist_mode x)] ++
  wY "numTargets" (u8 (len (tlist_targets x))) :: w_targets (tlist_targets x) ++
  (if cf_save c then [wY "actTarget" (tlist_s_act_target x); wB "sendOnTrigger" (tlist_s_send_on_trigger x)] else []).
(** The object with its references renamed. *)
Definition map_tlist (ph : oid -> oid) (x : tlist) : tlist :=
  mk_tlist (map_trigger ph (tlist_base x)) (tlist_mode x) (tlist_targets x) (tlist_s_act_target x)
  (tlist_s_send_on_trigger x).
(** vobs/Trigger.hh:387 [VTriggerScript] *)
Record tscript := mk_tscript { tscript_base : trigger; tscript_function : bytes }.
(** vobs/Trigger.cc:243-246 *)
Definition load_tscript (c : cfg) : prog oid tscript :=
  (do b <- load_trigger c ;
   do function_ <- p_rd KStr ;
   PRet (mk_tscript b function_))%p.
(** vobs/Trigger.cc:248-251 *)
Definition save_tscript (c : cfg) (x : tscript) : list (wop oid) :=
  save_trigger c (tscript_base x) ++
  [wS "scriptFunc" (tscript_function x)].
(** The object with its references renamed. *)
Definition map_tscript (ph : oid -> oid) (x : tscript) : tscript :=
  mk_tscript (map_trigger ph (tscript_base x)) (tscript_function x).
(** vobs/Trigger.hh:412 [VTriggerChangeLevel] *)
Record tlevel := mk_tlevel { tlevel_base : trigger; tlevel_level_name : bytes; tlevel_start_vob : bytes }.
(** vobs/Trigger.cc:261-265 *)
Definition load_tlevel (c : cfg) : prog oid tlevel :=
  (do b <- load_trigger c ;
   do level_name_ <- p_rd KStr ;
   do start_vob_ <- p_rd KStr ;
   PRet (mk_tlevel b level_name_ start_vob_))%p.
(** vobs/Trigger.cc:267-271 *)
Definition save_tlevel (c : cfg) (x : tlevel) : list (wop oid) :=
  save_trigger c (tlevel_base x) ++
  [wS "levelName" (tlevel_level_name x); wS "startVobName" (tlevel_start_vob x)].
(** The object with its references renamed. *)
Definition map_tlevel (ph : oid -> oid) (x : tlevel) : tlevel :=
  mk_tlevel (map_trigger ph (tlevel_base x)) (tlevel_level_name x) (tlevel_start_vob x).
(** vobs/Trigger.hh:441 [VTriggerWorldStart] *)
Record tstart := mk_tstart { tstart_base : vob; tstart_target : bytes; tstart_fire_once : bool; tstart_s_has_fired : bool }.
(** vobs/Trigger.cc:281-290 *)
Definition load_tstart (c : cfg) : prog oid tstart :=
  (do b <- load_vob c ;
   do target_ <- p_rd KStr ;
   do fire_once_ <- p_rd KBool ;
   do s_has_fired_ <- (if cf_save c && g2 c then (
        do s_has_fired_ <- p_rd KBool ;
        PRet s_has_fired_)%p else PRet false) ;
   PRet (mk_tstart b target_ fire_once_ s_has_fired_))%p.
(** vobs/Trigger.cc:292-301 *)
Definition save_tstart (c : cfg) (x : tstart) : list (wop oid) :=
  save_vob c (tstart_base x) ++
  [wS "triggerTarget" (tstart_target x); wB "fireOnlyFirstTime" (tstart_fire_once x)] ++
  (if cf_save c && g2 c then [wB "hasFired" (tstart_s_has_fired x)] else []).
(** The object with its references renamed. *)
Definition map_tstart (ph : oid -> oid) (x : tstart) : tstart :=
  mk_tstart (map_vob ph (tstart_base x)) (tstart_target x) (tstart_fire_once x) (tstart_s_has_fired x).
(** vobs/Trigger.hh:473 [VTriggerUntouch] *)
Record tuntouch := mk_tuntouch { tuntouch_base : vob; tuntouch_target : bytes }.
(** vobs/Trigger.cc:311-314 *)
Definition load_tuntouch (c : cfg) : prog oid tuntouch :=
  (do b <- load_vob c ;
   do target_ <- p_rd KStr ;
   PRet (mk_tuntouch b target_))%p.
(** vobs/Trigger.cc:316-319 *)
Definition save_tuntouch (c : cfg) (x : tuntouch) : list (wop oid) :=
  save_vob c (tuntouch_base x) ++
  [wS "triggerTarget" (tuntouch_target x)].
(** The object with its references renamed. *)
Definition map_tuntouch (ph : oid -> oid) (x : tuntouch) : tuntouch :=
  mk_tuntouch (map_vob ph (tuntouch_base x)) (tuntouch_target x).
(** vobs/MovableObject.hh:36 [VMovableObject] *)
Record movable := mk_movable { movable_base : vob; movable_name : bytes; movable_hp : Z; movable_damage : Z; movable_movable : bool;
  movable_takable : bool; movable_focus_override : bool; movable_material : N;
  movable_visual_destroyed : bytes; movable_owner : bytes; movable_owner_guild : bytes;
  movable_destroyed : bool }.
(** vobs/MovableObject.cc:11-24 *)
Definition load_movable (c : cfg) : prog oid movable :=
  (do b <- load_vob c ;
   do name_ <- p_rd KStr ;
   do hp_ <- p_rd KInt ;
   do damage_ <- p_rd KInt ;
   do movable_ <- p_rd KBool ;
   do takable_ <- p_rd KBool ;
   do focus_override_ <- p_rd KBool ;
   do material_ <- p_rd KEnum ;
   do visual_destroyed_ <- p_rd KStr ;
   do owner_ <- p_rd KStr ;
   do owner_guild_ <- p_rd KStr ;
   do destroyed_ <- p_rd KBool ;
   PRet (mk_movable b name_ hp_ damage_ movable_ takable_ focus_override_ material_ visual_destroyed_ owner_ owner_guild_
     destroyed_))%p.
(** vobs/MovableObject.cc:26-39 *)
Definition save_movable (c : cfg) (x : movable) : list (wop oid) :=
  save_vob c (movable_base x) ++
  [wS "focusName" (movable_name x); wI "hitpoints" (movable_hp x); wI "damage" (movable_damage x);
   wB "moveable" (movable_movable x); wB "takeable" (movable_takable x);
   wB "focusOverride" (movable_focus_override x); wE "soundMaterial" (movable_material x);
   wS "visualDestroyed" (movable_visual_destroyed x); wS "owner" (movable_owner x);
   wS "ownerGuild" (movable_owner_guild x); wB "isDestroyed" (movable_destroyed x)].
(** The object with its references renamed. *)
Definition map_movable (ph : oid -> oid) (x : movable) : movable :=
  mk_movable (map_vob ph (movable_base x)) (movable_name x) (movable_hp x) (movable_damage x) (movable_movable x)
  (movable_takable x) (movable_focus_override x) (movable_material x) (movable_visual_destroyed x)
  (movable_owner x) (movable_owner_guild x) (movable_destroyed x).
(** vobs/MovableObject.hh:109 [VInteractiveObject] *)
Record interactive := mk_interactive { interactive_base : movable; interactive_state_count : Z; interactive_target : bytes;
  interactive_item : bytes; interactive_condition_function : bytes;
  interactive_on_state_change_function : bytes; interactive_rewind : bool }.
(** vobs/MovableObject.cc:49-57 *)
Definition load_interactive (c : cfg) : prog oid interactive :=
  (do b <- load_movable c ;
   do state_count_ <- p_rd KInt ;
   do target_ <- p_rd KStr ;
   do item_ <- p_rd KStr ;
   do condition_function_ <- p_rd KStr ;
   do on_state_change_function_ <- p_rd KStr ;
   do rewind_ <- p_rd KBool ;
   PRet (mk_interactive b state_count_ target_ item_ condition_function_ on_state_change_function_ rewind_))%p.
(** vobs/MovableObject.cc:59-67 *)
Definition save_interactive (c : cfg) (x : interactive) : list (wop oid) :=
  save_movable c (interactive_base x) ++
  [wI "stateNum" (interactive_state_count x); wS "triggerTarget" (interactive_target x);
   wS "useWithItem" (interactive_item x); wS "conditionFunc" (interactive_condition_function x);
   wS "onStateFunc" (interactive_on_state_change_function x); wB "rewind" (interactive_rewind x)].
(** The object with its references renamed. *)
Definition map_interactive (ph : oid -> oid) (x : interactive) : interactive :=
  mk_interactive (map_movable ph (interactive_base x)) (interactive_state_count x) (interactive_target x)
  (interactive_item x) (interactive_condition_function x) (interactive_on_state_change_function x)
  (interactive_rewind x).
(** vobs/MovableObject.hh:194-225 [VContainer] *)
Record container := mk_container { container_base : interactive; container_locked : bool;
  container_key : bytes; container_pick_string : bytes; container_contents : bytes;
  container_s_items : list (option oid) }.
(** vobs/MovableObject.cc:77-93 *)
Definition load_container (c : cfg) : prog oid container :=
  (do b <- load_interactive c ;
   do locked_ <- p_rd KBool ;
   do key_ <- p_rd KStr ;
   do pick_string_ <- p_rd KStr ;
   do contents_ <- p_rd KStr ;
   do s_items_ <- (if cf_save c then (
        do s_items_ <- (do n <- p_size ; p_rep n (p_obj oCItem))%p ;
        PRet s_items_)%p else PRet []) ;
   PRet (mk_container b locked_ key_ pick_string_ contents_ s_items_))%p.
(** vobs/MovableObject.cc:95-110 *)
Definition save_container (c : cfg) (x : container) : list (wop oid) :=
  save_interactive c (container_base x) ++
  [wB "locked" (container_locked x); wS "keyInstance" (container_key x);
   wS "pickLockStr" (container_pick_string x); wS "contains" (container_contents x)] ++
  (if cf_save c then wCount "NumOfEntries" (container_s_items x) :: map (wO "%") (container_s_items x) else []).
(** The object with its references renamed. *)
Definition map_container (ph : oid -> oid) (x : container) : container :=
  mk_container (map_interactive ph (container_base x)) (container_locked x) (container_key x)
  (container_pick_string x) (container_contents x) (map (option_map ph) (container_s_items x)).
(** vobs/MovableObject.hh:244 [VDoor] *)
Record door := mk_door { door_base : interactive; door_locked : bool; door_key : bytes; door_pick_string : bytes }.
(** vobs/MovableObject.cc:120-125 *)
Definition load_door (c : cfg) : prog oid door :=
  (do b <- load_interactive c ;
   do locked_ <- p_rd KBool ;
   do key_ <- p_rd KStr ;
   do pick_string_ <- p_rd KStr ;
   PRet (mk_door b locked_ key_ pick_string_))%p.
(** vobs/MovableObject.cc:127-132 *)
Definition save_door (c : cfg) (x : door) : list (wop oid) :=
  save_interactive c (door_base x) ++
  [wB "locked" (door_locked x); wS "keyInstance" (door_key x); wS "pickLockStr" (door_pick_string x)].
(** The object with its references renamed. *)
Definition map_door (ph : oid -> oid) (x : door) : door :=
  mk_door (map_interactive ph (door_base x)) (door_locked x) (door_key x) (door_pick_string x).
(** vobs/MovableObject.hh:166 [VFire] *)
Record fire := mk_fire { fire_base : interactive; fire_slot : bytes; fire_vob_tree : bytes }.
(** vobs/MovableObject.cc:146-150 *)
Definition load_fire (c : cfg) : prog oid fire :=
  (do b <- load_interactive c ;
   do slot_ <- p_rd KStr ;
   do vob_tree_ <- p_rd KStr ;
   PRet (mk_fire b slot_ vob_tree_))%p.
(** vobs/MovableObject.cc:152-156 *)
Definition save_fire (c : cfg) (x : fire) : list (wop oid) :=
  save_interactive c (fire_base x) ++
  [wS "fireSlot" (fire_slot x); wS "fireVobtreeName" (fire_vob_tree x)].
(** The object with its references renamed. *)
Definition map_fire (ph : oid -> oid) (x : fire) : fire :=
  mk_fire (map_interactive ph (fire_base x)) (fire_slot x) (fire_vob_tree x).
(** vobs/Sound.hh:45 [VSound] *)
Record sound := mk_sound { sound_base : vob; sound_volume : N; sound_mode : N; sound_random_delay : N; sound_random_delay_var : N;
  sound_initially_playing : bool; sound_ambient3d : bool; sound_obstruction : bool; sound_cone_angle : N;
  sound_volume_type : N; sound_radius : N; sound_sound_name : bytes; sound_s_is_running : bool;
  sound_s_is_allowed_to_run : bool }.
(** vobs/Sound.cc:11-30 *)
Definition load_sound (c : cfg) : prog oid sound :=
  (do b <- load_vob c ;
   do volume_ <- p_rd KFloat ;
   do mode_ <- p_rd KEnum ;
   do random_delay_ <- p_rd KFloat ;
   do random_delay_var_ <- p_rd KFloat ;
   do initially_playing_ <- p_rd KBool ;
   do ambient3d_ <- p_rd KBool ;
   do obstruction_ <- p_rd KBool ;
   do cone_angle_ <- p_rd KFloat ;
   do volume_type_ <- p_rd KEnum ;
   do radius_ <- p_rd KFloat ;
   do sound_name_ <- p_rd KStr ;
   do '(s_is_running_, s_is_allowed_to_run_) <- (if cf_save c then (
        do s_is_running_ <- p_rd KBool ;
        do s_is_allowed_to_run_ <- p_rd KBool ;
        PRet (s_is_running_, s_is_allowed_to_run_))%p else PRet (false, false)) ;
   PRet (mk_sound b volume_ mode_ random_delay_ random_delay_var_ initially_playing_ ambient3d_ obstruction_ cone_angle_
     volume_type_ radius_ sound_name_ s_is_running_ s_is_allowed_to_run_))%p.
(** vobs/Sound.cc:32-51 *)
Definition save_sound (c : cfg) (x : sound) : list (wop oid) :=
  save_vob c (sound_base x) ++
  [wF "sndVolume" (sound_volume x); wE "sndVolume" (sound_mode x); wF "sndVolume" (sound_random_delay x);
   wF "sndVolume" (sound_random_delay_var x); wB "sndVolume" (sound_initially_playing x);
   wB "sndVolume" (sound_ambient3d x); wB "sndVolume" (sound_obstruction x);
   wF "sndVolume" (sound_cone_angle x); wE "sndVolume" (sound_volume_type x);
   wF "sndVolume" (sound_radius x); wS "sndName" (sound_sound_name x)] ++
  (if cf_save c then [wB "soundIsRunning" (sound_s_is_running x); wB "soundAllowedToRun" (sound_s_is_allowed_to_run x)] else []).
(** The object with its references renamed. *)
Definition map_sound (ph : oid -> oid) (x : sound) : sound :=
  mk_sound (map_vob ph (sound_base x)) (sound_volume x) (sound_mode x) (sound_random_delay x)
  (sound_random_delay_var x) (sound_initially_playing x) (sound_ambient3d x) (sound_obstruction x)
  (sound_cone_angle x) (sound_volume_type x) (sound_radius x) (sound_sound_name x) (sound_s_is_running x)
  (sound_s_is_allowed_to_run x).
(** vobs/Sound.hh:126 [VSoundDaytime] *)
Record daysound := mk_daysound { daysound_base : sound; daysound_start_time : N; daysound_end_time : N; daysound_sound_name2 : bytes }.
(** vobs/Sound.cc:61-66 *)
Definition load_daysound (c : cfg) : prog oid daysound :=
  (do b <- load_sound c ;
   do start_time_ <- p_rd KFloat ;
   do end_time_ <- p_rd KFloat ;
   do sound_name2_ <- p_rd KStr ;
   PRet (mk_daysound b start_time_ end_time_ sound_name2_))%p.
(** vobs/Sound.cc:68-73 *)
Definition save_daysound (c : cfg) (x : daysound) : list (wop oid) :=
  save_sound c (daysound_base x) ++
  [wF "sndStartTime" (daysound_start_time x); wF "sndEndTime" (daysound_end_time x);
   wS "sndName2" (daysound_sound_name2 x)].
(** The object with its references renamed. *)
Definition map_daysound (ph : oid -> oid) (x : daysound) : daysound :=
  mk_daysound (map_sound ph (daysound_base x)) (daysound_start_time x) (daysound_end_time x) (daysound_sound_name2 x).
(** vobs/Zone.hh:20 [VZoneMusic] *)
Record music := mk_music { music_base : vob; music_enabled : bool; music_priority : Z; music_ellipsoid : bool; music_reverb : N;
  music_volume : N; music_loop : bool; music_s_local_enabled : bool; music_s_day_entrance_done : bool;
  music_s_night_entrance_done : bool }.
(** vobs/Zone.cc:11-26 *)
Definition load_music (c : cfg) : prog oid music :=
  (do b <- load_vob c ;
   do enabled_ <- p_rd KBool ;
   do priority_ <- p_rd KInt ;
   do ellipsoid_ <- p_rd KBool ;
   do reverb_ <- p_rd KFloat ;
   do volume_ <- p_rd KFloat ;
   do loop_ <- p_rd KBool ;
   do '(s_local_enabled_, s_day_entrance_done_, s_night_entrance_done_) <- (if cf_save c then (
        do s_local_enabled_ <- p_rd KBool ;
        do s_day_entrance_done_ <- p_rd KBool ;
        do s_night_entrance_done_ <- p_rd KBool ;
        PRet (s_local_enabled_, s_day_entrance_done_, s_night_entrance_done_))%p else PRet (true, false, false)) ;
   PRet (mk_music b enabled_ priority_ ellipsoid_ reverb_ volume_ loop_ s_local_enabled_ s_day_entrance_done_
     s_night_entrance_done_))%p.
(** vobs/Zone.cc:28-43 *)
Definition save_music (c : cfg) (x : music) : list (wop oid) :=
  save_vob c (music_base x) ++
  [wB "enabled" (music_enabled x); wI "priority" (music_priority x); wB "ellipsoid" (music_ellipsoid x);
   wF "reverbLevel" (music_reverb x); wF "volumeLevel" (music_volume x); wB "loop" (music_loop x)] ++
  (if cf_save c then [wB "local_enabled" (music_s_local_enabled x); wB "dayEntranceDone" (music_s_day_entrance_done x);
   wB "nightEntranceDone" (music_s_night_entrance_done x)] else []).
(** The object with its references renamed. *)
Definition map_music (ph : oid -> oid) (x : music) : music :=
  mk_music (map_vob ph (music_base x)) (music_enabled x) (music_priority x) (music_ellipsoid x) (music_reverb x)
  (music_volume x) (music_loop x) (music_s_local_enabled x) (music_s_day_entrance_done x)
  (music_s_night_entrance_done x).
(** vobs/Zone.hh:78 [VZoneFarPlane] *)
Record farplane := mk_farplane { farplane_base : vob; farplane_vob_far_plane_z : N; farplane_inner_range_percentage : N }.
(** vobs/Zone.cc:53-57 *)
Definition load_farplane (c : cfg) : prog oid farplane :=
  (do b <- load_vob c ;
   do vob_far_plane_z_ <- p_rd KFloat ;
   do inner_range_percentage_ <- p_rd KFloat ;
   PRet (mk_farplane b vob_far_plane_z_ inner_range_percentage_))%p.
(** vobs/Zone.cc:59-63 *)
Definition save_farplane (c : cfg) (x : farplane) : list (wop oid) :=
  save_vob c (farplane_base x) ++
  [wF "vobFarPlaneZ" (farplane_vob_far_plane_z x); wF "innerRangePerc" (farplane_inner_range_percentage x)].
(** The object with its references renamed. *)
Definition map_farplane (ph : oid -> oid) (x : farplane) : farplane :=
  mk_farplane (map_vob ph (farplane_base x)) (farplane_vob_far_plane_z x) (farplane_inner_range_percentage x).
(** vobs/Zone.hh:100 [VZoneFog] *)
Record fog := mk_fog { fog_base : vob; fog_range_center : N; fog_inner_range_percentage : N; fog_color : color;
  fog_fade_out_sky : bool; fog_override_color : bool }.
(** vobs/Zone.cc:69-79 *)
Definition load_fog (c : cfg) : prog oid fog :=
  (do b <- load_vob c ;
   do range_center_ <- p_rd KFloat ;
   do inner_range_percentage_ <- p_rd KFloat ;
   do color_ <- p_rd KColor ;
   do '(fade_out_sky_, override_color_) <- (if g2 c then (
        do fade_out_sky_ <- p_rd KBool ;
        do override_color_ <- p_rd KBool ;
        PRet (fade_out_sky_, override_color_))%p else PRet (false, false)) ;
   PRet (mk_fog b range_center_ inner_range_percentage_ color_ fade_out_sky_ override_color_))%p.
(** vobs/Zone.cc:81-91 *)
Definition save_fog (c : cfg) (x : fog) : list (wop oid) :=
  save_vob c (fog_base x) ++
  [wF "fogRangeCenter" (fog_range_center x); wF "innerRangePerc" (fog_inner_range_percentage x);
   wC "fogColor" (fog_color x)] ++
  (if g2 c then [wB "fadeOutSky" (fog_fade_out_sky x); wB "overrideColor" (fog_override_color x)] else []).
(** The object with its references renamed. *)
Definition map_fog (ph : oid -> oid) (x : fog) : fog :=
  mk_fog (map_vob ph (fog_base x)) (fog_range_center x) (fog_inner_range_percentage x) (fog_color x)
  (fog_fade_out_sky x) (fog_override_color x).
(** vobs/Camera.hh:120-176 [VCameraTrajectoryFrame]; the pose is 16 floats in memory order (column by column) *)
Record camframe := mk_camframe { camframe_base : vob; camframe_time : N; camframe_roll_angle : N;
  camframe_fov_scale : N; camframe_motion_type : N; camframe_motion_type_fov : N;
  camframe_motion_type_roll : N; camframe_motion_type_time_scale : N; camframe_tension : N;
  camframe_cam_bias : N; camframe_continuity : N; camframe_time_scale : N; camframe_time_fixed : bool;
  camframe_original_pose : mat }.
(** vobs/Camera.cc:13-30 *)
Definition load_camframe (c : cfg) : prog oid camframe :=
  (do b <- load_vob c ;
   do time_ <- p_rd KFloat ;
   do roll_angle_ <- p_rd KFloat ;
   do fov_scale_ <- p_rd KFloat ;
   do motion_type_ <- p_rd KEnum ;
   do motion_type_fov_ <- p_rd KEnum ;
   do motion_type_roll_ <- p_rd KEnum ;
   do motion_type_time_scale_ <- p_rd KEnum ;
   do tension_ <- p_rd KFloat ;
   do cam_bias_ <- p_rd KFloat ;
   do continuity_ <- p_rd KFloat ;
   do time_scale_ <- p_rd KFloat ;
   do time_fixed_ <- p_rd KBool ;
   do original_pose_ <- p_raw 64 read_mat4 ;
   PRet (mk_camframe b time_ roll_angle_ fov_scale_ motion_type_ motion_type_fov_ motion_type_roll_
     motion_type_time_scale_ tension_ cam_bias_ continuity_ time_scale_ time_fixed_ original_pose_))%p.
(** vobs/Camera.cc:32-50: the pose is written as it is in memory *)
Definition save_camframe (c : cfg) (x : camframe) : list (wop oid) :=
  save_vob c (camframe_base x) ++
  [wF "time" (camframe_time x); wF "angleRollDeg" (camframe_roll_angle x);
   wF "camFOVScale" (camframe_fov_scale x); wE "motionType" (camframe_motion_type x);
   wE "motionTypeFOV" (camframe_motion_type_fov x); wE "motionTypeRoll" (camframe_motion_type_roll x);
   wE "motionTypeTimeScale" (camframe_motion_type_time_scale x); wF "tension" (camframe_tension x);
   wF "bias" (camframe_cam_bias x); wF "continuity" (camframe_continuity x);
   wF "timeScale" (camframe_time_scale x); wB "timeIsFixed" (camframe_time_fixed x)] ++
  [wR "originalPose" (words_le (camframe_original_pose x))].
(** The object with its references renamed. *)
Definition map_camframe (ph : oid -> oid) (x : camframe) : camframe :=
  mk_camframe (map_vob ph (camframe_base x)) (camframe_time x) (camframe_roll_angle x)
  (camframe_fov_scale x) (camframe_motion_type x) (camframe_motion_type_fov x) (camframe_motion_type_roll x)
  (camframe_motion_type_time_scale x) (camframe_tension x) (camframe_cam_bias x) (camframe_continuity x)
  (camframe_time_scale x) (camframe_time_fixed x) (camframe_original_pose x).
(** vobs/Camera.cc:75-83: [n] frames. *)
Definition p_frames (n : Z) : prog oid (list (option oid)) := p_rep (Z.to_nat n) (p_obj zCCamTrj_KeyFrame).
(** vobs/Camera.cc:114-120: the first [n] frames; indexing behind the end is undefined. *)
Definition w_frames (n : Z) (l : list (option oid)) : list (wop oid) :=
  map (wO "%") (firstn (Z.to_nat n) l) ++ (if (Z.of_nat (length l) <? n)%Z then [WUndef] else []).
(** vobs/Camera.hh:194-287 [VCutsceneCamera] *)
Record cscamera := mk_cscamera { cscamera_base : vob; cscamera_trajectory_for : N;
  cscamera_target_trajectory_for : N; cscamera_loop_mode : N; cscamera_lerp_mode : N;
  cscamera_ignore_for_vob_rotation : bool; cscamera_ignore_for_vob_rotation_target : bool;
  cscamera_adapt : bool; cscamera_ease_first : bool; cscamera_ease_last : bool; cscamera_total_duration : N;
  cscamera_auto_focus_vob : bytes; cscamera_auto_player_movable : bool; cscamera_auto_untrigger_last : bool;
  cscamera_auto_untrigger_last_delay : N; cscamera_position_count : Z; cscamera_target_count : Z;
  cscamera_trajectory_frames : list (option oid); cscamera_target_frames : list (option oid);
  cscamera_paused : bool; cscamera_started : bool; cscamera_goto_time_mode : bool; cscamera_cs_time : N }.
(** vobs/Camera.cc:56-92 *)
Definition load_cscamera (c : cfg) : prog oid cscamera :=
  (do b <- load_vob c ;
   do trajectory_for_ <- p_rd KEnum ;
   do target_trajectory_for_ <- p_rd KEnum ;
   do loop_mode_ <- p_rd KEnum ;
   do lerp_mode_ <- p_rd KEnum ;
   do ignore_for_vob_rotation_ <- p_rd KBool ;
   do ignore_for_vob_rotation_target_ <- p_rd KBool ;
   do adapt_ <- p_rd KBool ;
   do ease_first_ <- p_rd KBool ;
   do ease_last_ <- p_rd KBool ;
   do total_duration_ <- p_rd KFloat ;
   do auto_focus_vob_ <- p_rd KStr ;
   do auto_player_movable_ <- p_rd KBool ;
   do auto_untrigger_last_ <- p_rd KBool ;
   do auto_untrigger_last_delay_ <- p_rd KFloat ;
   do position_count_ <- p_rd KInt ;
   do target_count_ <- p_rd KInt ;
   do trajectory_frames_ <- p_frames position_count_ ;
   do target_frames_ <- p_frames target_count_ ;
   do '(paused_, started_, goto_time_mode_, cs_time_) <- (if cf_save c && g2 c then (
        do paused_ <- p_rd KBool ;
        do started_ <- p_rd KBool ;
        do goto_time_mode_ <- p_rd KBool ;
        do cs_time_ <- p_rd KFloat ;
        PRet (paused_, started_, goto_time_mode_, cs_time_))%p else PRet (false, false, false, 0)) ;
   PRet (mk_cscamera b trajectory_for_ target_trajectory_for_ loop_mode_ lerp_mode_ ignore_for_vob_rotation_
     ignore_for_vob_rotation_target_ adapt_ ease_first_ ease_last_ total_duration_ auto_focus_vob_
     auto_player_movable_ auto_untrigger_last_ auto_untrigger_last_delay_ position_count_ target_count_
     trajectory_frames_ target_frames_ paused_ started_ goto_time_mode_ cs_time_))%p.
(** vobs/Camera.cc:94-129 *)
Definition save_cscamera (c : cfg) (x : cscamera) : list (wop oid) :=
  save_vob c (cscamera_base x) ++
  [wE "camTrjFOR" (cscamera_trajectory_for x); wE "targetTrjFOR" (cscamera_target_trajectory_for x);
   wE "loopMode" (cscamera_loop_mode x); wE "splLerpMode" (cscamera_lerp_mode x);
   wB "ignoreFORVobRotCam" (cscamera_ignore_for_vob_rotation x);
   wB "ignoreFORVobRotTarget" (cscamera_ignore_for_vob_rotation_target x);
   wB "adaptToSurroundings" (cscamera_adapt x); wB "easeToFirstKey" (cscamera_ease_first x);
   wB "easeFromLastKey" (cscamera_ease_last x); wF "totalTime" (cscamera_total_duration x);
   wS "autoCamFocusVobName" (cscamera_auto_focus_vob x);
   wB "autoCamPlayerMovable" (cscamera_auto_player_movable x);
   wB "autoCamUntriggerOnLastKey" (cscamera_auto_untrigger_last x);
   wF "autoCamUntriggerOnLastKeyDelay" (cscamera_auto_untrigger_last_delay x);
   wI "numPos" (cscamera_position_count x); wI "numTargets" (cscamera_target_count x)] ++
  w_frames (cscamera_position_count x) (cscamera_trajectory_frames x) ++
  w_frames (cscamera_target_count x) (cscamera_target_frames x) ++
  (if cf_save c && g2 c then [wB "paused" (cscamera_paused x); wB "started" (cscamera_started x);
   wB "gotoTimeMode" (cscamera_goto_time_mode x); wF "csTime" (cscamera_cs_time x)] else []).
(** The object with its references renamed. *)
Definition map_cscamera (ph : oid -> oid) (x : cscamera) : cscamera :=
  mk_cscamera (map_vob ph (cscamera_base x)) (cscamera_trajectory_for x) (cscamera_target_trajectory_for x)
  (cscamera_loop_mode x) (cscamera_lerp_mode x) (cscamera_ignore_for_vob_rotation x)
  (cscamera_ignore_for_vob_rotation_target x) (cscamera_adapt x) (cscamera_ease_first x)
  (cscamera_ease_last x) (cscamera_total_duration x) (cscamera_auto_focus_vob x)
  (cscamera_auto_player_movable x) (cscamera_auto_untrigger_last x) (cscamera_auto_untrigger_last_delay x)
  (cscamera_position_count x) (cscamera_target_count x) (map (option_map ph) (cscamera_trajectory_frames x))
  (map (option_map ph) (cscamera_target_frames x)) (cscamera_paused x) (cscamera_started x)
  (cscamera_goto_time_mode x) (cscamera_cs_time x).
(** [std::ostringstream << float] and "%.Pg": [P] significant digits, no trailing zeros.  The
    largest power of ten not above [p / q], searched upwards from [e]. *)
Fixpoint log10_from (fuel : nat) (e : Z) (p q : N) : Z :=
  match fuel with
  | O => e
  | S f =>
      let ge := fun e : Z => if (0 <=? e)%Z then q * 10 ^ Z.to_N e <=? p else q <=? p * 10 ^ Z.to_N (- e) in
      if ge (e + 1)%Z then log10_from f (e + 1)%Z p q else e
  end.
(** [P] digits of the magnitude and the exponent of the first one. *)
Definition g_digits (P : N) (m : N) (e : Z) : N * Z :=
  let p := if (0 <=? e)%Z then m * 2 ^ Z.to_N e else m in
  let q := if (0 <=? e)%Z then 1 else 2 ^ Z.to_N (- e) in
  let X := log10_from 90 (-46) p q in
  let s := (Z.of_N P - 1 - X)%Z in
  let n := if (0 <=? s)%Z then div_rne (p * 10 ^ Z.to_N s) q else div_rne p (q * 10 ^ Z.to_N (- s)) in
  if n =? 10 ^ P then (10 ^ (P - 1), (X + 1)%Z) else (n, X).
Definition strip_zeros (s : bytes) : bytes := rev (drop_while (beq x30) (rev s)).
Definition with_point (a b : bytes) : bytes := match b with [] => a | _ => a ++ [x2e] ++ b end.
Definition show_g (P : N) (x : N) : bytes :=
  let sgn := if f_sign x then [x2d] else [] in
  if f_exp x =? 255 then sgn ++ (if f_man x =? 0 then lit "inf" else lit "nan")
  else if (f_exp x =? 0) && (f_man x =? 0) then sgn ++ lit "0"
  else
    let (m, e) := f_mag x in
    let (n, X) := g_digits P m e in
    let ds := dec n in
    sgn ++
    (if ((-4 <=? X) && (X <? Z.of_N P))%Z then
       if (0 <=? X)%Z then
         with_point (take (Z.to_N X + 1) ds) (strip_zeros (drop (Z.to_N X + 1) ds))
       else with_point (lit "0") (repeat x30 (Z.to_nat (- X - 1)) ++ strip_zeros ds)
     else
       with_point (take 1 ds) (strip_zeros (drop 1 ds)) ++ lit "e" ++
       [if (X <? 0)%Z then x2d else x2b] ++ pad_left 2 (dec (Z.to_N (Z.abs X)))).

(** vobs/Light.cc:34-38: [while (ranges >> value)] *)
Fixpoint stream_list (fuel : nat) (s : bytes) : list N :=
  match fuel with
  | O => []
  | S f => match stream_float s with
           | (v, Some rest) => v :: stream_list f rest
           | (_, None) => []
           end
  end.
Definition read_ranges (s : bytes) : list N := stream_list (S (length s)) s.
(** [stream >> uint32_t]: the new value of the variable, and the rest unless it failed. *)
Definition stream_u32 (s : bytes) : N * option bytes :=
  match scan_int s with
  | None => (0, None)
  | Some (z, rest) => if (Z.abs z <? 2 ^ 32)%Z then (uint 32 z, Some rest) else (2 ^ 32 - 1, None)
  end.
(** The three numbers of vobs/Light.cc:54, [None] while uninitialised. *)
Definition nums := (option N * option N * option N)%type.
(** vobs/Light.cc:67: [colors >> cr >> cg >> cb >> c]; the rest is [None] after a failure. *)
Definition stream_rgb (v : nums) (s : bytes) : nums * option bytes :=
  let '(r, g, b) := v in
  match stream_u32 s with
  | (r', None) => ((Some r', g, b), None)
  | (r', Some s1) =>
      match stream_u32 s1 with
      | (g', None) => ((Some r', Some g', b), None)
      | (g', Some s2) =>
          match stream_u32 s2 with
          | (b', None) => ((Some r', Some g', Some b'), None)
          | (b', Some s3) =>
              ((Some r', Some g', Some b'), match drop_while is_ws s3 with [] => None | _ :: s4 => Some s4 end)
          end
      end
  end.
(** vobs/Light.cc:53-74.  Only the low bytes of the numbers are kept (Misc.hh [Color]); using an
    uninitialised one is undefined behaviour. *)
Fixpoint stream_colors (fuel : nat) (v : nums) (s : bytes) : outcome (list color) :=
  match fuel with
  | O => Fuel
  | S f =>
      match drop_while is_ws s with
      | [] => Ret []
      | ch :: s1 =>
          let next := fun v col rest =>
            match rest with
            | None => Ret [col]
            | Some r => obind (stream_colors f v r) (fun l => Ret (col :: l))
            end in
          if is_digit ch then
            let (r, rest) := stream_u32 (ch :: s1) in
            next (Some r, snd (fst v), snd v) (mkColor (u8 r) (u8 r) (u8 r) 255) rest
          else
            match stream_rgb v s1 with
            | ((Some r, Some g, Some b) as v', rest) => next v' (mkColor (u8 r) (u8 g) (u8 b) 255) rest
            | _ => Undef
            end
      end
  end.
Definition read_colors (s : bytes) : outcome (list color) := stream_colors (S (length s)) (None, None, None) s.
(** vobs/Light.cc:95-99 and 104-109: [os.clear()] resets the state of the stream, not its
    text, so the list of colors begins with the text of the list of ranges. *)
Definition show_ranges (l : list N) : bytes := flat_map (fun r => show_g 6 r ++ [x20]) l.
Definition show_color (c : color) : bytes :=
  lit "(" ++ dec (c_r c) ++ [x20] ++ dec (c_g c) ++ [x20] ++ dec (c_b c) ++ lit ") ".
Definition show_colors (l : list color) : bytes := flat_map show_color l.

(** vobs/Light.hh:95-140: what only a light that is not static has. *)
Record dynlight := mkDyn {
  dl_on : bool; dl_ranges : list N; dl_range_fps : N; dl_range_smooth : bool;
  dl_colors : list color; dl_color_fps : N; dl_color_smooth : bool; dl_can_move : bool }.
(** The initial values. *)
Definition dyn_default : dynlight := mkDyn false [] 0 true [] 0 true true.
(** vobs/Light.cc:25-79 *)
Definition load_dyn (c : cfg) : prog oid dynlight :=
  (do on <- p_rd KBool ;
   do ranges <- p_rd KStr ;
   do range_fps <- p_rd KFloat ;
   do range_smooth <- p_rd KBool ;
   do cal <- p_rd KStr ;
   do color_fps <- p_rd KFloat ;
   do color_smooth <- p_rd KBool ;
   do colors <- p_lift (read_colors cal) ;
   do can_move <- (if g2 c then p_rd KBool else PRet true) ;
   PRet (mkDyn on (read_ranges ranges) range_fps range_smooth colors color_fps color_smooth can_move))%p.
(** vobs/Light.cc:92-117 *)
Definition save_dyn (c : cfg) (d : dynlight) : list (wop oid) :=
  [wB "turnedOn" (dl_on d); wS "rangeAniScale" (show_ranges (dl_ranges d)); wF "rangeAniFPS" (dl_range_fps d);
   wB "rangeAniSmooth" (dl_range_smooth d);
   wS "colorAniList" (show_ranges (dl_ranges d) ++ show_colors (dl_colors d));
   wF "colorAniFPS" (dl_color_fps d); wB "colorAniSmooth" (dl_color_smooth d)] ++
  (if g2 c then [wB "canMove" (dl_can_move d)] else []).
(** vobs/Light.hh:42-141 [LightPreset] and 161 [VLight] *)
Record light := mk_light { light_base : vob; light_preset : bytes; light_light_type : N; light_range : N;
  light_color : color; light_cone_angle : N; light_is_static : bool; light_quality : N;
  light_lensflare_fx : bytes; light_dyn : dynlight }.
(** vobs/Light.cc:15-80 and 130-133 *)
Definition load_light (c : cfg) : prog oid light :=
  (do b <- load_vob c ;
   do preset_ <- p_rd KStr ;
   do light_type_ <- p_rd KEnum ;
   do range_ <- p_rd KFloat ;
   do color_ <- p_rd KColor ;
   do cone_angle_ <- p_rd KFloat ;
   do is_static_ <- p_rd KBool ;
   do quality_ <- p_rd KEnum ;
   do lensflare_fx_ <- p_rd KStr ;
   do dyn_ <- (if is_static_ then PRet dyn_default else load_dyn c) ;
   PRet (mk_light b preset_ light_type_ range_ color_ cone_angle_ is_static_ quality_ lensflare_fx_ dyn_))%p.
(** vobs/Light.cc:82-118 and 135-138 *)
Definition save_light (c : cfg) (x : light) : list (wop oid) :=
  save_vob c (light_base x) ++
  [wS "lightPresetInUse" (light_preset x); wE "lightType" (light_light_type x); wF "range" (light_range x);
   wC "color" (light_color x); wF "spotConeAngle" (light_cone_angle x);
   wB "lightStatic" (light_is_static x); wE "lightQuality" (light_quality x);
   wS "lensflareFX" (light_lensflare_fx x)] ++
  (if light_is_static x then [] else save_dyn c (light_dyn x)).
(** The object with its references renamed. *)
Definition map_light (ph : oid -> oid) (x : light) : light :=
  mk_light (map_vob ph (light_base x)) (light_preset x) (light_light_type x) (light_range x) (light_color x)
  (light_cone_angle x) (light_is_static x) (light_quality x) (light_lensflare_fx x) (light_dyn x).
(** vobs/Misc.hh:78-84 [VAnimate] *)
Record animate := mk_animate { animate_base : vob; animate_start_on : bool; animate_s_is_running : bool }.
(** vobs/Misc.cc:15-24 *)
Definition load_animate (c : cfg) : prog oid animate :=
  (do b <- load_vob c ;
   do start_on_ <- p_rd KBool ;
   do s_is_running_ <- (if cf_save c then (
        do s_is_running_ <- p_rd KBool ;
        PRet s_is_running_)%p else PRet start_on_) ;
   PRet (mk_animate b start_on_ s_is_running_))%p.
(** vobs/Misc.cc:26-33 *)
Definition save_animate (c : cfg) (x : animate) : list (wop oid) :=
  save_vob c (animate_base x) ++
  [wB "startOn" (animate_start_on x)] ++
  (if cf_save c then [wB "isRunning" (animate_s_is_running x)] else []).
(** The object with its references renamed. *)
Definition map_animate (ph : oid -> oid) (x : animate) : animate :=
  mk_animate (map_vob ph (animate_base x)) (animate_start_on x) (animate_s_is_running x).
(** vobs/Misc.hh:107 [VItem] *)
Record item := mk_item { item_base : vob; item_instance : bytes; item_s_amount : Z; item_s_flags : Z }.
(** vobs/Misc.cc:39-48 *)
Definition load_item (c : cfg) : prog oid item :=
  (do b <- load_vob c ;
   do instance_ <- p_rd KStr ;
   do '(s_amount_, s_flags_) <- (if cf_save c then (
        do s_amount_ <- p_rd KInt ;
        do s_flags_ <- p_rd KInt ;
        PRet (s_amount_, s_flags_))%p else PRet (0%Z, 0%Z)) ;
   PRet (mk_item b instance_ s_amount_ s_flags_))%p.
(** vobs/Misc.cc:50-58 *)
Definition save_item (c : cfg) (x : item) : list (wop oid) :=
  save_vob c (item_base x) ++
  [wS "itemInstance" (item_instance x)] ++
  (if cf_save c then [wI "amount" (item_s_amount x); wI "flags" (item_s_flags x)] else []).
(** The object with its references renamed. *)
Definition map_item (ph : oid -> oid) (x : item) : item :=
  mk_item (map_vob ph (item_base x)) (item_instance x) (item_s_amount x) (item_s_flags x).
(** vobs/Misc.hh:135 [VLensFlare] *)
Record lensflare := mk_lensflare { lensflare_base : vob; lensflare_fx : bytes }.
(** vobs/Misc.cc:68-71 *)
Definition load_lensflare (c : cfg) : prog oid lensflare :=
  (do b <- load_vob c ;
   do fx_ <- p_rd KStr ;
   PRet (mk_lensflare b fx_))%p.
(** vobs/Misc.cc:73-76 *)
Definition save_lensflare (c : cfg) (x : lensflare) : list (wop oid) :=
  save_vob c (lensflare_base x) ++
  [wS "lensflareFX" (lensflare_fx x)].
(** The object with its references renamed. *)
Definition map_lensflare (ph : oid -> oid) (x : lensflare) : lensflare :=
  mk_lensflare (map_vob ph (lensflare_base x)) (lensflare_fx x).
(** vobs/Misc.hh:165 [VParticleEffectController] *)
Record pfxctl := mk_pfxctl { pfxctl_base : vob; pfxctl_pfx_name : bytes; pfxctl_kill_when_done : bool; pfxctl_initially_running : bool }.
(** vobs/Misc.cc:86-91 *)
Definition load_pfxctl (c : cfg) : prog oid pfxctl :=
  (do b <- load_vob c ;
   do pfx_name_ <- p_rd KStr ;
   do kill_when_done_ <- p_rd KBool ;
   do initially_running_ <- p_rd KBool ;
   PRet (mk_pfxctl b pfx_name_ kill_when_done_ initially_running_))%p.
(** vobs/Misc.cc:93-98 *)
Definition save_pfxctl (c : cfg) (x : pfxctl) : list (wop oid) :=
  save_vob c (pfxctl_base x) ++
  [wS "pfxName" (pfxctl_pfx_name x); wB "killVobWhenDone" (pfxctl_kill_when_done x);
   wB "pfxStartOn" (pfxctl_initially_running x)].
(** The object with its references renamed. *)
Definition map_pfxctl (ph : oid -> oid) (x : pfxctl) : pfxctl :=
  mk_pfxctl (map_vob ph (pfxctl_base x)) (pfxctl_pfx_name x) (pfxctl_kill_when_done x) (pfxctl_initially_running x).
(** vobs/Misc.hh:200 [VMessageFilter] *)
Record msgfilter := mk_msgfilter { msgfilter_base : vob; msgfilter_target : bytes; msgfilter_on_trigger : N; msgfilter_on_untrigger : N }.
(** vobs/Misc.cc:104-109 *)
Definition load_msgfilter (c : cfg) : prog oid msgfilter :=
  (do b <- load_vob c ;
   do target_ <- p_rd KStr ;
   do on_trigger_ <- p_rd KEnum ;
   do on_untrigger_ <- p_rd KEnum ;
   PRet (mk_msgfilter b target_ on_trigger_ on_untrigger_))%p.
(** vobs/Misc.cc:111-116 *)
Definition save_msgfilter (c : cfg) (x : msgfilter) : list (wop oid) :=
  save_vob c (msgfilter_base x) ++
  [wS "triggerTarget" (msgfilter_target x); wE "onTrigger" (msgfilter_on_trigger x);
   wE "onUntrigger" (msgfilter_on_untrigger x)].
(** The object with its references renamed. *)
Definition map_msgfilter (ph : oid -> oid) (x : msgfilter) : msgfilter :=
  mk_msgfilter (map_vob ph (msgfilter_base x)) (msgfilter_target x) (msgfilter_on_trigger x) (msgfilter_on_untrigger x).
(** [r.skip_object(false)] [n] times *)
Fixpoint p_skips (n : nat) : prog oid unit :=
  match n with O => PRet tt | S n' => PSkip false (p_skips n') end.
(** vobs/Misc.hh:242-290 [VCodeMaster] *)
Record codemaster := mk_codemaster { codemaster_base : vob; codemaster_target : bytes;
  codemaster_ordered : bool; codemaster_first_false_is_failure : bool; codemaster_failure_target : bytes;
  codemaster_untriggered_cancels : bool; codemaster_slaves : list bytes;
  codemaster_s_num_triggered_slaves : N }.
(** vobs/Misc.cc:126-148 *)
Definition load_codemaster (c : cfg) : prog oid codemaster :=
  (do b <- load_vob c ;
   do target_ <- p_rd KStr ;
   do ordered_ <- p_rd KBool ;
   do first_false_is_failure_ <- p_rd KBool ;
   do failure_target_ <- p_rd KStr ;
   do untriggered_cancels_ <- p_rd KBool ;
   do slaves_ <- (do n <- p_rd KByte ; p_rep (N.to_nat n) (p_rd KStr))%p ;
   do s_num_triggered_slaves_ <- (if cf_save c && g2 c then (do n <- p_rd KByte ; do _ <- p_skips (length slaves_) ; PRet n)%p else PRet 0) ;
   PRet (mk_codemaster b target_ ordered_ first_false_is_failure_ failure_target_ untriggered_cancels_
     slaves_ s_num_triggered_slaves_))%p.
(** vobs/Misc.cc:150-166: as many names as the converted number says, nothing for save games *)
Definition save_codemaster (c : cfg) (x : codemaster) : list (wop oid) :=
  save_vob c (codemaster_base x) ++
  [wS "triggerTarget" (codemaster_target x); wB "orderRelevant" (codemaster_ordered x);
   wB "firstFalseIsFailure" (codemaster_first_false_is_failure x);
   wS "triggerTargetFailure" (codemaster_failure_target x);
   wB "untriggerCancels" (codemaster_untriggered_cancels x)] ++
  wY "numSlaves" (u8 (len (codemaster_slaves x))) :: map (fun p => WEntry (numbered "slaveVobName" (fst p)) (EStr (snd p))) (indexed 0 (take (N.land (len (codemaster_slaves x)) 255) (codemaster_slaves x))) ++
  [].
(** The object with its references renamed. *)
Definition map_codemaster (ph : oid -> oid) (x : codemaster) : codemaster :=
  mk_codemaster (map_vob ph (codemaster_base x)) (codemaster_target x) (codemaster_ordered x)
  (codemaster_first_false_is_failure x) (codemaster_failure_target x) (codemaster_untriggered_cancels x)
  (codemaster_slaves x) (codemaster_s_num_triggered_slaves x).
(** vobs/Misc.hh:303 [VMoverController] *)
Record movctl := mk_movctl { movctl_base : vob; movctl_target : bytes; movctl_message : N; movctl_key : Z }.
(** vobs/Misc.cc:176-181 *)
Definition load_movctl (c : cfg) : prog oid movctl :=
  (do b <- load_vob c ;
   do target_ <- p_rd KStr ;
   do message_ <- p_rd KEnum ;
   do key_ <- p_rd KInt ;
   PRet (mk_movctl b target_ message_ key_))%p.
(** vobs/Misc.cc:183-188 *)
Definition save_movctl (c : cfg) (x : movctl) : list (wop oid) :=
  save_vob c (movctl_base x) ++
  [wS "triggerTarget" (movctl_target x); wE "moverMessage" (movctl_message x);
   wI "gotoFixedKey" (movctl_key x)].
(** The object with its references renamed. *)
Definition map_movctl (ph : oid -> oid) (x : movctl) : movctl :=
  mk_movctl (map_vob ph (movctl_base x)) (movctl_target x) (movctl_message x) (movctl_key x).
(** vobs/Misc.hh:336 [VTouchDamage] *)
Record touchdmg := mk_touchdmg { touchdmg_base : vob; touchdmg_damage : N; touchdmg_barrier : bool; touchdmg_blunt : bool;
  touchdmg_edge : bool; touchdmg_fire : bool; touchdmg_fly : bool; touchdmg_magic : bool;
  touchdmg_point : bool; touchdmg_fall : bool; touchdmg_repeat_delay_sec : N; touchdmg_volume_scale : N;
  touchdmg_collision : N }.
(** vobs/Misc.cc:198-212 *)
Definition load_touchdmg (c : cfg) : prog oid touchdmg :=
  (do b <- load_vob c ;
   do damage_ <- p_rd KFloat ;
   do barrier_ <- p_rd KBool ;
   do blunt_ <- p_rd KBool ;
   do edge_ <- p_rd KBool ;
   do fire_ <- p_rd KBool ;
   do fly_ <- p_rd KBool ;
   do magic_ <- p_rd KBool ;
   do point_ <- p_rd KBool ;
   do fall_ <- p_rd KBool ;
   do repeat_delay_sec_ <- p_rd KFloat ;
   do volume_scale_ <- p_rd KFloat ;
   do collision_ <- p_rd KEnum ;
   PRet (mk_touchdmg b damage_ barrier_ blunt_ edge_ fire_ fly_ magic_ point_ fall_ repeat_delay_sec_ volume_scale_ collision_))%p.
(** vobs/Misc.cc:214-228 *)
Definition save_touchdmg (c : cfg) (x : touchdmg) : list (wop oid) :=
  save_vob c (touchdmg_base x) ++
  [wF "damage" (touchdmg_damage x); wB "Barrier" (touchdmg_barrier x); wB "Blunt" (touchdmg_blunt x);
   wB "Edge" (touchdmg_edge x); wB "Fire" (touchdmg_fire x); wB "Fly" (touchdmg_fly x);
   wB "Magic" (touchdmg_magic x); wB "Point" (touchdmg_point x); wB "Fall" (touchdmg_fall x);
   wF "damageRepeatDelaySec" (touchdmg_repeat_delay_sec x);
   wF "damageVolDownScale" (touchdmg_volume_scale x); wE "damageCollType" (touchdmg_collision x)].
(** The object with its references renamed. *)
Definition map_touchdmg (ph : oid -> oid) (x : touchdmg) : touchdmg :=
  mk_touchdmg (map_vob ph (touchdmg_base x)) (touchdmg_damage x) (touchdmg_barrier x) (touchdmg_blunt x)
  (touchdmg_edge x) (touchdmg_fire x) (touchdmg_fly x) (touchdmg_magic x) (touchdmg_point x)
  (touchdmg_fall x) (touchdmg_repeat_delay_sec x) (touchdmg_volume_scale x) (touchdmg_collision x).
(** vobs/Misc.hh:411 [VEarthquake] *)
Record quake := mk_quake { quake_base : vob; quake_radius : N; quake_duration : N; quake_amplitude : vec3 }.
(** vobs/Misc.cc:238-243 *)
Definition load_quake (c : cfg) : prog oid quake :=
  (do b <- load_vob c ;
   do radius_ <- p_rd KFloat ;
   do duration_ <- p_rd KFloat ;
   do amplitude_ <- p_rd KVec3 ;
   PRet (mk_quake b radius_ duration_ amplitude_))%p.
(** vobs/Misc.cc:245-250 *)
Definition save_quake (c : cfg) (x : quake) : list (wop oid) :=
  save_vob c (quake_base x) ++
  [wF "radius" (quake_radius x); wF "timeSec" (quake_duration x); wV3 "amplitudeCM" (quake_amplitude x)].
(** The object with its references renamed. *)
Definition map_quake (ph : oid -> oid) (x : quake) : quake :=
  mk_quake (map_vob ph (quake_base x)) (quake_radius x) (quake_duration x) (quake_amplitude x).
(** vobs/Misc.hh:607 [VScreenEffect]: nothing but a [VirtualObject] *)
Definition fx_count (c : cfg) : N := if g2 c then 12 else 5.
(** vobs/Misc.hh:607-612 [VScreenEffect] *)
Record screenfx := mk_screenfx { screenfx_base : vob }.
(** vobs/Misc.cc:601-612: five values of a save game are read and dropped *)
Definition load_screenfx (c : cfg) : prog oid screenfx :=
  (do b <- load_vob c ;
   do _ <- (if cf_save c then (
        do _ <- p_rd (KRaw (fx_count c * 4)) ;
        do _ <- p_rd (KRaw (fx_count c * 4)) ;
        do _ <- p_rd (KRaw (fx_count c * 4)) ;
        do _ <- p_rd KVec2 ;
        do _ <- p_rd KVec2 ;
        PRet tt)%p else PRet tt) ;
   PRet (mk_screenfx b))%p.
(** vobs/Misc.cc:614-627 *)
Definition save_screenfx (c : cfg) (x : screenfx) : list (wop oid) :=
  save_vob c (screenfx_base x) ++
  (if cf_save c then [wR "blend" (zeros (fx_count c * 4))] ++
  [wR "cinema" (zeros (fx_count c * 4))] ++
  [wR "fovMorph" (zeros (fx_count c * 4))] ++
  [wV2 "fovSaved" (mkV2 0 0)] ++
  [wV2 "fovSaved1st" (mkV2 0 0)] else []).
(** The object with its references renamed. *)
Definition map_screenfx (ph : oid -> oid) (x : screenfx) : screenfx :=
  mk_screenfx (map_vob ph (screenfx_base x)).
