(** addon/daedalus.cc and addon/daedalus.hh: the C++ classes that the bundled script classes are
    bound to.  The tables are transcribed from the two files, one line for each field and for each
    registration. *)

From Coq Require Import String.
From Verif Require Import MBase MStream MDaedalus.
Local Open Scope N_scope.

(** ** The layout of a C++ class *)
(** A field: its name, its type (as in [check_member] of MDaedalus.v: 0 [std::string], 1 [float],
    2 a 32-bit integer or enumeration, 3 a [std::vector]) and its number of elements. *)
Record field := mkField { fd_name : string; fd_ty : N; fd_n : N }.
(** Sizes and alignments of the x86-64 ABI with libstdc++. *)
Definition ty_size (t : N) : N := if t =? 0 then 32 else if t =? 3 then 24 else 4.
Definition ty_align (t : N) : N := if (t =? 0) || (t =? 3) then 8 else 4.
(** DaedalusScript.hh:273-309: a table of virtual functions, [user_ptr], [_m_symbol_index] and
    [_m_type]. *)
Definition base_size : N := 32.
Fixpoint find_field (off : N) (fs : list field) (name : string) : option (N * N * N) :=
  match fs with
  | [] => None
  | f :: r =>
      let o := (off + (ty_align (fd_ty f) - 1)) / ty_align (fd_ty f) * ty_align (fd_ty f) in
      if String.eqb (fd_name f) name then Some (o, fd_ty f, fd_n f)
      else find_field (o + fd_n f * ty_size (fd_ty f)) r name
  end.

(** ** Registration *)
(** A registration, or registrations made if a symbol exists. *)
Inductive reg := Reg (sym fld : string) | When (guard : string) (l : list (string * string)).
Record klass_reg := mkKlass { k_id : N; k_sym : string; k_fields : list field; k_regs : list reg }.
Section Register.
  Context (names : list (bytes * N)).
  Definition register_field (k : klass_reg) (sf : string * string) (l : list sym) : list sym * outcome unit :=
    match find_field base_size (k_fields k) (snd sf) with
    | Some (off, ty, n) => register_member l names ty n (lit (fst sf)) (k_id k) off
    | None => (l, Undef)
    end.
  Fixpoint in_turn {A} (step : A -> list sym -> list sym * outcome unit) (xs : list A) (l : list sym) : list sym * outcome unit :=
    match xs with
    | [] => (l, Ret tt)
    | x :: r => match step x l with (l', Ret _) => in_turn step r l' | (l', o) => (l', o) end
    end.
  Definition register_reg (k : klass_reg) (r : reg) (l : list sym) : list sym * outcome unit :=
    match r with
    | Reg s f => register_field k (s, f) l
    | When g m => match find_by_name names (lit g) with
                  | Some _ => in_turn (register_field k) m l
                  | None => (l, Ret tt)
                  end
    end.
  (** addon/daedalus.cc:7-12, 15-37 *)
  Definition register_class (k : klass_reg) (l : list sym) : list sym * outcome unit :=
    match find_by_name names (lit (k_sym k)) with
    | Some _ => in_turn (register_reg k) (k_regs k) l
    | None => (l, Ret tt)
    end.
End Register.

(** ** The tables *)

(** addon/daedalus.hh:22-58 *)
Definition fields_IGuildValues : list field := map (fun '(s, t, n) => mkField s t n) [
  ("water_depth_knee", 2, 66); ("water_depth_chest", 2, 66); ("jumpup_height", 2, 66); ("swim_time", 2, 66);
  ("dive_time", 2, 66); ("step_height", 2, 66); ("jumplow_height", 2, 66); ("jumpmid_height", 2, 66);
  ("slide_angle", 2, 66); ("slide_angle2", 2, 66); ("disable_autoroll", 2, 66); ("surface_align", 2, 66);
  ("climb_heading_angle", 2, 66); ("climb_horiz_angle", 2, 66); ("climb_ground_angle", 2, 66);
  ("fight_range_base", 2, 66); ("fight_range_fist", 2, 66); ("fight_range_g", 2, 66);
  ("fight_range_1hs", 2, 66); ("fight_range_1ha", 2, 66); ("fight_range_2hs", 2, 66);
  ("fight_range_2ha", 2, 66); ("falldown_height", 2, 66); ("falldown_damage", 2, 66);
  ("blood_disabled", 2, 66); ("blood_max_distance", 2, 66); ("blood_amount", 2, 66); ("blood_flow", 2, 66);
  ("blood_emitter", 0, 66); ("blood_texture", 0, 66); ("turn_speed", 2, 66)]%string.
(** addon/daedalus.cc:44-81 *)
Definition regs_IGuildValues : list reg := [
  Reg "C_GILVALUES.WATER_DEPTH_KNEE" "water_depth_knee";
  Reg "C_GILVALUES.WATER_DEPTH_CHEST" "water_depth_chest";
  Reg "C_GILVALUES.JUMPUP_HEIGHT" "jumpup_height";
  Reg "C_GILVALUES.SWIM_TIME" "swim_time";
  Reg "C_GILVALUES.DIVE_TIME" "dive_time";
  Reg "C_GILVALUES.STEP_HEIGHT" "step_height";
  Reg "C_GILVALUES.JUMPLOW_HEIGHT" "jumplow_height";
  Reg "C_GILVALUES.JUMPMID_HEIGHT" "jumpmid_height";
  Reg "C_GILVALUES.SLIDE_ANGLE" "slide_angle";
  Reg "C_GILVALUES.SLIDE_ANGLE2" "slide_angle2";
  Reg "C_GILVALUES.DISABLE_AUTOROLL" "disable_autoroll";
  Reg "C_GILVALUES.SURFACE_ALIGN" "surface_align";
  Reg "C_GILVALUES.CLIMB_HEADING_ANGLE" "climb_heading_angle";
  Reg "C_GILVALUES.CLIMB_HORIZ_ANGLE" "climb_horiz_angle";
  Reg "C_GILVALUES.CLIMB_GROUND_ANGLE" "climb_ground_angle";
  Reg "C_GILVALUES.FIGHT_RANGE_BASE" "fight_range_base";
  Reg "C_GILVALUES.FIGHT_RANGE_FIST" "fight_range_fist";
  Reg "C_GILVALUES.FIGHT_RANGE_1HS" "fight_range_1hs";
  Reg "C_GILVALUES.FIGHT_RANGE_1HA" "fight_range_1ha";
  Reg "C_GILVALUES.FIGHT_RANGE_2HS" "fight_range_2hs";
  Reg "C_GILVALUES.FIGHT_RANGE_2HA" "fight_range_2ha";
  Reg "C_GILVALUES.FALLDOWN_HEIGHT" "falldown_height";
  Reg "C_GILVALUES.FALLDOWN_DAMAGE" "falldown_damage";
  Reg "C_GILVALUES.BLOOD_DISABLED" "blood_disabled";
  Reg "C_GILVALUES.BLOOD_MAX_DISTANCE" "blood_max_distance";
  Reg "C_GILVALUES.BLOOD_AMOUNT" "blood_amount";
  Reg "C_GILVALUES.BLOOD_FLOW" "blood_flow";
  Reg "C_GILVALUES.BLOOD_EMITTER" "blood_emitter";
  Reg "C_GILVALUES.BLOOD_TEXTURE" "blood_texture";
  Reg "C_GILVALUES.TURN_SPEED" "turn_speed";
  When "C_GILVALUES.FIGHT_RANGE_G" [("C_GILVALUES.FIGHT_RANGE_G", "fight_range_g")]
  ]%string.
(** addon/daedalus.hh:178-219 *)
Definition fields_INpc : list field := map (fun '(s, t, n) => mkField s t n) [
  ("id", 2, 1); ("name", 0, 5); ("slot", 0, 1); ("effect", 0, 1); ("type", 2, 1); ("flags", 2, 1);
  ("attribute", 2, 8); ("hitchance", 2, 5); ("protection", 2, 8); ("damage", 2, 8); ("damage_type", 2, 1);
  ("guild", 2, 1); ("level", 2, 1); ("mission", 2, 5); ("fight_tactic", 2, 1); ("weapon", 2, 1);
  ("voice", 2, 1); ("voice_pitch", 2, 1); ("body_mass", 2, 1); ("daily_routine", 2, 1);
  ("start_aistate", 2, 1); ("spawnpoint", 0, 1); ("spawn_delay", 2, 1); ("senses", 2, 1);
  ("senses_range", 2, 1); ("aivar", 2, 100); ("wp", 0, 1); ("exp", 2, 1); ("exp_next", 2, 1); ("lp", 2, 1);
  ("bodystate_interruptable_override", 2, 1); ("no_focus", 2, 1)]%string.
(** addon/daedalus.cc:148-190 *)
Definition regs_INpc : list reg := [
  Reg "C_NPC.ID" "id";
  Reg "C_NPC.NAME" "name";
  Reg "C_NPC.SLOT" "slot";
  Reg "C_NPC.NPCTYPE" "type";
  Reg "C_NPC.FLAGS" "flags";
  Reg "C_NPC.ATTRIBUTE" "attribute";
  Reg "C_NPC.PROTECTION" "protection";
  Reg "C_NPC.DAMAGE" "damage";
  Reg "C_NPC.DAMAGETYPE" "damage_type";
  Reg "C_NPC.GUILD" "guild";
  Reg "C_NPC.LEVEL" "level";
  Reg "C_NPC.MISSION" "mission";
  Reg "C_NPC.FIGHT_TACTIC" "fight_tactic";
  Reg "C_NPC.WEAPON" "weapon";
  Reg "C_NPC.VOICE" "voice";
  Reg "C_NPC.VOICEPITCH" "voice_pitch";
  Reg "C_NPC.BODYMASS" "body_mass";
  Reg "C_NPC.DAILY_ROUTINE" "daily_routine";
  Reg "C_NPC.START_AISTATE" "start_aistate";
  Reg "C_NPC.SPAWNPOINT" "spawnpoint";
  Reg "C_NPC.SPAWNDELAY" "spawn_delay";
  Reg "C_NPC.SENSES" "senses";
  Reg "C_NPC.SENSES_RANGE" "senses_range";
  Reg "C_NPC.AIVAR" "aivar";
  Reg "C_NPC.WP" "wp";
  Reg "C_NPC.EXP" "exp";
  Reg "C_NPC.EXP_NEXT" "exp_next";
  Reg "C_NPC.LP" "lp";
  When "C_NPC.HITCHANCE" [("C_NPC.HITCHANCE", "hitchance"); ("C_NPC.BODYSTATEINTERRUPTABLEOVERRIDE", "bodystate_interruptable_override"); ("C_NPC.NOFOCUS", "no_focus")];
  When "C_NPC.EFFECT" [("C_NPC.EFFECT", "effect")]
  ]%string.
(** addon/daedalus.hh:221-237 *)
Definition fields_IMission : list field := map (fun '(s, t, n) => mkField s t n) [
  ("name", 0, 1); ("description", 0, 1); ("duration", 2, 1); ("important", 2, 1); ("offer_conditions", 2, 1);
  ("offer", 2, 1); ("success_conditions", 2, 1); ("success", 2, 1); ("failure_conditions", 2, 1);
  ("failure", 2, 1); ("obsolete_conditions", 2, 1); ("obsolete", 2, 1); ("running", 2, 1)]%string.
(** addon/daedalus.cc:192-207 *)
Definition regs_IMission : list reg := [
  Reg "C_MISSION.NAME" "name";
  Reg "C_MISSION.DESCRIPTION" "description";
  Reg "C_MISSION.DURATION" "duration";
  Reg "C_MISSION.IMPORTANT" "important";
  Reg "C_MISSION.OFFERCONDITIONS" "offer_conditions";
  Reg "C_MISSION.OFFER" "offer";
  Reg "C_MISSION.SUCCESSCONDITIONS" "success_conditions";
  Reg "C_MISSION.SUCCESS" "success";
  Reg "C_MISSION.FAILURECONDITIONS" "failure_conditions";
  Reg "C_MISSION.FAILURE" "failure";
  Reg "C_MISSION.OBSOLETECONDITIONS" "obsolete_conditions";
  Reg "C_MISSION.OBSOLETE" "obsolete";
  Reg "C_MISSION.RUNNING" "running"
  ]%string.
(** addon/daedalus.hh:266-317 *)
Definition fields_IItem : list field := map (fun '(s, t, n) => mkField s t n) [
  ("id", 2, 1); ("name", 0, 1); ("name_id", 0, 1); ("hp", 2, 1); ("hp_max", 2, 1); ("main_flag", 2, 1);
  ("flags", 2, 1); ("weight", 2, 1); ("value", 2, 1); ("damage_type", 2, 1); ("damage_total", 2, 1);
  ("damage", 2, 8); ("wear", 2, 1); ("protection", 2, 8); ("nutrition", 2, 1); ("cond_atr", 2, 3);
  ("cond_value", 2, 3); ("change_atr", 2, 3); ("change_value", 2, 3); ("magic", 2, 1); ("on_equip", 2, 1);
  ("on_unequip", 2, 1); ("on_state", 2, 4); ("owner", 2, 1); ("owner_guild", 2, 1); ("disguise_guild", 2, 1);
  ("visual", 0, 1); ("visual_change", 0, 1); ("effect", 0, 1); ("visual_skin", 2, 1); ("scheme_name", 0, 1);
  ("material", 2, 1); ("munition", 2, 1); ("spell", 2, 1); ("range", 2, 1); ("mag_circle", 2, 1);
  ("description", 0, 1); ("text", 0, 6); ("count", 2, 6); ("inv_zbias", 2, 1); ("inv_rot_x", 2, 1);
  ("inv_rot_y", 2, 1); ("inv_rot_z", 2, 1); ("inv_animate", 2, 1)]%string.
(** addon/daedalus.cc:209-263 *)
Definition regs_IItem : list reg := [
  Reg "C_ITEM.ID" "id";
  Reg "C_ITEM.NAME" "name";
  Reg "C_ITEM.NAMEID" "name_id";
  Reg "C_ITEM.HP" "hp";
  Reg "C_ITEM.HP_MAX" "hp_max";
  Reg "C_ITEM.MAINFLAG" "main_flag";
  Reg "C_ITEM.FLAGS" "flags";
  Reg "C_ITEM.WEIGHT" "weight";
  Reg "C_ITEM.VALUE" "value";
  Reg "C_ITEM.DAMAGETYPE" "damage_type";
  Reg "C_ITEM.DAMAGETOTAL" "damage_total";
  Reg "C_ITEM.DAMAGE" "damage";
  Reg "C_ITEM.WEAR" "wear";
  Reg "C_ITEM.PROTECTION" "protection";
  Reg "C_ITEM.NUTRITION" "nutrition";
  Reg "C_ITEM.COND_ATR" "cond_atr";
  Reg "C_ITEM.COND_VALUE" "cond_value";
  Reg "C_ITEM.CHANGE_ATR" "change_atr";
  Reg "C_ITEM.CHANGE_VALUE" "change_value";
  Reg "C_ITEM.MAGIC" "magic";
  Reg "C_ITEM.ON_EQUIP" "on_equip";
  Reg "C_ITEM.ON_UNEQUIP" "on_unequip";
  Reg "C_ITEM.ON_STATE" "on_state";
  Reg "C_ITEM.OWNER" "owner";
  Reg "C_ITEM.OWNERGUILD" "owner_guild";
  Reg "C_ITEM.DISGUISEGUILD" "disguise_guild";
  Reg "C_ITEM.VISUAL" "visual";
  Reg "C_ITEM.VISUAL_CHANGE" "visual_change";
  Reg "C_ITEM.VISUAL_SKIN" "visual_skin";
  Reg "C_ITEM.SCEMENAME" "scheme_name";
  Reg "C_ITEM.MATERIAL" "material";
  Reg "C_ITEM.MUNITION" "munition";
  Reg "C_ITEM.SPELL" "spell";
  Reg "C_ITEM.RANGE" "range";
  Reg "C_ITEM.MAG_CIRCLE" "mag_circle";
  Reg "C_ITEM.DESCRIPTION" "description";
  Reg "C_ITEM.TEXT" "text";
  Reg "C_ITEM.COUNT" "count";
  When "C_ITEM.INV_ZBIAS" [("C_ITEM.INV_ZBIAS", "inv_zbias"); ("C_ITEM.INV_ROTX", "inv_rot_x"); ("C_ITEM.INV_ROTY", "inv_rot_y"); ("C_ITEM.INV_ROTZ", "inv_rot_z"); ("C_ITEM.INV_ANIMATE", "inv_animate")];
  When "C_ITEM.EFFECT" [("C_ITEM.EFFECT", "effect")]
  ]%string.
(** addon/daedalus.hh:319-341 *)
Definition fields_IFocus : list field := map (fun '(s, t, n) => mkField s t n) [
  ("npc_longrange", 1, 1); ("npc_range1", 1, 1); ("npc_range2", 1, 1); ("npc_azi", 1, 1);
  ("npc_elevdo", 1, 1); ("npc_elevup", 1, 1); ("npc_prio", 2, 1); ("item_range1", 1, 1);
  ("item_range2", 1, 1); ("item_azi", 1, 1); ("item_elevdo", 1, 1); ("item_elevup", 1, 1);
  ("item_prio", 2, 1); ("mob_range1", 1, 1); ("mob_range2", 1, 1); ("mob_azi", 1, 1); ("mob_elevdo", 1, 1);
  ("mob_elevup", 1, 1); ("mob_prio", 2, 1)]%string.
(** addon/daedalus.cc:265-286 *)
Definition regs_IFocus : list reg := [
  Reg "C_FOCUS.NPC_LONGRANGE" "npc_longrange";
  Reg "C_FOCUS.NPC_RANGE1" "npc_range1";
  Reg "C_FOCUS.NPC_RANGE2" "npc_range2";
  Reg "C_FOCUS.NPC_AZI" "npc_azi";
  Reg "C_FOCUS.NPC_ELEVDO" "npc_elevdo";
  Reg "C_FOCUS.NPC_ELEVUP" "npc_elevup";
  Reg "C_FOCUS.NPC_PRIO" "npc_prio";
  Reg "C_FOCUS.ITEM_RANGE1" "item_range1";
  Reg "C_FOCUS.ITEM_RANGE2" "item_range2";
  Reg "C_FOCUS.ITEM_AZI" "item_azi";
  Reg "C_FOCUS.ITEM_ELEVDO" "item_elevdo";
  Reg "C_FOCUS.ITEM_ELEVUP" "item_elevup";
  Reg "C_FOCUS.ITEM_PRIO" "item_prio";
  Reg "C_FOCUS.MOB_RANGE1" "mob_range1";
  Reg "C_FOCUS.MOB_RANGE2" "mob_range2";
  Reg "C_FOCUS.MOB_AZI" "mob_azi";
  Reg "C_FOCUS.MOB_ELEVDO" "mob_elevdo";
  Reg "C_FOCUS.MOB_ELEVUP" "mob_elevup";
  Reg "C_FOCUS.MOB_PRIO" "mob_prio"
  ]%string.
(** addon/daedalus.hh:348-364 *)
Definition fields_IInfo : list field := map (fun '(s, t, n) => mkField s t n) [
  ("npc", 2, 1); ("nr", 2, 1); ("important", 2, 1); ("condition", 2, 1); ("information", 2, 1);
  ("description", 0, 1); ("trade", 2, 1); ("permanent", 2, 1); ("choices", 3, 1)]%string.
(** addon/daedalus.cc:288-298 *)
Definition regs_IInfo : list reg := [
  Reg "C_INFO.NPC" "npc";
  Reg "C_INFO.NR" "nr";
  Reg "C_INFO.IMPORTANT" "important";
  Reg "C_INFO.CONDITION" "condition";
  Reg "C_INFO.INFORMATION" "information";
  Reg "C_INFO.DESCRIPTION" "description";
  Reg "C_INFO.TRADE" "trade";
  Reg "C_INFO.PERMANENT" "permanent"
  ]%string.
(** addon/daedalus.hh:366-376 *)
Definition fields_IItemReact : list field := map (fun '(s, t, n) => mkField s t n) [
  ("npc", 2, 1); ("trade_item", 2, 1); ("trade_amount", 2, 1); ("requested_cat", 2, 1);
  ("requested_item", 2, 1); ("requested_amount", 2, 1); ("reaction", 2, 1)]%string.
(** addon/daedalus.cc:308-317 *)
Definition regs_IItemReact : list reg := [
  Reg "C_ITEMREACT.NPC" "npc";
  Reg "C_ITEMREACT.TRADE_ITEM" "trade_item";
  Reg "C_ITEMREACT.TRADE_AMOUNT" "trade_amount";
  Reg "C_ITEMREACT.REQUESTED_CAT" "requested_cat";
  Reg "C_ITEMREACT.REQUESTED_ITEM" "requested_item";
  Reg "C_ITEMREACT.REQUESTED_AMOUNT" "requested_amount";
  Reg "C_ITEMREACT.REACTION" "reaction"
  ]%string.
(** addon/daedalus.hh:378-393 *)
Definition fields_ISpell : list field := map (fun '(s, t, n) => mkField s t n) [
  ("time_per_mana", 1, 1); ("damage_per_level", 2, 1); ("damage_type", 2, 1); ("spell_type", 2, 1);
  ("can_turn_during_invest", 2, 1); ("can_change_target_during_invest", 2, 1); ("is_multi_effect", 2, 1);
  ("target_collect_algo", 2, 1); ("target_collect_type", 2, 1); ("target_collect_range", 2, 1);
  ("target_collect_azi", 2, 1); ("target_collect_elev", 2, 1)]%string.
(** addon/daedalus.cc:319-333 *)
Definition regs_ISpell : list reg := [
  Reg "C_SPELL.TIME_PER_MANA" "time_per_mana";
  Reg "C_SPELL.DAMAGE_PER_LEVEL" "damage_per_level";
  Reg "C_SPELL.DAMAGETYPE" "damage_type";
  Reg "C_SPELL.SPELLTYPE" "spell_type";
  Reg "C_SPELL.CANTURNDURINGINVEST" "can_turn_during_invest";
  Reg "C_SPELL.CANCHANGETARGETDURINGINVEST" "can_change_target_during_invest";
  Reg "C_SPELL.ISMULTIEFFECT" "is_multi_effect";
  Reg "C_SPELL.TARGETCOLLECTALGO" "target_collect_algo";
  Reg "C_SPELL.TARGETCOLLECTTYPE" "target_collect_type";
  Reg "C_SPELL.TARGETCOLLECTRANGE" "target_collect_range";
  Reg "C_SPELL.TARGETCOLLECTAZI" "target_collect_azi";
  Reg "C_SPELL.TARGETCOLLECTELEV" "target_collect_elev"
  ]%string.
(** addon/daedalus.hh:395-710 *)
Definition fields_ISvm : list field := map (fun '(s, t, n) => mkField s t n) [
  ("mil_greetings", 0, 1); ("pal_greetings", 0, 1); ("weather", 0, 1); ("iget_you_still", 0, 1);
  ("die_enemy", 0, 1); ("die_monster", 0, 1); ("addon_die_monster", 0, 1); ("addon_die_monster_2", 0, 1);
  ("dirty_thief", 0, 1); ("hands_off", 0, 1); ("sheep_killer", 0, 1); ("sheep_killer_monster", 0, 1);
  ("you_murderer", 0, 1); ("die_stupid_beast", 0, 1); ("you_dare_hit_me", 0, 1); ("you_asked_for_it", 0, 1);
  ("then_ibeat_you_out_of_here", 0, 1); ("what_did_you_do_in_there", 0, 1); ("will_you_stop_fighting", 0, 1);
  ("kill_enemy", 0, 1); ("enemy_killed", 0, 1); ("monster_killed", 0, 1); ("addon_monster_killed", 0, 1);
  ("addon_monster_killed_2", 0, 1); ("thief_down", 0, 1); ("rumfummler_down", 0, 1);
  ("sheep_attacker_down", 0, 1); ("kill_murderer", 0, 1); ("stupid_beast_killed", 0, 1);
  ("never_hit_me_again", 0, 1); ("you_better_should_have_listened", 0, 1); ("get_up_and_begone", 0, 1);
  ("never_enter_room_again", 0, 1); ("there_is_no_fighting_here", 0, 1); ("spare_me", 0, 1);
  ("run_away", 0, 1); ("alarm", 0, 1); ("guards", 0, 1); ("help", 0, 1); ("good_monster_kill", 0, 1);
  ("good_kill", 0, 1); ("not_now", 0, 1); ("run_coward", 0, 1); ("get_out_of_here", 0, 1);
  ("why_are_you_in_here", 0, 1); ("yes_go_out_of_here", 0, 1); ("whats_this_supposed_to_be", 0, 1);
  ("you_disturbed_my_slumber", 0, 1); ("itook_your_gold", 0, 1); ("shit_no_gold", 0, 1);
  ("itake_your_weapon", 0, 1); ("what_are_you_doing", 0, 1); ("looking_for_trouble_again", 0, 1);
  ("stop_magic", 0, 1); ("isaid_stop_magic", 0, 1); ("weapon_down", 0, 1); ("isaid_weapon_down", 0, 1);
  ("wise_move", 0, 1); ("next_time_youre_in_for_it", 0, 1); ("oh_my_head", 0, 1); ("theres_afight", 0, 1);
  ("oh_my_god_its_afight", 0, 1); ("good_victory", 0, 1); ("not_bad", 0, 1); ("oh_my_god_hes_down", 0, 1);
  ("cheer_friend_01", 0, 1); ("cheer_friend_02", 0, 1); ("cheer_friend_03", 0, 1); ("ooh_01", 0, 1);
  ("ooh_02", 0, 1); ("ooh_03", 0, 1); ("what_was_that", 0, 1); ("get_out_of_my_bed", 0, 1); ("awake", 0, 1);
  ("abs_commander", 0, 1); ("abs_monastery", 0, 1); ("abs_farm", 0, 1); ("abs_good", 0, 1);
  ("sheep_killer_crime", 0, 1); ("attack_crime", 0, 1); ("theft_crime", 0, 1); ("murder_crime", 0, 1);
  ("pal_city_crime", 0, 1); ("mil_city_crime", 0, 1); ("city_crime", 0, 1); ("mona_crime", 0, 1);
  ("farm_crime", 0, 1); ("oc_crime", 0, 1); ("toughguy_attack_lost", 0, 1); ("toughguy_attack_won", 0, 1);
  ("toughguy_player_attack", 0, 1); ("gold_1000", 0, 1); ("gold_950", 0, 1); ("gold_900", 0, 1);
  ("gold_850", 0, 1); ("gold_800", 0, 1); ("gold_750", 0, 1); ("gold_700", 0, 1); ("gold_650", 0, 1);
  ("gold_600", 0, 1); ("gold_550", 0, 1); ("gold_500", 0, 1); ("gold_450", 0, 1); ("gold_400", 0, 1);
  ("gold_350", 0, 1); ("gold_300", 0, 1); ("gold_250", 0, 1); ("gold_200", 0, 1); ("gold_150", 0, 1);
  ("gold_100", 0, 1); ("gold_90", 0, 1); ("gold_80", 0, 1); ("gold_70", 0, 1); ("gold_60", 0, 1);
  ("gold_50", 0, 1); ("gold_40", 0, 1); ("gold_30", 0, 1); ("gold_20", 0, 1); ("gold_10", 0, 1);
  ("smalltalk_01", 0, 1); ("smalltalk_02", 0, 1); ("smalltalk_03", 0, 1); ("smalltalk_04", 0, 1);
  ("smalltalk_05", 0, 1); ("smalltalk_06", 0, 1); ("smalltalk_07", 0, 1); ("smalltalk_08", 0, 1);
  ("smalltalk_09", 0, 1); ("smalltalk_10", 0, 1); ("smalltalk_11", 0, 1); ("smalltalk_12", 0, 1);
  ("smalltalk_13", 0, 1); ("smalltalk_14", 0, 1); ("smalltalk_15", 0, 1); ("smalltalk_16", 0, 1);
  ("smalltalk_17", 0, 1); ("smalltalk_18", 0, 1); ("smalltalk_19", 0, 1); ("smalltalk_20", 0, 1);
  ("smalltalk_21", 0, 1); ("smalltalk_22", 0, 1); ("smalltalk_23", 0, 1); ("smalltalk_24", 0, 1);
  ("smalltalk_25", 0, 1); ("smalltalk_26", 0, 1); ("smalltalk_27", 0, 1); ("smalltalk_28", 0, 1);
  ("smalltalk_29", 0, 1); ("smalltalk_30", 0, 1); ("no_learn_no_points", 0, 1);
  ("no_learn_over_personal_max", 0, 1); ("no_learn_youre_better", 0, 1); ("you_learned_something", 0, 1);
  ("unterstadt", 0, 1); ("oberstadt", 0, 1); ("tempel", 0, 1); ("markt", 0, 1); ("galgen", 0, 1);
  ("kaserne", 0, 1); ("hafen", 0, 1); ("whereto", 0, 1); ("oberstadt_2_unterstadt", 0, 1);
  ("unterstadt_2_oberstadt", 0, 1); ("unterstadt_2_tempel", 0, 1); ("unterstadt_2_hafen", 0, 1);
  ("tempel_2_unterstadt", 0, 1); ("tempel_2_markt", 0, 1); ("tempel_2_galgen", 0, 1);
  ("markt_2_tempel", 0, 1); ("markt_2_kaserne", 0, 1); ("markt_2_galgen", 0, 1); ("galgen_2_tempel", 0, 1);
  ("galgen_2_markt", 0, 1); ("galgen_2_kaserne", 0, 1); ("kaserne_2_markt", 0, 1);
  ("kaserne_2_galgen", 0, 1); ("hafen_2_unterstadt", 0, 1); ("dead", 0, 1); ("aargh_1", 0, 1);
  ("aargh_2", 0, 1); ("aargh_3", 0, 1); ("addon_wrong_armor", 0, 1); ("addon_wrong_armor_sld", 0, 1);
  ("addon_wrong_armor_mil", 0, 1); ("addon_wrong_armor_kdf", 0, 1); ("addon_no_armor_bdt", 0, 1);
  ("addon_die_bandit", 0, 1); ("addon_dirty_pirate", 0, 1); ("sc_hey_turn_around", 0, 1);
  ("sc_hey_turn_around_02", 0, 1); ("sc_hey_turn_around_03", 0, 1); ("sc_hey_turn_around_04", 0, 1);
  ("sc_hey_wait_asecond", 0, 1); ("doesnt_mork", 0, 1); ("pick_broke", 0, 1); ("need_key", 0, 1);
  ("no_more_picks", 0, 1); ("no_pick_lock_talent", 0, 1); ("no_sweeping", 0, 1);
  ("pick_lock_or_key_missing", 0, 1); ("key_missing", 0, 1); ("pick_lock_missing", 0, 1);
  ("never_open", 0, 1); ("missing_item", 0, 1); ("dont_know", 0, 1); ("nothing_to_get", 0, 1);
  ("nothing_to_get_02", 0, 1); ("nothing_to_get_03", 0, 1); ("heal_shrine", 0, 1);
  ("heal_last_shrine", 0, 1); ("irdorath_there_you_are", 0, 1); ("sc_opens_irdorath_book", 0, 1);
  ("sc_opens_last_door", 0, 1); ("trade_1", 0, 1); ("trade_2", 0, 1); ("trade_3", 0, 1); ("verstehe", 0, 1);
  ("found_treasure", 0, 1); ("cant_understand_this", 0, 1); ("cant_read_this", 0, 1); ("stoneplate_1", 0, 1);
  ("stoneplate_2", 0, 1); ("stoneplate_3", 0, 1); ("cough", 0, 1); ("hui", 0, 1);
  ("addon_this_little_bastard", 0, 1); ("addon_open_adanos_temple", 0, 1);
  ("attentat_addon_description", 0, 1); ("attentat_addon_description_2", 0, 1); ("attentat_addon_pro", 0, 1);
  ("attentat_addon_contra", 0, 1); ("mine_addon_description", 0, 1); ("addon_summon_ancient_ghost", 0, 1);
  ("addon_ancient_ghost_not_near", 0, 1); ("addon_gold_description", 0, 1); ("watch_your_aim", 0, 1);
  ("watch_your_aim_angry", 0, 1); ("lets_forget_our_little_fight", 0, 1); ("strange", 0, 1);
  ("die_mortal_enemy", 0, 1); ("now_wait", 0, 1); ("now_wait_intruder", 0, 1);
  ("you_still_not_have_enough", 0, 1); ("you_attacked_my_charge", 0, 1);
  ("iwill_teach_you_respect_for_foreign_property", 0, 1); ("you_killed_one_of_us", 0, 1); ("berzerk", 0, 1);
  ("youll_be_sorry_for_this", 0, 1); ("yes_yes", 0, 1); ("shit_what_amonster", 0, 1);
  ("we_will_meet_again", 0, 1); ("never_try_that_again", 0, 1); ("itook_your_ore", 0, 1);
  ("shit_no_ore", 0, 1); ("you_violated_forbidden_territory", 0, 1); ("you_wanna_fool_me", 0, 1);
  ("what_did_you_in_there", 0, 1); ("intruder_alert", 0, 1); ("behind_you", 0, 1); ("hey_hey_hey", 0, 1);
  ("cheer_fight", 0, 1); ("cheer_friend", 0, 1); ("ooh", 0, 1); ("yeah_well_done", 0, 1);
  ("he_defeatedhim", 0, 1); ("he_deserv_edit", 0, 1); ("he_killed_him", 0, 1); ("it_was_agood_fight", 0, 1);
  ("friendly_greetings", 0, 1); ("al_greetings", 0, 1); ("mage_greetings", 0, 1); ("sect_greetings", 0, 1);
  ("there_he_is", 0, 1); ("no_learn_over_max", 0, 1); ("no_learn_you_already_know", 0, 1); ("hey_you", 0, 1);
  ("what_do_you_want", 0, 1); ("isaid_what_do_you_want", 0, 1); ("make_way", 0, 1); ("out_of_my_way", 0, 1);
  ("you_deaf_or_what", 0, 1); ("look_away", 0, 1); ("okay_keep_it", 0, 1); ("whats_that", 0, 1);
  ("thats_my_weapon", 0, 1); ("give_it_tome", 0, 1); ("you_can_keep_the_crap", 0, 1);
  ("they_killed_my_friend", 0, 1); ("sucker_got_some", 0, 1); ("sucker_defeated_ebr", 0, 1);
  ("sucker_defeated_gur", 0, 1); ("sucker_defeated_mage", 0, 1); ("sucker_defeated_nov_guard", 0, 1);
  ("sucker_defeated_vlk_guard", 0, 1); ("you_defeated_my_comrade", 0, 1); ("you_defeated_nov_guard", 0, 1);
  ("you_defeated_vlk_guard", 0, 1); ("you_stole_from_me", 0, 1); ("you_stole_from_us", 0, 1);
  ("you_stole_from_ebr", 0, 1); ("you_stole_from_gur", 0, 1); ("stole_urom_mage", 0, 1);
  ("you_killedmyfriend", 0, 1); ("you_killed_ebr", 0, 1); ("you_killed_gur", 0, 1);
  ("you_killed_mage", 0, 1); ("you_killed_oc_folk", 0, 1); ("you_killed_nc_folk", 0, 1);
  ("you_killed_psi_folk", 0, 1); ("get_things_right", 0, 1); ("you_defeated_me_well", 0, 1); ("om", 0, 1)]%string.
(** addon/daedalus.cc:342-657 *)
Definition regs_ISvm : list reg := [
  When "C_SVM.MILGREETINGS" [("C_SVM.MILGREETINGS", "mil_greetings")];
  When "C_SVM.PALGREETINGS" [("C_SVM.PALGREETINGS", "pal_greetings")];
  When "C_SVM.WEATHER" [("C_SVM.WEATHER", "weather")];
  When "C_SVM.IGETYOUSTILL" [("C_SVM.IGETYOUSTILL", "iget_you_still")];
  When "C_SVM.DIEENEMY" [("C_SVM.DIEENEMY", "die_enemy")];
  When "C_SVM.DIEMONSTER" [("C_SVM.DIEMONSTER", "die_monster")];
  When "C_SVM.ADDON_DIEMONSTER" [("C_SVM.ADDON_DIEMONSTER", "addon_die_monster")];
  When "C_SVM.ADDON_DIEMONSTER2" [("C_SVM.ADDON_DIEMONSTER2", "addon_die_monster_2")];
  When "C_SVM.DIRTYTHIEF" [("C_SVM.DIRTYTHIEF", "dirty_thief")];
  When "C_SVM.HANDSOFF" [("C_SVM.HANDSOFF", "hands_off")];
  When "C_SVM.SHEEPKILLER" [("C_SVM.SHEEPKILLER", "sheep_killer")];
  When "C_SVM.SHEEPKILLERMONSTER" [("C_SVM.SHEEPKILLERMONSTER", "sheep_killer_monster")];
  When "C_SVM.YOUMURDERER" [("C_SVM.YOUMURDERER", "you_murderer")];
  When "C_SVM.DIESTUPIDBEAST" [("C_SVM.DIESTUPIDBEAST", "die_stupid_beast")];
  When "C_SVM.YOUDAREHITME" [("C_SVM.YOUDAREHITME", "you_dare_hit_me")];
  When "C_SVM.YOUASKEDFORIT" [("C_SVM.YOUASKEDFORIT", "you_asked_for_it")];
  When "C_SVM.THENIBEATYOUOUTOFHERE" [("C_SVM.THENIBEATYOUOUTOFHERE", "then_ibeat_you_out_of_here")];
  When "C_SVM.WHATDIDYOUDOINTHERE" [("C_SVM.WHATDIDYOUDOINTHERE", "what_did_you_do_in_there")];
  When "C_SVM.WILLYOUSTOPFIGHTING" [("C_SVM.WILLYOUSTOPFIGHTING", "will_you_stop_fighting")];
  When "C_SVM.KILLENEMY" [("C_SVM.KILLENEMY", "kill_enemy")];
  When "C_SVM.ENEMYKILLED" [("C_SVM.ENEMYKILLED", "enemy_killed")];
  When "C_SVM.MONSTERKILLED" [("C_SVM.MONSTERKILLED", "monster_killed")];
  When "C_SVM.ADDON_MONSTERKILLED" [("C_SVM.ADDON_MONSTERKILLED", "addon_monster_killed")];
  When "C_SVM.ADDON_MONSTERKILLED2" [("C_SVM.ADDON_MONSTERKILLED2", "addon_monster_killed_2")];
  When "C_SVM.THIEFDOWN" [("C_SVM.THIEFDOWN", "thief_down")];
  When "C_SVM.RUMFUMMLERDOWN" [("C_SVM.RUMFUMMLERDOWN", "rumfummler_down")];
  When "C_SVM.SHEEPATTACKERDOWN" [("C_SVM.SHEEPATTACKERDOWN", "sheep_attacker_down")];
  When "C_SVM.KILLMURDERER" [("C_SVM.KILLMURDERER", "kill_murderer")];
  When "C_SVM.STUPIDBEASTKILLED" [("C_SVM.STUPIDBEASTKILLED", "stupid_beast_killed")];
  When "C_SVM.NEVERHITMEAGAIN" [("C_SVM.NEVERHITMEAGAIN", "never_hit_me_again")];
  When "C_SVM.YOUBETTERSHOULDHAVELISTENED" [("C_SVM.YOUBETTERSHOULDHAVELISTENED", "you_better_should_have_listened")];
  When "C_SVM.GETUPANDBEGONE" [("C_SVM.GETUPANDBEGONE", "get_up_and_begone")];
  When "C_SVM.NEVERENTERROOMAGAIN" [("C_SVM.NEVERENTERROOMAGAIN", "never_enter_room_again")];
  When "C_SVM.THEREISNOFIGHTINGHERE" [("C_SVM.THEREISNOFIGHTINGHERE", "there_is_no_fighting_here")];
  When "C_SVM.SPAREME" [("C_SVM.SPAREME", "spare_me")];
  When "C_SVM.RUNAWAY" [("C_SVM.RUNAWAY", "run_away")];
  When "C_SVM.ALARM" [("C_SVM.ALARM", "alarm")];
  When "C_SVM.GUARDS" [("C_SVM.GUARDS", "guards")];
  When "C_SVM.HELP" [("C_SVM.HELP", "help")];
  When "C_SVM.GOODMONSTERKILL" [("C_SVM.GOODMONSTERKILL", "good_monster_kill")];
  When "C_SVM.GOODKILL" [("C_SVM.GOODKILL", "good_kill")];
  When "C_SVM.NOTNOW" [("C_SVM.NOTNOW", "not_now")];
  When "C_SVM.RUNCOWARD" [("C_SVM.RUNCOWARD", "run_coward")];
  When "C_SVM.GETOUTOFHERE" [("C_SVM.GETOUTOFHERE", "get_out_of_here")];
  When "C_SVM.WHYAREYOUINHERE" [("C_SVM.WHYAREYOUINHERE", "why_are_you_in_here")];
  When "C_SVM.YESGOOUTOFHERE" [("C_SVM.YESGOOUTOFHERE", "yes_go_out_of_here")];
  When "C_SVM.WHATSTHISSUPPOSEDTOBE" [("C_SVM.WHATSTHISSUPPOSEDTOBE", "whats_this_supposed_to_be")];
  When "C_SVM.YOUDISTURBEDMYSLUMBER" [("C_SVM.YOUDISTURBEDMYSLUMBER", "you_disturbed_my_slumber")];
  When "C_SVM.ITOOKYOURGOLD" [("C_SVM.ITOOKYOURGOLD", "itook_your_gold")];
  When "C_SVM.SHITNOGOLD" [("C_SVM.SHITNOGOLD", "shit_no_gold")];
  When "C_SVM.ITAKEYOURWEAPON" [("C_SVM.ITAKEYOURWEAPON", "itake_your_weapon")];
  When "C_SVM.WHATAREYOUDOING" [("C_SVM.WHATAREYOUDOING", "what_are_you_doing")];
  When "C_SVM.LOOKINGFORTROUBLEAGAIN" [("C_SVM.LOOKINGFORTROUBLEAGAIN", "looking_for_trouble_again")];
  When "C_SVM.STOPMAGIC" [("C_SVM.STOPMAGIC", "stop_magic")];
  When "C_SVM.ISAIDSTOPMAGIC" [("C_SVM.ISAIDSTOPMAGIC", "isaid_stop_magic")];
  When "C_SVM.WEAPONDOWN" [("C_SVM.WEAPONDOWN", "weapon_down")];
  When "C_SVM.ISAIDWEAPONDOWN" [("C_SVM.ISAIDWEAPONDOWN", "isaid_weapon_down")];
  When "C_SVM.WISEMOVE" [("C_SVM.WISEMOVE", "wise_move")];
  When "C_SVM.NEXTTIMEYOUREINFORIT" [("C_SVM.NEXTTIMEYOUREINFORIT", "next_time_youre_in_for_it")];
  When "C_SVM.OHMYHEAD" [("C_SVM.OHMYHEAD", "oh_my_head")];
  When "C_SVM.THERESAFIGHT" [("C_SVM.THERESAFIGHT", "theres_afight")];
  When "C_SVM.OHMYGODITSAFIGHT" [("C_SVM.OHMYGODITSAFIGHT", "oh_my_god_its_afight")];
  When "C_SVM.GOODVICTORY" [("C_SVM.GOODVICTORY", "good_victory")];
  When "C_SVM.NOTBAD" [("C_SVM.NOTBAD", "not_bad")];
  When "C_SVM.OHMYGODHESDOWN" [("C_SVM.OHMYGODHESDOWN", "oh_my_god_hes_down")];
  When "C_SVM.CHEERFRIEND01" [("C_SVM.CHEERFRIEND01", "cheer_friend_01")];
  When "C_SVM.CHEERFRIEND02" [("C_SVM.CHEERFRIEND02", "cheer_friend_02")];
  When "C_SVM.CHEERFRIEND03" [("C_SVM.CHEERFRIEND03", "cheer_friend_03")];
  When "C_SVM.OOH01" [("C_SVM.OOH01", "ooh_01")];
  When "C_SVM.OOH02" [("C_SVM.OOH02", "ooh_02")];
  When "C_SVM.OOH03" [("C_SVM.OOH03", "ooh_03")];
  When "C_SVM.WHATWASTHAT" [("C_SVM.WHATWASTHAT", "what_was_that")];
  When "C_SVM.GETOUTOFMYBED" [("C_SVM.GETOUTOFMYBED", "get_out_of_my_bed")];
  When "C_SVM.AWAKE" [("C_SVM.AWAKE", "awake")];
  When "C_SVM.ABS_COMMANDER" [("C_SVM.ABS_COMMANDER", "abs_commander")];
  When "C_SVM.ABS_MONASTERY" [("C_SVM.ABS_MONASTERY", "abs_monastery")];
  When "C_SVM.ABS_FARM" [("C_SVM.ABS_FARM", "abs_farm")];
  When "C_SVM.ABS_GOOD" [("C_SVM.ABS_GOOD", "abs_good")];
  When "C_SVM.SHEEPKILLER_CRIME" [("C_SVM.SHEEPKILLER_CRIME", "sheep_killer_crime")];
  When "C_SVM.ATTACK_CRIME" [("C_SVM.ATTACK_CRIME", "attack_crime")];
  When "C_SVM.THEFT_CRIME" [("C_SVM.THEFT_CRIME", "theft_crime")];
  When "C_SVM.MURDER_CRIME" [("C_SVM.MURDER_CRIME", "murder_crime")];
  When "C_SVM.PAL_CITY_CRIME" [("C_SVM.PAL_CITY_CRIME", "pal_city_crime")];
  When "C_SVM.MIL_CITY_CRIME" [("C_SVM.MIL_CITY_CRIME", "mil_city_crime")];
  When "C_SVM.CITY_CRIME" [("C_SVM.CITY_CRIME", "city_crime")];
  When "C_SVM.MONA_CRIME" [("C_SVM.MONA_CRIME", "mona_crime")];
  When "C_SVM.FARM_CRIME" [("C_SVM.FARM_CRIME", "farm_crime")];
  When "C_SVM.OC_CRIME" [("C_SVM.OC_CRIME", "oc_crime")];
  When "C_SVM.TOUGHGUY_ATTACKLOST" [("C_SVM.TOUGHGUY_ATTACKLOST", "toughguy_attack_lost")];
  When "C_SVM.TOUGHGUY_ATTACKWON" [("C_SVM.TOUGHGUY_ATTACKWON", "toughguy_attack_won")];
  When "C_SVM.TOUGHGUY_PLAYERATTACK" [("C_SVM.TOUGHGUY_PLAYERATTACK", "toughguy_player_attack")];
  When "C_SVM.GOLD_1000" [("C_SVM.GOLD_1000", "gold_1000")];
  When "C_SVM.GOLD_950" [("C_SVM.GOLD_950", "gold_950")];
  When "C_SVM.GOLD_900" [("C_SVM.GOLD_900", "gold_900")];
  When "C_SVM.GOLD_850" [("C_SVM.GOLD_850", "gold_850")];
  When "C_SVM.GOLD_800" [("C_SVM.GOLD_800", "gold_800")];
  When "C_SVM.GOLD_750" [("C_SVM.GOLD_750", "gold_750")];
  When "C_SVM.GOLD_700" [("C_SVM.GOLD_700", "gold_700")];
  When "C_SVM.GOLD_650" [("C_SVM.GOLD_650", "gold_650")];
  When "C_SVM.GOLD_600" [("C_SVM.GOLD_600", "gold_600")];
  When "C_SVM.GOLD_550" [("C_SVM.GOLD_550", "gold_550")];
  When "C_SVM.GOLD_500" [("C_SVM.GOLD_500", "gold_500")];
  When "C_SVM.GOLD_450" [("C_SVM.GOLD_450", "gold_450")];
  When "C_SVM.GOLD_400" [("C_SVM.GOLD_400", "gold_400")];
  When "C_SVM.GOLD_350" [("C_SVM.GOLD_350", "gold_350")];
  When "C_SVM.GOLD_300" [("C_SVM.GOLD_300", "gold_300")];
  When "C_SVM.GOLD_250" [("C_SVM.GOLD_250", "gold_250")];
  When "C_SVM.GOLD_200" [("C_SVM.GOLD_200", "gold_200")];
  When "C_SVM.GOLD_150" [("C_SVM.GOLD_150", "gold_150")];
  When "C_SVM.GOLD_100" [("C_SVM.GOLD_100", "gold_100")];
  When "C_SVM.GOLD_90" [("C_SVM.GOLD_90", "gold_90")];
  When "C_SVM.GOLD_80" [("C_SVM.GOLD_80", "gold_80")];
  When "C_SVM.GOLD_70" [("C_SVM.GOLD_70", "gold_70")];
  When "C_SVM.GOLD_60" [("C_SVM.GOLD_60", "gold_60")];
  When "C_SVM.GOLD_50" [("C_SVM.GOLD_50", "gold_50")];
  When "C_SVM.GOLD_40" [("C_SVM.GOLD_40", "gold_40")];
  When "C_SVM.GOLD_30" [("C_SVM.GOLD_30", "gold_30")];
  When "C_SVM.GOLD_20" [("C_SVM.GOLD_20", "gold_20")];
  When "C_SVM.GOLD_10" [("C_SVM.GOLD_10", "gold_10")];
  When "C_SVM.SMALLTALK01" [("C_SVM.SMALLTALK01", "smalltalk_01")];
  When "C_SVM.SMALLTALK02" [("C_SVM.SMALLTALK02", "smalltalk_02")];
  When "C_SVM.SMALLTALK03" [("C_SVM.SMALLTALK03", "smalltalk_03")];
  When "C_SVM.SMALLTALK04" [("C_SVM.SMALLTALK04", "smalltalk_04")];
  When "C_SVM.SMALLTALK05" [("C_SVM.SMALLTALK05", "smalltalk_05")];
  When "C_SVM.SMALLTALK06" [("C_SVM.SMALLTALK06", "smalltalk_06")];
  When "C_SVM.SMALLTALK07" [("C_SVM.SMALLTALK07", "smalltalk_07")];
  When "C_SVM.SMALLTALK08" [("C_SVM.SMALLTALK08", "smalltalk_08")];
  When "C_SVM.SMALLTALK09" [("C_SVM.SMALLTALK09", "smalltalk_09")];
  When "C_SVM.SMALLTALK10" [("C_SVM.SMALLTALK10", "smalltalk_10")];
  When "C_SVM.SMALLTALK11" [("C_SVM.SMALLTALK11", "smalltalk_11")];
  When "C_SVM.SMALLTALK12" [("C_SVM.SMALLTALK12", "smalltalk_12")];
  When "C_SVM.SMALLTALK13" [("C_SVM.SMALLTALK13", "smalltalk_13")];
  When "C_SVM.SMALLTALK14" [("C_SVM.SMALLTALK14", "smalltalk_14")];
  When "C_SVM.SMALLTALK15" [("C_SVM.SMALLTALK15", "smalltalk_15")];
  When "C_SVM.SMALLTALK16" [("C_SVM.SMALLTALK16", "smalltalk_16")];
  When "C_SVM.SMALLTALK17" [("C_SVM.SMALLTALK17", "smalltalk_17")];
  When "C_SVM.SMALLTALK18" [("C_SVM.SMALLTALK18", "smalltalk_18")];
  When "C_SVM.SMALLTALK19" [("C_SVM.SMALLTALK19", "smalltalk_19")];
  When "C_SVM.SMALLTALK20" [("C_SVM.SMALLTALK20", "smalltalk_20")];
  When "C_SVM.SMALLTALK21" [("C_SVM.SMALLTALK21", "smalltalk_21")];
  When "C_SVM.SMALLTALK22" [("C_SVM.SMALLTALK22", "smalltalk_22")];
  When "C_SVM.SMALLTALK23" [("C_SVM.SMALLTALK23", "smalltalk_23")];
  When "C_SVM.SMALLTALK24" [("C_SVM.SMALLTALK24", "smalltalk_24")];
  When "C_SVM.SMALLTALK25" [("C_SVM.SMALLTALK25", "smalltalk_25")];
  When "C_SVM.SMALLTALK26" [("C_SVM.SMALLTALK26", "smalltalk_26")];
  When "C_SVM.SMALLTALK27" [("C_SVM.SMALLTALK27", "smalltalk_27")];
  When "C_SVM.SMALLTALK28" [("C_SVM.SMALLTALK28", "smalltalk_28")];
  When "C_SVM.SMALLTALK29" [("C_SVM.SMALLTALK29", "smalltalk_29")];
  When "C_SVM.SMALLTALK30" [("C_SVM.SMALLTALK30", "smalltalk_30")];
  When "C_SVM.NOLEARNNOPOINTS" [("C_SVM.NOLEARNNOPOINTS", "no_learn_no_points")];
  When "C_SVM.NOLEARNOVERPERSONALMAX" [("C_SVM.NOLEARNOVERPERSONALMAX", "no_learn_over_personal_max")];
  When "C_SVM.NOLEARNYOUREBETTER" [("C_SVM.NOLEARNYOUREBETTER", "no_learn_youre_better")];
  When "C_SVM.YOULEARNEDSOMETHING" [("C_SVM.YOULEARNEDSOMETHING", "you_learned_something")];
  When "C_SVM.UNTERSTADT" [("C_SVM.UNTERSTADT", "unterstadt")];
  When "C_SVM.OBERSTADT" [("C_SVM.OBERSTADT", "oberstadt")];
  When "C_SVM.TEMPEL" [("C_SVM.TEMPEL", "tempel")];
  When "C_SVM.MARKT" [("C_SVM.MARKT", "markt")];
  When "C_SVM.GALGEN" [("C_SVM.GALGEN", "galgen")];
  When "C_SVM.KASERNE" [("C_SVM.KASERNE", "kaserne")];
  When "C_SVM.HAFEN" [("C_SVM.HAFEN", "hafen")];
  When "C_SVM.WHERETO" [("C_SVM.WHERETO", "whereto")];
  When "C_SVM.OBERSTADT_2_UNTERSTADT" [("C_SVM.OBERSTADT_2_UNTERSTADT", "oberstadt_2_unterstadt")];
  When "C_SVM.UNTERSTADT_2_OBERSTADT" [("C_SVM.UNTERSTADT_2_OBERSTADT", "unterstadt_2_oberstadt")];
  When "C_SVM.UNTERSTADT_2_TEMPEL" [("C_SVM.UNTERSTADT_2_TEMPEL", "unterstadt_2_tempel")];
  When "C_SVM.UNTERSTADT_2_HAFEN" [("C_SVM.UNTERSTADT_2_HAFEN", "unterstadt_2_hafen")];
  When "C_SVM.TEMPEL_2_UNTERSTADT" [("C_SVM.TEMPEL_2_UNTERSTADT", "tempel_2_unterstadt")];
  When "C_SVM.TEMPEL_2_MARKT" [("C_SVM.TEMPEL_2_MARKT", "tempel_2_markt")];
  When "C_SVM.TEMPEL_2_GALGEN" [("C_SVM.TEMPEL_2_GALGEN", "tempel_2_galgen")];
  When "C_SVM.MARKT_2_TEMPEL" [("C_SVM.MARKT_2_TEMPEL", "markt_2_tempel")];
  When "C_SVM.MARKT_2_KASERNE" [("C_SVM.MARKT_2_KASERNE", "markt_2_kaserne")];
  When "C_SVM.MARKT_2_GALGEN" [("C_SVM.MARKT_2_GALGEN", "markt_2_galgen")];
  When "C_SVM.GALGEN_2_TEMPEL" [("C_SVM.GALGEN_2_TEMPEL", "galgen_2_tempel")];
  When "C_SVM.GALGEN_2_MARKT" [("C_SVM.GALGEN_2_MARKT", "galgen_2_markt")];
  When "C_SVM.GALGEN_2_KASERNE" [("C_SVM.GALGEN_2_KASERNE", "galgen_2_kaserne")];
  When "C_SVM.KASERNE_2_MARKT" [("C_SVM.KASERNE_2_MARKT", "kaserne_2_markt")];
  When "C_SVM.KASERNE_2_GALGEN" [("C_SVM.KASERNE_2_GALGEN", "kaserne_2_galgen")];
  When "C_SVM.HAFEN_2_UNTERSTADT" [("C_SVM.HAFEN_2_UNTERSTADT", "hafen_2_unterstadt")];
  When "C_SVM.DEAD" [("C_SVM.DEAD", "dead")];
  When "C_SVM.AARGH_1" [("C_SVM.AARGH_1", "aargh_1")];
  When "C_SVM.AARGH_2" [("C_SVM.AARGH_2", "aargh_2")];
  When "C_SVM.AARGH_3" [("C_SVM.AARGH_3", "aargh_3")];
  When "C_SVM.ADDON_WRONGARMOR" [("C_SVM.ADDON_WRONGARMOR", "addon_wrong_armor")];
  When "C_SVM.ADDON_WRONGARMOR_SLD" [("C_SVM.ADDON_WRONGARMOR_SLD", "addon_wrong_armor_sld")];
  When "C_SVM.ADDON_WRONGARMOR_MIL" [("C_SVM.ADDON_WRONGARMOR_MIL", "addon_wrong_armor_mil")];
  When "C_SVM.ADDON_WRONGARMOR_KDF" [("C_SVM.ADDON_WRONGARMOR_KDF", "addon_wrong_armor_kdf")];
  When "C_SVM.ADDON_NOARMOR_BDT" [("C_SVM.ADDON_NOARMOR_BDT", "addon_no_armor_bdt")];
  When "C_SVM.ADDON_DIEBANDIT" [("C_SVM.ADDON_DIEBANDIT", "addon_die_bandit")];
  When "C_SVM.ADDON_DIRTYPIRATE" [("C_SVM.ADDON_DIRTYPIRATE", "addon_dirty_pirate")];
  When "C_SVM.SC_HEYTURNAROUND" [("C_SVM.SC_HEYTURNAROUND", "sc_hey_turn_around")];
  When "C_SVM.SC_HEYTURNAROUND02" [("C_SVM.SC_HEYTURNAROUND02", "sc_hey_turn_around_02")];
  When "C_SVM.SC_HEYTURNAROUND03" [("C_SVM.SC_HEYTURNAROUND03", "sc_hey_turn_around_03")];
  When "C_SVM.SC_HEYTURNAROUND04" [("C_SVM.SC_HEYTURNAROUND04", "sc_hey_turn_around_04")];
  When "C_SVM.SC_HEYWAITASECOND" [("C_SVM.SC_HEYWAITASECOND", "sc_hey_wait_asecond")];
  When "C_SVM.DOESNTWORK" [("C_SVM.DOESNTWORK", "doesnt_mork")];
  When "C_SVM.PICKBROKE" [("C_SVM.PICKBROKE", "pick_broke")];
  When "C_SVM.NEEDKEY" [("C_SVM.NEEDKEY", "need_key")];
  When "C_SVM.NOMOREPICKS" [("C_SVM.NOMOREPICKS", "no_more_picks")];
  When "C_SVM.NOPICKLOCKTALENT" [("C_SVM.NOPICKLOCKTALENT", "no_pick_lock_talent")];
  When "C_SVM.NOSWEEPING" [("C_SVM.NOSWEEPING", "no_sweeping")];
  When "C_SVM.PICKLOCKORKEYMISSING" [("C_SVM.PICKLOCKORKEYMISSING", "pick_lock_or_key_missing")];
  When "C_SVM.KEYMISSING" [("C_SVM.KEYMISSING", "key_missing")];
  When "C_SVM.PICKLOCKMISSING" [("C_SVM.PICKLOCKMISSING", "pick_lock_missing")];
  When "C_SVM.NEVEROPEN" [("C_SVM.NEVEROPEN", "never_open")];
  When "C_SVM.MISSINGITEM" [("C_SVM.MISSINGITEM", "missing_item")];
  When "C_SVM.DONTKNOW" [("C_SVM.DONTKNOW", "dont_know")];
  When "C_SVM.NOTHINGTOGET" [("C_SVM.NOTHINGTOGET", "nothing_to_get")];
  When "C_SVM.NOTHINGTOGET02" [("C_SVM.NOTHINGTOGET02", "nothing_to_get_02")];
  When "C_SVM.NOTHINGTOGET03" [("C_SVM.NOTHINGTOGET03", "nothing_to_get_03")];
  When "C_SVM.HEALSHRINE" [("C_SVM.HEALSHRINE", "heal_shrine")];
  When "C_SVM.HEALLASTSHRINE" [("C_SVM.HEALLASTSHRINE", "heal_last_shrine")];
  When "C_SVM.IRDORATHTHEREYOUARE" [("C_SVM.IRDORATHTHEREYOUARE", "irdorath_there_you_are")];
  When "C_SVM.SCOPENSIRDORATHBOOK" [("C_SVM.SCOPENSIRDORATHBOOK", "sc_opens_irdorath_book")];
  When "C_SVM.SCOPENSLASTDOOR" [("C_SVM.SCOPENSLASTDOOR", "sc_opens_last_door")];
  When "C_SVM.TRADE_1" [("C_SVM.TRADE_1", "trade_1")];
  When "C_SVM.TRADE_2" [("C_SVM.TRADE_2", "trade_2")];
  When "C_SVM.TRADE_3" [("C_SVM.TRADE_3", "trade_3")];
  When "C_SVM.VERSTEHE" [("C_SVM.VERSTEHE", "verstehe")];
  When "C_SVM.FOUNDTREASURE" [("C_SVM.FOUNDTREASURE", "found_treasure")];
  When "C_SVM.CANTUNDERSTANDTHIS" [("C_SVM.CANTUNDERSTANDTHIS", "cant_understand_this")];
  When "C_SVM.CANTREADTHIS" [("C_SVM.CANTREADTHIS", "cant_read_this")];
  When "C_SVM.STONEPLATE_1" [("C_SVM.STONEPLATE_1", "stoneplate_1")];
  When "C_SVM.STONEPLATE_2" [("C_SVM.STONEPLATE_2", "stoneplate_2")];
  When "C_SVM.STONEPLATE_3" [("C_SVM.STONEPLATE_3", "stoneplate_3")];
  When "C_SVM.COUGH" [("C_SVM.COUGH", "cough")];
  When "C_SVM.HUI" [("C_SVM.HUI", "hui")];
  When "C_SVM.ADDON_THISLITTLEBASTARD" [("C_SVM.ADDON_THISLITTLEBASTARD", "addon_this_little_bastard")];
  When "C_SVM.ADDON_OPENADANOSTEMPLE" [("C_SVM.ADDON_OPENADANOSTEMPLE", "addon_open_adanos_temple")];
  When "C_SVM.ATTENTAT_ADDON_DESCRIPTION" [("C_SVM.ATTENTAT_ADDON_DESCRIPTION", "attentat_addon_description")];
  When "C_SVM.ATTENTAT_ADDON_DESCRIPTION2" [("C_SVM.ATTENTAT_ADDON_DESCRIPTION2", "attentat_addon_description_2")];
  When "C_SVM.ATTENTAT_ADDON_PRO" [("C_SVM.ATTENTAT_ADDON_PRO", "attentat_addon_pro")];
  When "C_SVM.ATTENTAT_ADDON_CONTRA" [("C_SVM.ATTENTAT_ADDON_CONTRA", "attentat_addon_contra")];
  When "C_SVM.MINE_ADDON_DESCRIPTION" [("C_SVM.MINE_ADDON_DESCRIPTION", "mine_addon_description")];
  When "C_SVM.ADDON_SUMMONANCIENTGHOST" [("C_SVM.ADDON_SUMMONANCIENTGHOST", "addon_summon_ancient_ghost")];
  When "C_SVM.ADDON_ANCIENTGHOST_NOTNEAR" [("C_SVM.ADDON_ANCIENTGHOST_NOTNEAR", "addon_ancient_ghost_not_near")];
  When "C_SVM.ADDON_GOLD_DESCRIPTION" [("C_SVM.ADDON_GOLD_DESCRIPTION", "addon_gold_description")];
  When "C_SVM.WATCHYOURAIM" [("C_SVM.WATCHYOURAIM", "watch_your_aim")];
  When "C_SVM.watchyouraimangry" [("C_SVM.watchyouraimangry", "watch_your_aim_angry")];
  When "C_SVM.letsforgetourlittlefight" [("C_SVM.letsforgetourlittlefight", "lets_forget_our_little_fight")];
  When "C_SVM.strange" [("C_SVM.strange", "strange")];
  When "C_SVM.diemortalenemy" [("C_SVM.diemortalenemy", "die_mortal_enemy")];
  When "C_SVM.nowwait" [("C_SVM.nowwait", "now_wait")];
  When "C_SVM.nowwaitintruder" [("C_SVM.nowwaitintruder", "now_wait_intruder")];
  When "C_SVM.youstillnothaveenough" [("C_SVM.youstillnothaveenough", "you_still_not_have_enough")];
  When "C_SVM.youattackedmycharge" [("C_SVM.youattackedmycharge", "you_attacked_my_charge")];
  When "C_SVM.iwillteachyourespectforforeignproperty" [("C_SVM.iwillteachyourespectforforeignproperty", "iwill_teach_you_respect_for_foreign_property")];
  When "C_SVM.youkilledoneofus" [("C_SVM.youkilledoneofus", "you_killed_one_of_us")];
  When "C_SVM.berzerk" [("C_SVM.berzerk", "berzerk")];
  When "C_SVM.youllbesorryforthis" [("C_SVM.youllbesorryforthis", "youll_be_sorry_for_this")];
  When "C_SVM.yesyes" [("C_SVM.yesyes", "yes_yes")];
  When "C_SVM.shitwhatamonster" [("C_SVM.shitwhatamonster", "shit_what_amonster")];
  When "C_SVM.wewillmeetagain" [("C_SVM.wewillmeetagain", "we_will_meet_again")];
  When "C_SVM.nevertrythatagain" [("C_SVM.nevertrythatagain", "never_try_that_again")];
  When "C_SVM.itookyourore" [("C_SVM.itookyourore", "itook_your_ore")];
  When "C_SVM.shitnoore" [("C_SVM.shitnoore", "shit_no_ore")];
  When "C_SVM.youviolatedforbiddenterritory" [("C_SVM.youviolatedforbiddenterritory", "you_violated_forbidden_territory")];
  When "C_SVM.youwannafoolme" [("C_SVM.youwannafoolme", "you_wanna_fool_me")];
  When "C_SVM.whatdidyouinthere" [("C_SVM.whatdidyouinthere", "what_did_you_in_there")];
  When "C_SVM.intruderalert" [("C_SVM.intruderalert", "intruder_alert")];
  When "C_SVM.behindyou" [("C_SVM.behindyou", "behind_you")];
  When "C_SVM.heyheyhey" [("C_SVM.heyheyhey", "hey_hey_hey")];
  When "C_SVM.cheerfight" [("C_SVM.cheerfight", "cheer_fight")];
  When "C_SVM.cheerfriend" [("C_SVM.cheerfriend", "cheer_friend")];
  When "C_SVM.ooh" [("C_SVM.ooh", "ooh")];
  When "C_SVM.yeahwelldone" [("C_SVM.yeahwelldone", "yeah_well_done")];
  When "C_SVM.hedefeatedhim" [("C_SVM.hedefeatedhim", "he_defeatedhim")];
  When "C_SVM.hedeservedit" [("C_SVM.hedeservedit", "he_deserv_edit")];
  When "C_SVM.hekilledhim" [("C_SVM.hekilledhim", "he_killed_him")];
  When "C_SVM.itwasagoodfight" [("C_SVM.itwasagoodfight", "it_was_agood_fight")];
  When "C_SVM.friendlygreetings" [("C_SVM.friendlygreetings", "friendly_greetings")];
  When "C_SVM.algreetings" [("C_SVM.algreetings", "al_greetings")];
  When "C_SVM.magegreetings" [("C_SVM.magegreetings", "mage_greetings")];
  When "C_SVM.sectgreetings" [("C_SVM.sectgreetings", "sect_greetings")];
  When "C_SVM.thereheis" [("C_SVM.thereheis", "there_he_is")];
  When "C_SVM.nolearnovermax" [("C_SVM.nolearnovermax", "no_learn_over_max")];
  When "C_SVM.nolearnyoualreadyknow" [("C_SVM.nolearnyoualreadyknow", "no_learn_you_already_know")];
  When "C_SVM.heyyou" [("C_SVM.heyyou", "hey_you")];
  When "C_SVM.whatdoyouwant" [("C_SVM.whatdoyouwant", "what_do_you_want")];
  When "C_SVM.isaidwhatdoyouwant" [("C_SVM.isaidwhatdoyouwant", "isaid_what_do_you_want")];
  When "C_SVM.makeway" [("C_SVM.makeway", "make_way")];
  When "C_SVM.outofmyway" [("C_SVM.outofmyway", "out_of_my_way")];
  When "C_SVM.youdeaforwhat" [("C_SVM.youdeaforwhat", "you_deaf_or_what")];
  When "C_SVM.lookaway" [("C_SVM.lookaway", "look_away")];
  When "C_SVM.okaykeepit" [("C_SVM.okaykeepit", "okay_keep_it")];
  When "C_SVM.whatsthat" [("C_SVM.whatsthat", "whats_that")];
  When "C_SVM.thatsmyweapon" [("C_SVM.thatsmyweapon", "thats_my_weapon")];
  When "C_SVM.giveittome" [("C_SVM.giveittome", "give_it_tome")];
  When "C_SVM.youcankeepthecrap" [("C_SVM.youcankeepthecrap", "you_can_keep_the_crap")];
  When "C_SVM.theykilledmyfriend" [("C_SVM.theykilledmyfriend", "they_killed_my_friend")];
  When "C_SVM.suckergotsome" [("C_SVM.suckergotsome", "sucker_got_some")];
  When "C_SVM.suckerdefeatedebr" [("C_SVM.suckerdefeatedebr", "sucker_defeated_ebr")];
  When "C_SVM.suckerdefeatedgur" [("C_SVM.suckerdefeatedgur", "sucker_defeated_gur")];
  When "C_SVM.suckerdefeatedmage" [("C_SVM.suckerdefeatedmage", "sucker_defeated_mage")];
  When "C_SVM.suckerdefeatednov_guard" [("C_SVM.suckerdefeatednov_guard", "sucker_defeated_nov_guard")];
  When "C_SVM.suckerdefeatedvlk_guard" [("C_SVM.suckerdefeatedvlk_guard", "sucker_defeated_vlk_guard")];
  When "C_SVM.youdefeatedmycomrade" [("C_SVM.youdefeatedmycomrade", "you_defeated_my_comrade")];
  When "C_SVM.youdefeatednov_guard" [("C_SVM.youdefeatednov_guard", "you_defeated_nov_guard")];
  When "C_SVM.youdefeatedvlk_guard" [("C_SVM.youdefeatedvlk_guard", "you_defeated_vlk_guard")];
  When "C_SVM.youstolefromme" [("C_SVM.youstolefromme", "you_stole_from_me")];
  When "C_SVM.youstolefromus" [("C_SVM.youstolefromus", "you_stole_from_us")];
  When "C_SVM.youstolefromebr" [("C_SVM.youstolefromebr", "you_stole_from_ebr")];
  When "C_SVM.youstolefromgur" [("C_SVM.youstolefromgur", "you_stole_from_gur")];
  When "C_SVM.stolefrommage" [("C_SVM.stolefrommage", "stole_urom_mage")];
  When "C_SVM.youkilledmyfriend" [("C_SVM.youkilledmyfriend", "you_killedmyfriend")];
  When "C_SVM.youkilledebr" [("C_SVM.youkilledebr", "you_killed_ebr")];
  When "C_SVM.youkilledgur" [("C_SVM.youkilledgur", "you_killed_gur")];
  When "C_SVM.youkilledmage" [("C_SVM.youkilledmage", "you_killed_mage")];
  When "C_SVM.youkilledocfolk" [("C_SVM.youkilledocfolk", "you_killed_oc_folk")];
  When "C_SVM.youkilledncfolk" [("C_SVM.youkilledncfolk", "you_killed_nc_folk")];
  When "C_SVM.youkilledpsifolk" [("C_SVM.youkilledpsifolk", "you_killed_psi_folk")];
  When "C_SVM.getthingsright" [("C_SVM.getthingsright", "get_things_right")];
  When "C_SVM.youdefeatedmewell" [("C_SVM.youdefeatedmewell", "you_defeated_me_well")];
  When "C_SVM.om" [("C_SVM.om", "om")]
  ]%string.
(** addon/daedalus.hh:731-749 *)
Definition fields_IMenu : list field := map (fun '(s, t, n) => mkField s t n) [
  ("back_pic", 0, 1); ("back_world", 0, 1); ("pos_x", 2, 1); ("pos_y", 2, 1); ("dim_x", 2, 1);
  ("dim_y", 2, 1); ("alpha", 2, 1); ("music_theme", 0, 1); ("event_timer_msec", 2, 1); ("items", 0, 150);
  ("flags", 2, 1); ("default_outgame", 2, 1); ("default_ingame", 2, 1)]%string.
(** addon/daedalus.cc:661-676 *)
Definition regs_IMenu : list reg := [
  Reg "C_MENU.BACKPIC" "back_pic";
  Reg "C_MENU.BACKWORLD" "back_world";
  Reg "C_MENU.POSX" "pos_x";
  Reg "C_MENU.POSY" "pos_y";
  Reg "C_MENU.DIMX" "dim_x";
  Reg "C_MENU.DIMY" "dim_y";
  Reg "C_MENU.ALPHA" "alpha";
  Reg "C_MENU.MUSICTHEME" "music_theme";
  Reg "C_MENU.EVENTTIMERMSEC" "event_timer_msec";
  Reg "C_MENU.ITEMS" "items";
  Reg "C_MENU.FLAGS" "flags";
  Reg "C_MENU.DEFAULTOUTGAME" "default_outgame";
  Reg "C_MENU.DEFAULTINGAME" "default_ingame"
  ]%string.
(** addon/daedalus.hh:848-884 *)
Definition fields_IMenuItem : list field := map (fun '(s, t, n) => mkField s t n) [
  ("fontname", 0, 1); ("text", 0, 10); ("backpic", 0, 1); ("alphamode", 0, 1); ("alpha", 2, 1);
  ("type", 2, 1); ("on_sel_action", 2, 5); ("on_sel_action_s", 0, 5); ("on_chg_set_option", 0, 1);
  ("on_chg_set_option_section", 0, 1); ("on_event_action", 2, 10); ("pos_x", 2, 1); ("pos_y", 2, 1);
  ("dim_x", 2, 1); ("dim_y", 2, 1); ("size_start_scale", 1, 1); ("flags", 2, 1); ("open_delay_time", 1, 1);
  ("open_duration", 1, 1); ("user_float", 1, 4); ("user_string", 0, 4); ("frame_posx", 2, 1);
  ("frame_posy", 2, 1); ("frame_sizex", 2, 1); ("frame_sizey", 2, 1); ("hide_if_option_section_set", 0, 1);
  ("hide_if_option_set", 0, 1); ("hide_on_value", 2, 1)]%string.
(** addon/daedalus.cc:678-716 *)
Definition regs_IMenuItem : list reg := [
  Reg "C_MENU_ITEM.FONTNAME" "fontname";
  Reg "C_MENU_ITEM.TEXT" "text";
  Reg "C_MENU_ITEM.BACKPIC" "backpic";
  Reg "C_MENU_ITEM.ALPHAMODE" "alphamode";
  Reg "C_MENU_ITEM.ALPHA" "alpha";
  Reg "C_MENU_ITEM.TYPE" "type";
  Reg "C_MENU_ITEM.ONSELACTION" "on_sel_action";
  Reg "C_MENU_ITEM.ONSELACTION_S" "on_sel_action_s";
  Reg "C_MENU_ITEM.ONCHGSETOPTION" "on_chg_set_option";
  Reg "C_MENU_ITEM.ONCHGSETOPTIONSECTION" "on_chg_set_option_section";
  Reg "C_MENU_ITEM.ONEVENTACTION" "on_event_action";
  Reg "C_MENU_ITEM.POSX" "pos_x";
  Reg "C_MENU_ITEM.POSY" "pos_y";
  Reg "C_MENU_ITEM.DIMX" "dim_x";
  Reg "C_MENU_ITEM.DIMY" "dim_y";
  Reg "C_MENU_ITEM.SIZESTARTSCALE" "size_start_scale";
  Reg "C_MENU_ITEM.FLAGS" "flags";
  Reg "C_MENU_ITEM.OPENDELAYTIME" "open_delay_time";
  Reg "C_MENU_ITEM.OPENDURATION" "open_duration";
  Reg "C_MENU_ITEM.USERFLOAT" "user_float";
  Reg "C_MENU_ITEM.USERSTRING" "user_string";
  Reg "C_MENU_ITEM.FRAMESIZEX" "frame_sizex";
  Reg "C_MENU_ITEM.FRAMESIZEY" "frame_sizey";
  When "C_MENU_ITEM.FRAMEPOSX" [("C_MENU_ITEM.FRAMEPOSX", "frame_posx"); ("C_MENU_ITEM.FRAMEPOSY", "frame_posy")];
  When "C_MENU_ITEM.HIDEIFOPTIONSECTIONSET" [("C_MENU_ITEM.HIDEIFOPTIONSECTIONSET", "hide_if_option_section_set"); ("C_MENU_ITEM.HIDEIFOPTIONSET", "hide_if_option_set"); ("C_MENU_ITEM.HIDEONVALUE", "hide_on_value")]
  ]%string.
(** addon/daedalus.hh:886-912 *)
Definition fields_ICamera : list field := map (fun '(s, t, n) => mkField s t n) [
  ("best_range", 1, 1); ("min_range", 1, 1); ("max_range", 1, 1); ("best_elevation", 1, 1);
  ("min_elevation", 1, 1); ("max_elevation", 1, 1); ("best_azimuth", 1, 1); ("min_azimuth", 1, 1);
  ("max_azimuth", 1, 1); ("best_rot_z", 1, 1); ("min_rot_z", 1, 1); ("max_rot_z", 1, 1);
  ("rot_offset_x", 1, 1); ("rot_offset_y", 1, 1); ("rot_offset_z", 1, 1); ("target_offset_x", 1, 1);
  ("target_offset_y", 1, 1); ("target_offset_z", 1, 1); ("velo_trans", 1, 1); ("velo_rot", 1, 1);
  ("translate", 2, 1); ("rotate", 2, 1); ("collision", 2, 1)]%string.
(** addon/daedalus.cc:718-743 *)
Definition regs_ICamera : list reg := [
  Reg "CCAMSYS.BESTRANGE" "best_range";
  Reg "CCAMSYS.MINRANGE" "min_range";
  Reg "CCAMSYS.MAXRANGE" "max_range";
  Reg "CCAMSYS.BESTELEVATION" "best_elevation";
  Reg "CCAMSYS.MINELEVATION" "min_elevation";
  Reg "CCAMSYS.MAXELEVATION" "max_elevation";
  Reg "CCAMSYS.BESTAZIMUTH" "best_azimuth";
  Reg "CCAMSYS.MINAZIMUTH" "min_azimuth";
  Reg "CCAMSYS.MAXAZIMUTH" "max_azimuth";
  Reg "CCAMSYS.BESTROTZ" "best_rot_z";
  Reg "CCAMSYS.MINROTZ" "min_rot_z";
  Reg "CCAMSYS.MAXROTZ" "max_rot_z";
  Reg "CCAMSYS.ROTOFFSETX" "rot_offset_x";
  Reg "CCAMSYS.ROTOFFSETY" "rot_offset_y";
  Reg "CCAMSYS.ROTOFFSETZ" "rot_offset_z";
  Reg "CCAMSYS.TARGETOFFSETX" "target_offset_x";
  Reg "CCAMSYS.TARGETOFFSETY" "target_offset_y";
  Reg "CCAMSYS.TARGETOFFSETZ" "target_offset_z";
  Reg "CCAMSYS.VELOTRANS" "velo_trans";
  Reg "CCAMSYS.VELOROT" "velo_rot";
  Reg "CCAMSYS.TRANSLATE" "translate";
  Reg "CCAMSYS.ROTATE" "rotate";
  Reg "CCAMSYS.COLLISION" "collision"
  ]%string.
(** addon/daedalus.hh:946-955 *)
Definition fields_IMusicSystem : list field := map (fun '(s, t, n) => mkField s t n) [
  ("volume", 1, 1); ("bit_resolution", 2, 1); ("global_reverb_enabled", 2, 1); ("sample_rate", 2, 1);
  ("num_channels", 2, 1); ("reverb_buffer_size", 2, 1)]%string.
(** addon/daedalus.cc:745-753 *)
Definition regs_IMusicSystem : list reg := [
  Reg "C_MUSICSYS_CFG.VOLUME" "volume";
  Reg "C_MUSICSYS_CFG.BITRESOLUTION" "bit_resolution";
  Reg "C_MUSICSYS_CFG.GLOBALREVERBENABLED" "global_reverb_enabled";
  Reg "C_MUSICSYS_CFG.SAMPLERATE" "sample_rate";
  Reg "C_MUSICSYS_CFG.NUMCHANNELS" "num_channels";
  Reg "C_MUSICSYS_CFG.REVERBBUFFERSIZE" "reverb_buffer_size"
  ]%string.
(** addon/daedalus.hh:957-967 *)
Definition fields_IMusicTheme : list field := map (fun '(s, t, n) => mkField s t n) [
  ("file", 0, 1); ("vol", 1, 1); ("loop", 2, 1); ("reverbmix", 1, 1); ("reverbtime", 1, 1);
  ("transtype", 2, 1); ("transsubtype", 2, 1)]%string.
(** addon/daedalus.cc:755-764 *)
Definition regs_IMusicTheme : list reg := [
  Reg "C_MUSICTHEME.FILE" "file";
  Reg "C_MUSICTHEME.VOL" "vol";
  Reg "C_MUSICTHEME.LOOP" "loop";
  Reg "C_MUSICTHEME.REVERBMIX" "reverbmix";
  Reg "C_MUSICTHEME.REVERBTIME" "reverbtime";
  Reg "C_MUSICTHEME.TRANSTYPE" "transtype";
  Reg "C_MUSICTHEME.TRANSSUBTYPE" "transsubtype"
  ]%string.
(** addon/daedalus.hh:969-976 *)
Definition fields_IMusicJingle : list field := map (fun '(s, t, n) => mkField s t n) [
  ("name", 0, 1); ("loop", 2, 1); ("vol", 1, 1); ("transsubtype", 2, 1)]%string.
(** addon/daedalus.cc:766-772 *)
Definition regs_IMusicJingle : list reg := [
  Reg "C_MUSICJINGLE.NAME" "name";
  Reg "C_MUSICJINGLE.LOOP" "loop";
  Reg "C_MUSICJINGLE.VOL" "vol";
  Reg "C_MUSICJINGLE.TRANSSUBTYPE" "transsubtype"
  ]%string.
(** addon/daedalus.hh:978-1038 *)
Definition fields_IParticleEffect : list field := map (fun '(s, t, n) => mkField s t n) [
  ("pps_value", 1, 1); ("pps_scale_keys_s", 0, 1); ("pps_is_looping", 2, 1); ("pps_is_smooth", 2, 1);
  ("pps_fps", 1, 1); ("pps_create_em_s", 0, 1); ("pps_create_em_delay", 1, 1); ("shp_type_s", 0, 1);
  ("shp_for_s", 0, 1); ("shp_offset_vec_s", 0, 1); ("shp_distrib_type_s", 0, 1);
  ("shp_distrib_walk_speed", 1, 1); ("shp_is_volume", 2, 1); ("shp_dim_s", 0, 1); ("shp_mesh_s", 0, 1);
  ("shp_mesh_render_b", 2, 1); ("shp_scale_keys_s", 0, 1); ("shp_scale_is_looping", 2, 1);
  ("shp_scale_is_smooth", 2, 1); ("shp_scale_fps", 1, 1); ("dir_mode_s", 0, 1); ("dir_for_s", 0, 1);
  ("dir_mode_target_for_s", 0, 1); ("dir_mode_target_pos_s", 0, 1); ("dir_angle_head", 1, 1);
  ("dir_angle_head_var", 1, 1); ("dir_angle_elev", 1, 1); ("dir_angle_elev_var", 1, 1); ("vel_avg", 1, 1);
  ("vel_var", 1, 1); ("lsp_part_avg", 1, 1); ("lsp_part_var", 1, 1); ("fly_gravity_s", 0, 1);
  ("fly_colldet_b", 2, 1); ("vis_name_s", 0, 1); ("vis_orientation_s", 0, 1); ("vis_tex_is_quadpoly", 2, 1);
  ("vis_tex_ani_fps", 1, 1); ("vis_tex_ani_is_looping", 2, 1); ("vis_tex_color_start_s", 0, 1);
  ("vis_tex_color_end_s", 0, 1); ("vis_size_start_s", 0, 1); ("vis_size_end_scale", 1, 1);
  ("vis_alpha_func_s", 0, 1); ("vis_alpha_start", 1, 1); ("vis_alpha_end", 1, 1); ("trl_fade_speed", 1, 1);
  ("trl_texture_s", 0, 1); ("trl_width", 1, 1); ("mrk_fades_peed", 1, 1); ("mrkt_exture_s", 0, 1);
  ("mrk_size", 1, 1); ("flock_mode", 0, 1); ("flock_strength", 1, 1); ("use_emitters_for", 2, 1);
  ("time_start_end_s", 0, 1); ("m_bis_ambient_pfx", 2, 1)]%string.
(** addon/daedalus.cc:774-837 *)
Definition regs_IParticleEffect : list reg := [
  Reg "C_PARTICLEFX.PPSVALUE" "pps_value";
  Reg "C_PARTICLEFX.PPSSCALEKEYS_S" "pps_scale_keys_s";
  Reg "C_PARTICLEFX.PPSISLOOPING" "pps_is_looping";
  Reg "C_PARTICLEFX.PPSISSMOOTH" "pps_is_smooth";
  Reg "C_PARTICLEFX.PPSFPS" "pps_fps";
  Reg "C_PARTICLEFX.PPSCREATEEM_S" "pps_create_em_s";
  Reg "C_PARTICLEFX.PPSCREATEEMDELAY" "pps_create_em_delay";
  Reg "C_PARTICLEFX.SHPTYPE_S" "shp_type_s";
  Reg "C_PARTICLEFX.SHPFOR_S" "shp_for_s";
  Reg "C_PARTICLEFX.SHPOFFSETVEC_S" "shp_offset_vec_s";
  Reg "C_PARTICLEFX.SHPDISTRIBTYPE_S" "shp_distrib_type_s";
  Reg "C_PARTICLEFX.SHPDISTRIBWALKSPEED" "shp_distrib_walk_speed";
  Reg "C_PARTICLEFX.SHPISVOLUME" "shp_is_volume";
  Reg "C_PARTICLEFX.SHPDIM_S" "shp_dim_s";
  Reg "C_PARTICLEFX.SHPMESH_S" "shp_mesh_s";
  Reg "C_PARTICLEFX.SHPMESHRENDER_B" "shp_mesh_render_b";
  Reg "C_PARTICLEFX.SHPSCALEKEYS_S" "shp_scale_keys_s";
  Reg "C_PARTICLEFX.SHPSCALEISLOOPING" "shp_scale_is_looping";
  Reg "C_PARTICLEFX.SHPSCALEISSMOOTH" "shp_scale_is_smooth";
  Reg "C_PARTICLEFX.SHPSCALEFPS" "shp_scale_fps";
  Reg "C_PARTICLEFX.DIRMODE_S" "dir_mode_s";
  Reg "C_PARTICLEFX.DIRFOR_S" "dir_for_s";
  Reg "C_PARTICLEFX.DIRMODETARGETFOR_S" "dir_mode_target_for_s";
  Reg "C_PARTICLEFX.DIRMODETARGETPOS_S" "dir_mode_target_pos_s";
  Reg "C_PARTICLEFX.DIRANGLEHEAD" "dir_angle_head";
  Reg "C_PARTICLEFX.DIRANGLEHEADVAR" "dir_angle_head_var";
  Reg "C_PARTICLEFX.DIRANGLEELEV" "dir_angle_elev";
  Reg "C_PARTICLEFX.DIRANGLEELEVVAR" "dir_angle_elev_var";
  Reg "C_PARTICLEFX.VELAVG" "vel_avg";
  Reg "C_PARTICLEFX.VELVAR" "vel_var";
  Reg "C_PARTICLEFX.LSPPARTAVG" "lsp_part_avg";
  Reg "C_PARTICLEFX.LSPPARTVAR" "lsp_part_var";
  Reg "C_PARTICLEFX.FLYGRAVITY_S" "fly_gravity_s";
  Reg "C_PARTICLEFX.FLYCOLLDET_B" "fly_colldet_b";
  Reg "C_PARTICLEFX.VISNAME_S" "vis_name_s";
  Reg "C_PARTICLEFX.VISORIENTATION_S" "vis_orientation_s";
  Reg "C_PARTICLEFX.VISTEXISQUADPOLY" "vis_tex_is_quadpoly";
  Reg "C_PARTICLEFX.VISTEXANIFPS" "vis_tex_ani_fps";
  Reg "C_PARTICLEFX.VISTEXANIISLOOPING" "vis_tex_ani_is_looping";
  Reg "C_PARTICLEFX.VISTEXCOLORSTART_S" "vis_tex_color_start_s";
  Reg "C_PARTICLEFX.VISTEXCOLOREND_S" "vis_tex_color_end_s";
  Reg "C_PARTICLEFX.VISSIZESTART_S" "vis_size_start_s";
  Reg "C_PARTICLEFX.VISSIZEENDSCALE" "vis_size_end_scale";
  Reg "C_PARTICLEFX.VISALPHAFUNC_S" "vis_alpha_func_s";
  Reg "C_PARTICLEFX.VISALPHASTART" "vis_alpha_start";
  Reg "C_PARTICLEFX.VISALPHAEND" "vis_alpha_end";
  Reg "C_PARTICLEFX.TRLFADESPEED" "trl_fade_speed";
  Reg "C_PARTICLEFX.TRLTEXTURE_S" "trl_texture_s";
  Reg "C_PARTICLEFX.TRLWIDTH" "trl_width";
  Reg "C_PARTICLEFX.MRKFADESPEED" "mrk_fades_peed";
  Reg "C_PARTICLEFX.MRKTEXTURE_S" "mrkt_exture_s";
  Reg "C_PARTICLEFX.MRKSIZE" "mrk_size";
  When "C_PARTICLEFX.FLOCKMODE" [("C_PARTICLEFX.FLOCKMODE", "flock_mode"); ("C_PARTICLEFX.FLOCKSTRENGTH", "flock_strength"); ("C_PARTICLEFX.USEEMITTERSFOR", "use_emitters_for"); ("C_PARTICLEFX.TIMESTARTEND_S", "time_start_end_s"); ("C_PARTICLEFX.M_BISAMBIENTPFX", "m_bis_ambient_pfx")]
  ]%string.
(** addon/daedalus.hh:1040-1091 *)
Definition fields_IEffectBase : list field := map (fun '(s, t, n) => mkField s t n) [
  ("vis_name_s", 0, 1); ("vis_size_s", 0, 1); ("vis_alpha", 1, 1); ("vis_alpha_blend_func_s", 0, 1);
  ("vis_tex_ani_fps", 1, 1); ("vis_tex_ani_is_looping", 2, 1); ("em_trj_mode_s", 0, 1);
  ("em_trj_origin_node", 0, 1); ("em_trj_target_node", 0, 1); ("em_trj_target_range", 1, 1);
  ("em_trj_target_azi", 1, 1); ("em_trj_target_elev", 1, 1); ("em_trj_num_keys", 2, 1);
  ("em_trj_num_keys_var", 2, 1); ("em_trj_angle_elev_var", 1, 1); ("em_trj_angle_head_var", 1, 1);
  ("em_trj_key_dist_var", 1, 1); ("em_trj_loop_mode_s", 0, 1); ("em_trj_ease_func_s", 0, 1);
  ("em_trj_ease_vel", 1, 1); ("em_trj_dyn_update_delay", 1, 1); ("em_trj_dyn_update_target_only", 2, 1);
  ("em_fx_create_s", 0, 1); ("em_fx_invest_origin_s", 0, 1); ("em_fx_invest_target_s", 0, 1);
  ("em_fx_trigger_delay", 1, 1); ("em_fx_create_down_trj", 2, 1); ("em_action_coll_dyn_s", 0, 1);
  ("em_action_coll_stat_s", 0, 1); ("em_fx_coll_stat_s", 0, 1); ("em_fx_coll_dyn_s", 0, 1);
  ("em_fx_coll_stat_align_s", 0, 1); ("em_fx_coll_dyn_align_s", 0, 1); ("em_fx_lifespan", 1, 1);
  ("em_check_collision", 2, 1); ("em_adjust_shp_to_origin", 2, 1); ("em_invest_next_key_duration", 1, 1);
  ("em_fly_gravity", 1, 1); ("em_self_rot_vel_s", 0, 1); ("user_string", 0, 5); ("light_preset_name", 0, 1);
  ("sfx_id", 0, 1); ("sfx_is_ambient", 2, 1); ("send_assess_magic", 2, 1); ("secs_per_damage", 1, 1);
  ("em_fx_coll_dyn_perc_s", 0, 1)]%string.
(** addon/daedalus.cc:839-890 *)
Definition regs_IEffectBase : list reg := [
  Reg "CFX_BASE.VISNAME_S" "vis_name_s";
  Reg "CFX_BASE.VISSIZE_S" "vis_size_s";
  Reg "CFX_BASE.VISALPHA" "vis_alpha";
  Reg "CFX_BASE.VISALPHABLENDFUNC_S" "vis_alpha_blend_func_s";
  Reg "CFX_BASE.VISTEXANIFPS" "vis_tex_ani_fps";
  Reg "CFX_BASE.VISTEXANIISLOOPING" "vis_tex_ani_is_looping";
  Reg "CFX_BASE.EMTRJMODE_S" "em_trj_mode_s";
  Reg "CFX_BASE.EMTRJORIGINNODE" "em_trj_origin_node";
  Reg "CFX_BASE.EMTRJTARGETNODE" "em_trj_target_node";
  Reg "CFX_BASE.EMTRJTARGETRANGE" "em_trj_target_range";
  Reg "CFX_BASE.EMTRJTARGETAZI" "em_trj_target_azi";
  Reg "CFX_BASE.EMTRJTARGETELEV" "em_trj_target_elev";
  Reg "CFX_BASE.EMTRJNUMKEYS" "em_trj_num_keys";
  Reg "CFX_BASE.EMTRJNUMKEYSVAR" "em_trj_num_keys_var";
  Reg "CFX_BASE.EMTRJANGLEELEVVAR" "em_trj_angle_elev_var";
  Reg "CFX_BASE.EMTRJANGLEHEADVAR" "em_trj_angle_head_var";
  Reg "CFX_BASE.EMTRJKEYDISTVAR" "em_trj_key_dist_var";
  Reg "CFX_BASE.EMTRJLOOPMODE_S" "em_trj_loop_mode_s";
  Reg "CFX_BASE.EMTRJEASEFUNC_S" "em_trj_ease_func_s";
  Reg "CFX_BASE.EMTRJEASEVEL" "em_trj_ease_vel";
  Reg "CFX_BASE.EMTRJDYNUPDATEDELAY" "em_trj_dyn_update_delay";
  Reg "CFX_BASE.EMTRJDYNUPDATETARGETONLY" "em_trj_dyn_update_target_only";
  Reg "CFX_BASE.EMFXCREATE_S" "em_fx_create_s";
  Reg "CFX_BASE.EMFXINVESTORIGIN_S" "em_fx_invest_origin_s";
  Reg "CFX_BASE.EMFXINVESTTARGET_S" "em_fx_invest_target_s";
  Reg "CFX_BASE.EMFXTRIGGERDELAY" "em_fx_trigger_delay";
  Reg "CFX_BASE.EMFXCREATEDOWNTRJ" "em_fx_create_down_trj";
  Reg "CFX_BASE.EMACTIONCOLLDYN_S" "em_action_coll_dyn_s";
  Reg "CFX_BASE.EMACTIONCOLLSTAT_S" "em_action_coll_stat_s";
  Reg "CFX_BASE.EMFXCOLLSTAT_S" "em_fx_coll_stat_s";
  Reg "CFX_BASE.EMFXCOLLDYN_S" "em_fx_coll_dyn_s";
  Reg "CFX_BASE.EMFXCOLLSTATALIGN_S" "em_fx_coll_stat_align_s";
  Reg "CFX_BASE.EMFXCOLLDYNALIGN_S" "em_fx_coll_dyn_align_s";
  Reg "CFX_BASE.EMFXLIFESPAN" "em_fx_lifespan";
  Reg "CFX_BASE.EMCHECKCOLLISION" "em_check_collision";
  Reg "CFX_BASE.EMADJUSTSHPTOORIGIN" "em_adjust_shp_to_origin";
  Reg "CFX_BASE.EMINVESTNEXTKEYDURATION" "em_invest_next_key_duration";
  Reg "CFX_BASE.EMFLYGRAVITY" "em_fly_gravity";
  Reg "CFX_BASE.EMSELFROTVEL_S" "em_self_rot_vel_s";
  Reg "CFX_BASE.USERSTRING" "user_string";
  Reg "CFX_BASE.LIGHTPRESETNAME" "light_preset_name";
  Reg "CFX_BASE.SFXID" "sfx_id";
  Reg "CFX_BASE.SFXISAMBIENT" "sfx_is_ambient";
  Reg "CFX_BASE.SENDASSESSMAGIC" "send_assess_magic";
  Reg "CFX_BASE.SECSPERDAMAGE" "secs_per_damage";
  When "CFX_BASE.EMFXCOLLDYNPERC_S" [("CFX_BASE.EMFXCOLLDYNPERC_S", "em_fx_coll_dyn_perc_s")]
  ]%string.
(** addon/daedalus.hh:1093-1128 *)
Definition fields_IParticleEffectEmitKey : list field := map (fun '(s, t, n) => mkField s t n) [
  ("vis_name_s", 0, 1); ("vis_size_scale", 1, 1); ("scale_duration", 1, 1); ("pfx_pps_value", 1, 1);
  ("pfx_pps_is_smooth_chg", 2, 1); ("pfx_pps_is_looping_chg", 2, 1); ("pfx_sc_time", 1, 1);
  ("pfx_fly_gravity_s", 0, 1); ("pfx_shp_dim_s", 0, 1); ("pfx_shp_is_volume_chg", 2, 1);
  ("pfx_shp_scale_fps", 1, 1); ("pfx_shp_distrib_walks_peed", 1, 1); ("pfx_shp_offset_vec_s", 0, 1);
  ("pfx_shp_distrib_type_s", 0, 1); ("pfx_dir_mode_s", 0, 1); ("pfx_dir_for_s", 0, 1);
  ("pfx_dir_mode_target_for_s", 0, 1); ("pfx_dir_mode_target_pos_s", 0, 1); ("pfx_vel_avg", 1, 1);
  ("pfx_lsp_part_avg", 1, 1); ("pfx_vis_alpha_start", 1, 1); ("light_preset_name", 0, 1);
  ("light_range", 1, 1); ("sfx_id", 0, 1); ("sfx_is_ambient", 2, 1); ("em_create_fx_id", 0, 1);
  ("em_fly_gravity", 1, 1); ("em_self_rot_vel_s", 0, 1); ("em_trj_mode_s", 0, 1); ("em_trj_ease_vel", 1, 1);
  ("em_check_collision", 2, 1); ("em_fx_lifespan", 1, 1)]%string.
(** addon/daedalus.cc:111-146 *)
Definition regs_IParticleEffectEmitKey : list reg := [
  Reg "C_PARTICLEFXEMITKEY.VISNAME_S" "vis_name_s";
  Reg "C_PARTICLEFXEMITKEY.VISSIZESCALE" "vis_size_scale";
  Reg "C_PARTICLEFXEMITKEY.SCALEDURATION" "scale_duration";
  Reg "C_PARTICLEFXEMITKEY.PFX_PPSVALUE" "pfx_pps_value";
  Reg "C_PARTICLEFXEMITKEY.PFX_PPSISSMOOTHCHG" "pfx_pps_is_smooth_chg";
  Reg "C_PARTICLEFXEMITKEY.PFX_PPSISLOOPINGCHG" "pfx_pps_is_looping_chg";
  Reg "C_PARTICLEFXEMITKEY.PFX_SCTIME" "pfx_sc_time";
  Reg "C_PARTICLEFXEMITKEY.PFX_FLYGRAVITY_S" "pfx_fly_gravity_s";
  Reg "C_PARTICLEFXEMITKEY.PFX_SHPDIM_S" "pfx_shp_dim_s";
  Reg "C_PARTICLEFXEMITKEY.PFX_SHPISVOLUMECHG" "pfx_shp_is_volume_chg";
  Reg "C_PARTICLEFXEMITKEY.PFX_SHPSCALEFPS" "pfx_shp_scale_fps";
  Reg "C_PARTICLEFXEMITKEY.PFX_SHPDISTRIBWALKSPEED" "pfx_shp_distrib_walks_peed";
  Reg "C_PARTICLEFXEMITKEY.PFX_SHPOFFSETVEC_S" "pfx_shp_offset_vec_s";
  Reg "C_PARTICLEFXEMITKEY.PFX_SHPDISTRIBTYPE_S" "pfx_shp_distrib_type_s";
  Reg "C_PARTICLEFXEMITKEY.PFX_DIRMODE_S" "pfx_dir_mode_s";
  Reg "C_PARTICLEFXEMITKEY.PFX_DIRFOR_S" "pfx_dir_for_s";
  Reg "C_PARTICLEFXEMITKEY.PFX_DIRMODETARGETFOR_S" "pfx_dir_mode_target_for_s";
  Reg "C_PARTICLEFXEMITKEY.PFX_DIRMODETARGETPOS_S" "pfx_dir_mode_target_pos_s";
  Reg "C_PARTICLEFXEMITKEY.PFX_VELAVG" "pfx_vel_avg";
  Reg "C_PARTICLEFXEMITKEY.PFX_LSPPARTAVG" "pfx_lsp_part_avg";
  Reg "C_PARTICLEFXEMITKEY.PFX_VISALPHASTART" "pfx_vis_alpha_start";
  Reg "C_PARTICLEFXEMITKEY.LIGHTPRESETNAME" "light_preset_name";
  Reg "C_PARTICLEFXEMITKEY.LIGHTRANGE" "light_range";
  Reg "C_PARTICLEFXEMITKEY.SFXID" "sfx_id";
  Reg "C_PARTICLEFXEMITKEY.SFXISAMBIENT" "sfx_is_ambient";
  Reg "C_PARTICLEFXEMITKEY.EMCREATEFXID" "em_create_fx_id";
  Reg "C_PARTICLEFXEMITKEY.EMFLYGRAVITY" "em_fly_gravity";
  Reg "C_PARTICLEFXEMITKEY.EMSELFROTVEL_S" "em_self_rot_vel_s";
  Reg "C_PARTICLEFXEMITKEY.EMTRJMODE_S" "em_trj_mode_s";
  Reg "C_PARTICLEFXEMITKEY.EMTRJEASEVEL" "em_trj_ease_vel";
  Reg "C_PARTICLEFXEMITKEY.EMCHECKCOLLISION" "em_check_collision";
  Reg "C_PARTICLEFXEMITKEY.EMFXLIFESPAN" "em_fx_lifespan"
  ]%string.
(** addon/daedalus.hh:1170-1176 *)
Definition fields_IFightAi : list field := map (fun '(s, t, n) => mkField s t n) [
  ("move", 2, 6)]%string.
(** addon/daedalus.cc:83-86 *)
Definition regs_IFightAi : list reg := [
  Reg "C_FIGHTAI.MOVE" "move"
  ]%string.
(** addon/daedalus.hh:1178-1190 *)
Definition fields_ISoundEffect : list field := map (fun '(s, t, n) => mkField s t n) [
  ("file", 0, 1); ("pitch_off", 2, 1); ("pitch_var", 2, 1); ("vol", 2, 1); ("loop", 2, 1);
  ("loop_start_offset", 2, 1); ("loop_end_offset", 2, 1); ("reverb_level", 1, 1); ("pfx_name", 0, 1)]%string.
(** addon/daedalus.cc:88-99 *)
Definition regs_ISoundEffect : list reg := [
  Reg "C_SFX.FILE" "file";
  Reg "C_SFX.PITCHOFF" "pitch_off";
  Reg "C_SFX.PITCHVAR" "pitch_var";
  Reg "C_SFX.VOL" "vol";
  Reg "C_SFX.LOOP" "loop";
  Reg "C_SFX.LOOPSTARTOFFSET" "loop_start_offset";
  Reg "C_SFX.LOOPENDOFFSET" "loop_end_offset";
  Reg "C_SFX.REVERBLEVEL" "reverb_level";
  Reg "C_SFX.PFXNAME" "pfx_name"
  ]%string.
(** addon/daedalus.hh:1192-1201 *)
Definition fields_ISoundSystem : list field := map (fun '(s, t, n) => mkField s t n) [
  ("volume", 1, 1); ("bit_resolution", 2, 1); ("sample_rate", 2, 1); ("use_stereo", 2, 1);
  ("num_sfx_channels", 2, 1); ("used_3d_provider_name", 0, 1)]%string.
(** addon/daedalus.cc:101-109 *)
Definition regs_ISoundSystem : list reg := [
  Reg "C_SNDSYS_CFG.VOLUME" "volume";
  Reg "C_SNDSYS_CFG.BITRESOLUTION" "bit_resolution";
  Reg "C_SNDSYS_CFG.SAMPLERATE" "sample_rate";
  Reg "C_SNDSYS_CFG.USESTEREO" "use_stereo";
  Reg "C_SNDSYS_CFG.NUMSFXCHANNELS" "num_sfx_channels";
  Reg "C_SNDSYS_CFG.USED3DPROVIDERNAME" "used_3d_provider_name"
  ]%string.
(** addon/daedalus.cc:16-36; the numbers stand for the C++ types. *)
Definition script_classes : list klass_reg := [
  mkKlass 1 "C_GILVALUES" fields_IGuildValues regs_IGuildValues;
  mkKlass 2 "C_NPC" fields_INpc regs_INpc;
  mkKlass 3 "C_MISSION" fields_IMission regs_IMission;
  mkKlass 4 "C_ITEM" fields_IItem regs_IItem;
  mkKlass 5 "C_FOCUS" fields_IFocus regs_IFocus;
  mkKlass 6 "C_INFO" fields_IInfo regs_IInfo;
  mkKlass 7 "C_ITEMREACT" fields_IItemReact regs_IItemReact;
  mkKlass 8 "C_SPELL" fields_ISpell regs_ISpell;
  mkKlass 9 "C_SVM" fields_ISvm regs_ISvm;
  mkKlass 10 "C_MENU" fields_IMenu regs_IMenu;
  mkKlass 11 "C_MENU_ITEM" fields_IMenuItem regs_IMenuItem;
  mkKlass 12 "CCAMSYS" fields_ICamera regs_ICamera;
  mkKlass 13 "C_MUSICSYS_CFG" fields_IMusicSystem regs_IMusicSystem;
  mkKlass 14 "C_MUSICTHEME" fields_IMusicTheme regs_IMusicTheme;
  mkKlass 15 "C_MUSICJINGLE" fields_IMusicJingle regs_IMusicJingle;
  mkKlass 16 "C_PARTICLEFX" fields_IParticleEffect regs_IParticleEffect;
  mkKlass 17 "CFX_BASE" fields_IEffectBase regs_IEffectBase;
  mkKlass 18 "C_PARTICLEFXEMITKEY" fields_IParticleEffectEmitKey regs_IParticleEffectEmitKey;
  mkKlass 19 "C_FIGHTAI" fields_IFightAi regs_IFightAi;
  mkKlass 20 "C_SFX" fields_ISoundEffect regs_ISoundEffect;
  mkKlass 21 "C_SNDSYS_CFG" fields_ISoundSystem regs_ISoundSystem].
(** addon/daedalus.cc:15-37 [register_all_script_classes] *)
Definition register_all (names : list (bytes * N)) (l : list sym) : list sym * outcome unit :=
  in_turn (register_class names) script_classes l.
