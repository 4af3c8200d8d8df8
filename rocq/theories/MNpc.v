(** Model of [VNpc]: src/vobs/Misc.cc:256-599. *)

From Coq Require Import String.
From Verif Require Import MBase MStream MBoxes MText MClasses MArchive MVob.
Local Open Scope N_scope.

(** vobs/Misc.hh:451 [VNpc::Talent] *)
Record talent := mk_talent { talent_talent : Z; talent_value : Z; talent_skill : Z }.
(** vobs/Misc.cc:256-260 *)
Definition load_talent (c : cfg) : prog oid talent :=
  (do talent_ <- p_rd KInt ;
   do value_ <- p_rd KInt ;
   do skill_ <- p_rd KInt ;
   PRet (mk_talent talent_ value_ skill_))%p.
(** vobs/Misc.cc:262-266 *)
Definition save_talent (c : cfg) (x : talent) : list (wop oid) :=
  [wI "talent" (talent_talent x); wI "value" (talent_value x); wI "skill" (talent_skill x)].
(** The object with its references renamed. *)
Definition map_talent (ph : oid -> oid) (x : talent) : talent :=
  mk_talent (talent_talent x) (talent_value x) (talent_skill x).
(** vobs/Misc.hh:495-505 [VNpc::News] *)
Record news := mkNews { nw_told : bool; nw_spread_time : N; nw_spread_type : Z; nw_id : Z; nw_gossip : bool;
  nw_guild_victim : bool; nw_witness : bytes; nw_offender : bytes; nw_victim : bytes }.
(** vobs/Misc.cc:337-348 *)
Definition p_news : prog oid news :=
  (do told <- p_rd KBool ;
   do time <- p_rd KFloat ;
   do type <- p_rd KInt ;
   do id <- p_rd KInt ;
   do gossip <- p_rd KBool ;
   do guild <- p_rd KBool ;
   do witness <- p_rd KStr ;
   do offender <- p_rd KStr ;
   do victim <- p_rd KStr ;
   PRet (mkNews told time type id gossip guild witness offender victim))%p.
(** vobs/Misc.cc:504-514 *)
Definition w_news (n : news) : list (wop oid) :=
  [wB "told" (nw_told n); wF "spread_time" (nw_spread_time n); wI "spreadType" (nw_spread_type n);
   wI "news_id" (nw_id n); wB "gossip" (nw_gossip n); wB "guildvictim" (nw_guild_victim n);
   wS "witnessName" (nw_witness n); wS "offenderName" (nw_offender n); wS "victimName" (nw_victim n)].
(** vobs/Misc.hh:468-473 [VNpc::Slot] *)
Record slot := mkSlot { sl_used : bool; sl_name : bytes; sl_item : option oid; sl_in_inventory : bool }.
(** vobs/Misc.cc:383-392 *)
Definition p_slot : prog oid slot :=
  (do used <- p_rd KBool ;
   do name <- p_rd KStr ;
   do '(item, inv) <- (if used then (
        do item <- p_obj oCItem ;
        do inv <- p_rd KBool ;
        PRet (item, inv))%p else PRet (None, false)) ;
   PRet (mkSlot used name item inv))%p.
(** vobs/Misc.cc:545-553 *)
Definition w_slot (s : slot) : list (wop oid) :=
  [wB "used" (sl_used s); wS "name" (sl_name s)] ++
  (if sl_used s then [wO "vob" (sl_item s); wB "inInv" (sl_in_inventory s)] else []).
Definition map_slot (ph : oid -> oid) (s : slot) : slot :=
  mkSlot (sl_used s) (sl_name s) (option_map ph (sl_item s)) (sl_in_inventory s).
(** [item->s_flags & 0x200] *)
Definition has_shortcut (flags : Z) : bool := negb (Z.land flags 512 =? 0)%Z.
(** vobs/Misc.cc:373-379: the flags of the item decide; null is dereferenced. *)
Definition p_item : prog oid (option oid) :=
  PObj (fun o =>
    match o with
    | None => PUndef
    | Some (r, t, fl) =>
        if otype_eqb t oCItem then
          if has_shortcut fl then PRead KInt (fun _ => PRet (Some r)) else PRet (Some r)
        else PThrow ParserError
    end).
(** vobs/Misc.cc:535-542 *)
Definition w_items (fl : oid -> Z) (l : list (option oid)) : list (wop oid) :=
  flat_map (fun p =>
    WObj (numbered "item" (fst p)) (snd p) ::
    match snd p with
    | None => [WUndef]
    | Some r => if has_shortcut (fl r) then [WEntry (numbered "shortKey" (fst p)) (EInt 0)] else []
    end) (indexed 0 l).
(** vobs/Misc.cc:361-370: after the first [;] the loop finds the same [;] again, so that all
    but the first string become empty. *)
Definition unpack (s : bytes) : list bytes := take_while (fun b => negb (beq b x3b)) s :: repeat [] 8.
(** vobs/Misc.cc:525-532 *)
Definition pack (l : list bytes) : bytes :=
  let s := flat_map (fun b => b ++ [x3b]) l in take (len s - 1) s.
(** [static_cast<uint32_t>(r.read_int())] as the length of a vector. *)
Definition p_count32 : prog oid nat := pbind (p_rd KInt) (fun z => PRet (N.to_nat (uint 32 z))).
(** Nine strings, vobs/Misc.cc:355-371 and 520-533 *)
Definition p_packed (c : cfg) : prog oid (list bytes) :=
  if g2 c then (do s <- p_rd KStr ; PRet (unpack s))%p else p_rep 9 (p_rd KStr).
Definition w_packed (c : cfg) (l : list bytes) : list (wop oid) :=
  if g2 c then [wS "packed" (pack l)] else map (wS "packed") l.
(** vobs/Misc.cc:322-327: the game's number of script variables, the other ones of the 100 keep
    their initial value. *)
Definition var_count (c : cfg) : N := if g2 c then 100 else 50.
Definition p_vars (c : cfg) : prog oid (list Z) :=
  (do l <- p_raw (var_count c * 4) (repM (N.to_nat (var_count c)) read_int) ;
   PRet (l ++ repeat 0%Z (100 - N.to_nat (var_count c))))%p.
(** vobs/Misc.cc:478-487 *)
Definition w_ints (l : list Z) : bytes := raw_of (iterM write_int l).
Definition w_numbered (n : string) (l : list Z) : list (wop oid) :=
  map (fun p => WEntry (numbered n (fst p)) (EInt (snd p))) (indexed 0 l).
(** vobs/Misc.hh:441-605 [VNpc]; the arrays are lists *)
Record npc := mk_npc { npc_base : vob; npc_npc_instance : bytes; npc_model_scale : vec3;
  npc_model_fatness : N; npc_overlays : list bytes; npc_flags : Z; npc_guild : Z; npc_guild_true : Z;
  npc_level : Z; npc_xp : Z; npc_xp_next_level : Z; npc_lp : Z; npc_talents : list (option oid);
  npc_fight_tactic : Z; npc_fight_mode : Z; npc_wounded : bool; npc_mad : bool; npc_mad_time : Z;
  npc_player : bool; npc_attributes : list Z; npc_hit_chance : list Z; npc_missions : list Z;
  npc_start_ai_state : bytes; npc_aivar : list Z; npc_script_waypoint : bytes; npc_attitude : Z;
  npc_attitude_temp : Z; npc_name_nr : Z; npc_news : list news; npc_carry_vob : option oid;
  npc_enemy : option oid; npc_move_lock : bool; npc_packed : list bytes; npc_items : list (option oid);
  npc_slots : list slot; npc_current_state_valid : bool; npc_current_state_name : bytes;
  npc_current_state_index : Z; npc_current_state_is_routine : bool; npc_next_state_valid : bool;
  npc_next_state_name : bytes; npc_next_state_index : Z; npc_next_state_is_routine : bool;
  npc_last_ai_state : Z; npc_has_routine : bool; npc_routine_changed : bool; npc_routine_overlay : bool;
  npc_routine_overlay_count : Z; npc_walkmode_routine : Z; npc_weaponmode_routine : bool;
  npc_start_new_routine : bool; npc_ai_state_driven : Z; npc_ai_state_pos : vec3;
  npc_current_routine : bytes; npc_respawn : bool; npc_respawn_time : Z; npc_protection : list Z;
  npc_bs_interruptable_override : Z; npc_npc_type : Z; npc_spell_mana : Z }.
(** vobs/Misc.cc:272-429 *)
Definition load_npc (c : cfg) : prog oid npc :=
  (do b <- load_vob c ;
   do npc_instance_ <- p_rd KStr ;
   do model_scale_ <- p_rd KVec3 ;
   do model_fatness_ <- p_rd KFloat ;
   do overlays_ <- (do n <- p_upto ; p_rep n (p_rd KStr))%p ;
   do flags_ <- p_rd KInt ;
   do guild_ <- p_rd KInt ;
   do guild_true_ <- p_rd KInt ;
   do level_ <- p_rd KInt ;
   do xp_ <- p_rd KInt ;
   do xp_next_level_ <- p_rd KInt ;
   do lp_ <- p_rd KInt ;
   do talents_ <- (do n <- p_size ; p_rep n (p_obj oCNpcTalent))%p ;
   do fight_tactic_ <- p_rd KInt ;
   do fight_mode_ <- p_rd KInt ;
   do wounded_ <- p_rd KBool ;
   do mad_ <- p_rd KBool ;
   do mad_time_ <- p_rd KInt ;
   do player_ <- p_rd KBool ;
   do attributes_ <- p_rep 8 (p_rd KInt) ;
   do hit_chance_ <- (if g2 c then p_rep 4 (p_rd KInt) else PRet (repeat 0%Z 4)) ;
   do missions_ <- p_rep 5 (p_rd KInt) ;
   do start_ai_state_ <- p_rd KStr ;
   do aivar_ <- p_vars c ;
   do script_waypoint_ <- p_rd KStr ;
   do attitude_ <- p_rd KInt ;
   do attitude_temp_ <- p_rd KInt ;
   do name_nr_ <- p_rd KInt ;
   do _ <- p_rd (KRaw 4) ;
   do news_ <- (do n <- p_upto ; p_rep n p_news)%p ;
   do carry_vob_ <- p_vob ;
   do enemy_ <- p_vob ;
   do move_lock_ <- p_rd KBool ;
   do packed_ <- p_packed c ;
   do items_ <- (do n <- p_size ; p_rep n p_item)%p ;
   do slots_ <- (do n <- p_count32 ; p_rep n p_slot)%p ;
   do current_state_valid_ <- p_rd KBool ;
   do current_state_name_ <- p_rd KStr ;
   do current_state_index_ <- p_rd KInt ;
   do current_state_is_routine_ <- p_rd KBool ;
   do next_state_valid_ <- p_rd KBool ;
   do next_state_name_ <- p_rd KStr ;
   do next_state_index_ <- p_rd KInt ;
   do next_state_is_routine_ <- p_rd KBool ;
   do last_ai_state_ <- p_rd KInt ;
   do has_routine_ <- p_rd KBool ;
   do routine_changed_ <- p_rd KBool ;
   do routine_overlay_ <- p_rd KBool ;
   do routine_overlay_count_ <- p_rd KInt ;
   do walkmode_routine_ <- p_rd KInt ;
   do weaponmode_routine_ <- p_rd KBool ;
   do start_new_routine_ <- p_rd KBool ;
   do ai_state_driven_ <- p_rd KInt ;
   do ai_state_pos_ <- p_rd KVec3 ;
   do current_routine_ <- p_rd KStr ;
   do respawn_ <- p_rd KBool ;
   do respawn_time_ <- p_rd KInt ;
   do protection_ <- p_raw 32 (repM 8 read_int) ;
   do '(bs_interruptable_override_, npc_type_, spell_mana_) <- (if g2 c then (
        do bs_interruptable_override_ <- p_rd KInt ;
        do npc_type_ <- p_rd KInt ;
        do spell_mana_ <- p_rd KInt ;
        PRet (bs_interruptable_override_, npc_type_, spell_mana_))%p else PRet (0%Z, 0%Z, 0%Z)) ;
   PRet (mk_npc b npc_instance_ model_scale_ model_fatness_ overlays_ flags_ guild_ guild_true_ level_ xp_
     xp_next_level_ lp_ talents_ fight_tactic_ fight_mode_ wounded_ mad_ mad_time_ player_ attributes_
     hit_chance_ missions_ start_ai_state_ aivar_ script_waypoint_ attitude_ attitude_temp_ name_nr_ news_
     carry_vob_ enemy_ move_lock_ packed_ items_ slots_ current_state_valid_ current_state_name_
     current_state_index_ current_state_is_routine_ next_state_valid_ next_state_name_ next_state_index_
     next_state_is_routine_ last_ai_state_ has_routine_ routine_changed_ routine_overlay_
     routine_overlay_count_ walkmode_routine_ weaponmode_routine_ start_new_routine_ ai_state_driven_
     ai_state_pos_ current_routine_ respawn_ respawn_time_ protection_ bs_interruptable_override_ npc_type_
     spell_mana_))%p.
(** vobs/Misc.cc:431-595 *)
Definition save_npc (c : cfg) (fl : oid -> Z) (x : npc) : list (wop oid) :=
  save_vob c (npc_base x) ++
  [wS "npcInstance" (npc_npc_instance x); wV3 "modelScale" (npc_model_scale x);
   wF "modelFatness" (npc_model_fatness x)] ++
  wCount "numOverlays" (npc_overlays x) :: map (wS "overlay") (npc_overlays x) ++
  [wI "flags" (npc_flags x); wI "guild" (npc_guild x); wI "guildTrue" (npc_guild_true x);
   wI "level" (npc_level x); wI "xp" (npc_xp x); wI "xpnl" (npc_xp_next_level x); wI "lp" (npc_lp x)] ++
  wCount "numTalents" (npc_talents x) :: map (wO "%") (npc_talents x) ++
  [wI "fightTactic" (npc_fight_tactic x); wI "fightMode" (npc_fight_mode x); wB "wounded" (npc_wounded x);
   wB "mad" (npc_mad x); wI "madTime" (npc_mad_time x); wB "player" (npc_player x)] ++
  w_numbered "atr" (npc_attributes x) ++
  (if g2 c then w_numbered "hc" (npc_hit_chance x) else []) ++
  w_numbered "mission" (npc_missions x) ++
  [wS "startAIState" (npc_start_ai_state x)] ++
  [wR "scriptVars" (w_ints (firstn (N.to_nat (var_count c)) (npc_aivar x)))] ++
  [wS "scriptWp" (npc_script_waypoint x); wI "attitude" (npc_attitude x);
   wI "tmpAttitude" (npc_attitude_temp x); wI "nameNr" (npc_name_nr x)] ++
  [wR "spells" (zeros 4)] ++
  wCount "NumOfEntries" (npc_news x) :: flat_map w_news (npc_news x) ++
  [wO "carryVob" (npc_carry_vob x); wO "enemy" (npc_enemy x); wB "moveLock" (npc_move_lock x)] ++
  w_packed c (npc_packed x) ++
  wCount "itemCount" (npc_items x) :: w_items fl (npc_items x) ++
  wCount "numInvSlots" (npc_slots x) :: flat_map w_slot (npc_slots x) ++
  [wB "curState.valid" (npc_current_state_valid x); wS "curState.name" (npc_current_state_name x);
   wI "curState.prgIndex" (npc_current_state_index x);
   wB "curState.isRtnState" (npc_current_state_is_routine x); wB "nextState.valid" (npc_next_state_valid x);
   wS "nextState.name" (npc_next_state_name x); wI "nextState.prgIndex" (npc_next_state_index x);
   wB "nextState.isRtnState" (npc_next_state_is_routine x); wI "lastAIState" (npc_last_ai_state x);
   wB "hasRoutine" (npc_has_routine x); wB "rtnChanged" (npc_routine_changed x);
   wB "rtnOverlay" (npc_routine_overlay x); wI "rtnOverlayCount" (npc_routine_overlay_count x);
   wI "walkmode_routine" (npc_walkmode_routine x); wB "weaponmode_routine" (npc_weaponmode_routine x);
   wB "startNewRoutine" (npc_start_new_routine x); wI "aiStateDriven" (npc_ai_state_driven x);
   wV3 "aiStatePos" (npc_ai_state_pos x); wS "curRoutine" (npc_current_routine x);
   wB "respawn" (npc_respawn x); wI "respawnTime" (npc_respawn_time x)] ++
  [wR "protection" (w_ints (npc_protection x))] ++
  (if g2 c then [wI "bsInterruptableOverride" (npc_bs_interruptable_override x); wI "npcType" (npc_npc_type x);
   wI "spellMana" (npc_spell_mana x)] else []).
(** The object with its references renamed. *)
Definition map_npc (ph : oid -> oid) (x : npc) : npc :=
  mk_npc (map_vob ph (npc_base x)) (npc_npc_instance x) (npc_model_scale x) (npc_model_fatness x)
  (npc_overlays x) (npc_flags x) (npc_guild x) (npc_guild_true x) (npc_level x) (npc_xp x)
  (npc_xp_next_level x) (npc_lp x) (map (option_map ph) (npc_talents x)) (npc_fight_tactic x)
  (npc_fight_mode x) (npc_wounded x) (npc_mad x) (npc_mad_time x) (npc_player x) (npc_attributes x)
  (npc_hit_chance x) (npc_missions x) (npc_start_ai_state x) (npc_aivar x) (npc_script_waypoint x)
  (npc_attitude x) (npc_attitude_temp x) (npc_name_nr x) (npc_news x) (option_map ph (npc_carry_vob x))
  (option_map ph (npc_enemy x)) (npc_move_lock x) (npc_packed x) (map (option_map ph) (npc_items x))
  (map (map_slot ph) (npc_slots x)) (npc_current_state_valid x) (npc_current_state_name x)
  (npc_current_state_index x) (npc_current_state_is_routine x) (npc_next_state_valid x)
  (npc_next_state_name x) (npc_next_state_index x) (npc_next_state_is_routine x) (npc_last_ai_state x)
  (npc_has_routine x) (npc_routine_changed x) (npc_routine_overlay x) (npc_routine_overlay_count x)
  (npc_walkmode_routine x) (npc_weaponmode_routine x) (npc_start_new_routine x) (npc_ai_state_driven x)
  (npc_ai_state_pos x) (npc_current_routine x) (npc_respawn x) (npc_respawn_time x) (npc_protection x)
  (npc_bs_interruptable_override x) (npc_npc_type x) (npc_spell_mana x).
