(** The classes of the library put together: which objects there are, and what loading, saving,
    type and version of an object are.  Generated from a table by a script kept outside the
    repository; the parts are in MVob.v, MVobs.v, MNpc.v, MCutscene.v, MMaterial.v and MWorld.v. *)

From Coq Require Import String.
From Verif Require Import MBase MStream MBoxes MText MClasses MArchive SArchive MVob MVobs MNpc MCutscene MMaterial MWorld.
Local Open Scope N_scope.

(** The objects [ReadArchive::read_object] makes, Archive.cc:281-503.  Where several C++ classes
    differ only in the type they report ([ZK_OBJECT]), one constructor carries the type.
    [Ovisual]: the visuals without content, vobs/VirtualObject.hh. *)
Inductive object :=
| Ovisual (t : otype)
| Odecal (x : decal)
| Oevman (x : evman)
| Oaihuman (x : aihuman)
| Oaimove (x : aimove)
| Ovob (t : otype) (x : vob)
| Otrigger (t : otype) (x : trigger)
| Omover (x : mover)
| Otlist (x : tlist)
| Otscript (x : tscript)
| Otlevel (x : tlevel)
| Otstart (x : tstart)
| Otuntouch (x : tuntouch)
| Omovable (x : movable)
| Ointeractive (t : otype) (x : interactive)
| Ocontainer (x : container)
| Odoor (x : door)
| Ofire (x : fire)
| Osound (x : sound)
| Odaysound (x : daysound)
| Omusic (t : otype) (x : music)
| Ofarplane (t : otype) (x : farplane)
| Ofog (t : otype) (x : fog)
| Ocamframe (x : camframe)
| Ocscamera (x : cscamera)
| Olight (x : light)
| Oanimate (x : animate)
| Oitem (x : item)
| Olensflare (x : lensflare)
| Opfxctl (x : pfxctl)
| Omsgfilter (x : msgfilter)
| Ocodemaster (x : codemaster)
| Omovctl (x : movctl)
| Otouchdmg (x : touchdmg)
| Oquake (x : quake)
| Oscreenfx (x : screenfx)
| Otalent (x : talent)
| Onpc (x : npc)
| Omessage (x : message)
| Oatomic (x : atomic)
| Ocblock (t : otype) (x : cblock)
| Ocslib (x : cslib)
| Ocsprops (x : csprops)
| Ocscontext (x : cscontext)
| Osavemeta (x : savemeta)
| Opoolitem (x : poolitem)
| Ocsmanager (x : csmanager)
| Ocsplayer (x : csplayer)
| Osky (x : sky)
| Omaterial (x : material)
| Owaypoint (x : waypoint)
| Owaynet (x : waynet)
| Oworld (x : world).
(** [get_object_type] *)
Definition object_type (o : object) : otype :=
  match o with
  | Ovisual t => t
  | Odecal _ => zCDecal
  | Oevman _ => zCEventManager
  | Oaihuman _ => oCAIHuman
  | Oaimove _ => oCAIVobMove
  | Ovob t _ => t
  | Otrigger t _ => t
  | Omover _ => zCMover
  | Otlist _ => zCTriggerList
  | Otscript _ => oCTriggerScript
  | Otlevel _ => oCTriggerChangeLevel
  | Otstart _ => zCTriggerWorldStart
  | Otuntouch _ => zCTriggerUntouch
  | Omovable _ => oCMOB
  | Ointeractive t _ => t
  | Ocontainer _ => oCMobContainer
  | Odoor _ => oCMobDoor
  | Ofire _ => oCMobFire
  | Osound _ => zCVobSound
  | Odaysound _ => zCVobSoundDaytime
  | Omusic t _ => t
  | Ofarplane t _ => t
  | Ofog t _ => t
  | Ocamframe _ => zCCamTrj_KeyFrame
  | Ocscamera _ => zCCSCamera
  | Olight _ => zCVobLight
  | Oanimate _ => zCVobAnimate
  | Oitem _ => oCItem
  | Olensflare _ => zCVobLensFlare
  | Opfxctl _ => zCPFXController
  | Omsgfilter _ => zCMessageFilter
  | Ocodemaster _ => zCCodeMaster
  | Omovctl _ => zCMoverController
  | Otouchdmg _ => oCTouchDamage
  | Oquake _ => zCEarthquake
  | Oscreenfx _ => zCVobScreenFX
  | Otalent _ => oCNpcTalent
  | Onpc _ => oCNpc
  | Omessage _ => oCMsgConversation
  | Oatomic _ => zCCSAtomicBlock
  | Ocblock t _ => t
  | Ocslib _ => zCCSLib
  | Ocsprops _ => zCCSProps
  | Ocscontext _ => zCCSCutsceneContext
  | Osavemeta _ => oCSavegameInfo
  | Opoolitem _ => zCCSPoolItem
  | Ocsmanager _ => oCCSManager
  | Ocsplayer _ => oCCSPlayer
  | Osky _ => zCSkyControler_Outdoor
  | Omaterial _ => zCMaterial
  | Owaypoint _ => zCWaypoint
  | Owaynet _ => zCWayNet
  | Oworld _ => oCWorld
  end.
(** [get_version_identifier]: Object.cc:8-10 and its overrides in src/vobs/*.cc, Material.cc:125-127
    and World.cc:249-251.  In a constructor with several types the class may differ. *)
Definition object_version (c : cfg) (o : object) : N :=
  match o with
  | Ovisual _ => ver_plain c
  | Odecal _ => ver_plain c
  | Oevman _ => ver_plain c
  | Oaihuman _ => ver_plain c
  | Oaimove _ => ver_plain c
  | Ovob _ _ => ver_vob c
  | Otrigger t _ => if otype_eqb t oCCSTrigger then 24577 else 47105
  | Omover _ => 39936
  | Otlist _ => if g2 c then 5505 else 59776
  | Otscript _ => 24577
  | Otlevel _ => 24577
  | Otstart _ => 52224
  | Otuntouch _ => 193
  | Omovable _ => 47105
  | Ointeractive t _ => if otype_eqb t oCMobBed then 61440 else 35585
  | Ocontainer _ => 64513
  | Odoor _ => 64513
  | Ofire _ => 18433
  | Osound _ => 12289
  | Odaysound _ => 12289
  | Omusic _ _ => 0
  | Ofarplane _ _ => ver_vob c
  | Ofog _ _ => if g2 c then 5505 else 64704
  | Ocamframe _ => ver_vob c
  | Ocscamera _ => if g2 c then 33793 else 30720
  | Olight _ => if g2 c then 39168 else 46080
  | Oanimate _ => ver_vob c
  | Oitem _ => 0
  | Olensflare _ => if g2 c then 193 else 64704
  | Opfxctl _ => ver_vob c
  | Omsgfilter _ => 0
  | Ocodemaster _ => 0
  | Omovctl _ => 0
  | Otouchdmg _ => 36865
  | Oquake _ => 52224
  | Oscreenfx _ => ver_vob c
  | Otalent _ => ver_plain c
  | Onpc _ => 52224
  | Omessage _ => ver_plain c
  | Oatomic _ => ver_plain c
  | Ocblock _ _ => ver_plain c
  | Ocslib _ => ver_plain c
  | Ocsprops _ => ver_plain c
  | Ocscontext _ => ver_plain c
  | Osavemeta _ => ver_plain c
  | Opoolitem _ => ver_plain c
  | Ocsmanager _ => ver_plain c
  | Ocsplayer _ => ver_plain c
  | Osky _ => ver_plain c
  | Omaterial _ => ver_material c
  | Owaypoint _ => ver_plain c
  | Owaynet _ => ver_plain c
  | Oworld _ => 64513
  end.
(** The references replaced. *)
Definition object_map (ph : oid -> oid) (o : object) : object :=
  match o with
  | Ovisual t => Ovisual t
  | Odecal x => Odecal (map_decal ph x)
  | Oevman x => Oevman (map_evman ph x)
  | Oaihuman x => Oaihuman (map_aihuman ph x)
  | Oaimove x => Oaimove (map_aimove ph x)
  | Ovob t x => Ovob t (map_vob ph x)
  | Otrigger t x => Otrigger t (map_trigger ph x)
  | Omover x => Omover (map_mover ph x)
  | Otlist x => Otlist (map_tlist ph x)
  | Otscript x => Otscript (map_tscript ph x)
  | Otlevel x => Otlevel (map_tlevel ph x)
  | Otstart x => Otstart (map_tstart ph x)
  | Otuntouch x => Otuntouch (map_tuntouch ph x)
  | Omovable x => Omovable (map_movable ph x)
  | Ointeractive t x => Ointeractive t (map_interactive ph x)
  | Ocontainer x => Ocontainer (map_container ph x)
  | Odoor x => Odoor (map_door ph x)
  | Ofire x => Ofire (map_fire ph x)
  | Osound x => Osound (map_sound ph x)
  | Odaysound x => Odaysound (map_daysound ph x)
  | Omusic t x => Omusic t (map_music ph x)
  | Ofarplane t x => Ofarplane t (map_farplane ph x)
  | Ofog t x => Ofog t (map_fog ph x)
  | Ocamframe x => Ocamframe (map_camframe ph x)
  | Ocscamera x => Ocscamera (map_cscamera ph x)
  | Olight x => Olight (map_light ph x)
  | Oanimate x => Oanimate (map_animate ph x)
  | Oitem x => Oitem (map_item ph x)
  | Olensflare x => Olensflare (map_lensflare ph x)
  | Opfxctl x => Opfxctl (map_pfxctl ph x)
  | Omsgfilter x => Omsgfilter (map_msgfilter ph x)
  | Ocodemaster x => Ocodemaster (map_codemaster ph x)
  | Omovctl x => Omovctl (map_movctl ph x)
  | Otouchdmg x => Otouchdmg (map_touchdmg ph x)
  | Oquake x => Oquake (map_quake ph x)
  | Oscreenfx x => Oscreenfx (map_screenfx ph x)
  | Otalent x => Otalent (map_talent ph x)
  | Onpc x => Onpc (map_npc ph x)
  | Omessage x => Omessage (map_message ph x)
  | Oatomic x => Oatomic (map_atomic ph x)
  | Ocblock t x => Ocblock t (map_cblock ph x)
  | Ocslib x => Ocslib (map_cslib ph x)
  | Ocsprops x => Ocsprops (map_csprops ph x)
  | Ocscontext x => Ocscontext (map_cscontext ph x)
  | Osavemeta x => Osavemeta (map_savemeta ph x)
  | Opoolitem x => Opoolitem (map_poolitem ph x)
  | Ocsmanager x => Ocsmanager (map_csmanager ph x)
  | Ocsplayer x => Ocsplayer (map_csplayer ph x)
  | Osky x => Osky (map_sky ph x)
  | Omaterial x => Omaterial (map_material ph x)
  | Owaypoint x => Owaypoint (map_waypoint ph x)
  | Owaynet x => Owaynet (map_waynet ph x)
  | Oworld x => Oworld (map_world ph x)
  end.
(** [save] *)
Definition object_save (c : cfg) (fl : oid -> Z) (o : object) : list (wop oid) :=
  match o with
  | Ovisual _ => []
  | Odecal x => save_decal c x
  | Oevman x => save_evman c x
  | Oaihuman x => save_aihuman c x
  | Oaimove x => save_aimove c x
  | Ovob _ x => save_vob c x
  | Otrigger _ x => save_trigger c x
  | Omover x => save_mover c x
  | Otlist x => save_tlist c x
  | Otscript x => save_tscript c x
  | Otlevel x => save_tlevel c x
  | Otstart x => save_tstart c x
  | Otuntouch x => save_tuntouch c x
  | Omovable x => save_movable c x
  | Ointeractive _ x => save_interactive c x
  | Ocontainer x => save_container c x
  | Odoor x => save_door c x
  | Ofire x => save_fire c x
  | Osound x => save_sound c x
  | Odaysound x => save_daysound c x
  | Omusic _ x => save_music c x
  | Ofarplane _ x => save_farplane c x
  | Ofog _ x => save_fog c x
  | Ocamframe x => save_camframe c x
  | Ocscamera x => save_cscamera c x
  | Olight x => save_light c x
  | Oanimate x => save_animate c x
  | Oitem x => save_item c x
  | Olensflare x => save_lensflare c x
  | Opfxctl x => save_pfxctl c x
  | Omsgfilter x => save_msgfilter c x
  | Ocodemaster x => save_codemaster c x
  | Omovctl x => save_movctl c x
  | Otouchdmg x => save_touchdmg c x
  | Oquake x => save_quake c x
  | Oscreenfx x => save_screenfx c x
  | Otalent x => save_talent c x
  | Onpc x => save_npc c fl x
  | Omessage x => save_message c x
  | Oatomic x => save_atomic c x
  | Ocblock _ x => save_cblock c x
  | Ocslib x => save_cslib c fl x
  | Ocsprops x => save_csprops c x
  | Ocscontext x => save_cscontext c x
  | Osavemeta x => save_savemeta c x
  | Opoolitem x => save_poolitem c x
  | Ocsmanager x => save_csmanager c x
  | Ocsplayer x => save_csplayer c x
  | Osky x => save_sky c x
  | Omaterial x => save_material c x
  | Owaypoint x => save_waypoint c x
  | Owaynet x => save_waynet c x
  | Oworld x => save_world c x
  end.
(** Make an object of the class for the type and [load] it: Archive.cc:281-503. *)
Definition p_map {A B} (g : A -> B) (p : prog oid A) : prog oid B := pbind p (fun a => PRet (g a)).
Definition object_load (c : cfg) (t : otype) : option (prog oid object) :=
  match t with
  | zCMesh => Some (PRet (Ovisual zCMesh))
  | zCProgMeshProto => Some (PRet (Ovisual zCProgMeshProto))
  | zCParticleFX => Some (PRet (Ovisual zCParticleFX))
  | zCAICamera => Some (PRet (Ovisual zCAICamera))
  | zCModel => Some (PRet (Ovisual zCModel))
  | zCMorphMesh => Some (PRet (Ovisual zCMorphMesh))
  | zCDecal => Some (p_map Odecal (load_decal c))
  | zCEventManager => Some (p_map Oevman (load_evman c))
  | oCAIHuman => Some (p_map Oaihuman (load_aihuman c))
  | oCAIVobMove => Some (p_map Oaimove (load_aimove c))
  | zCVob => Some (p_map (Ovob zCVob) (load_vob c))
  | zCVobLevelCompo => Some (p_map (Ovob zCVobLevelCompo) (load_vob c))
  | zCVobStair => Some (p_map (Ovob zCVobStair) (load_vob c))
  | zCVobSpot => Some (p_map (Ovob zCVobSpot) (load_vob c))
  | zCVobStartpoint => Some (p_map (Ovob zCVobStartpoint) (load_vob c))
  | zCTrigger => Some (p_map (Otrigger zCTrigger) (load_trigger c))
  | oCCSTrigger => Some (p_map (Otrigger oCCSTrigger) (load_trigger c))
  | zCMover => Some (p_map Omover (load_mover c))
  | zCTriggerList => Some (p_map Otlist (load_tlist c))
  | oCTriggerScript => Some (p_map Otscript (load_tscript c))
  | oCTriggerChangeLevel => Some (p_map Otlevel (load_tlevel c))
  | zCTriggerWorldStart => Some (p_map Otstart (load_tstart c))
  | zCTriggerUntouch => Some (p_map Otuntouch (load_tuntouch c))
  | oCMOB => Some (p_map Omovable (load_movable c))
  | oCMobInter => Some (p_map (Ointeractive oCMobInter) (load_interactive c))
  | oCMobLadder => Some (p_map (Ointeractive oCMobLadder) (load_interactive c))
  | oCMobSwitch => Some (p_map (Ointeractive oCMobSwitch) (load_interactive c))
  | oCMobWheel => Some (p_map (Ointeractive oCMobWheel) (load_interactive c))
  | oCMobBed => Some (p_map (Ointeractive oCMobBed) (load_interactive c))
  | oCMobContainer => Some (p_map Ocontainer (load_container c))
  | oCMobDoor => Some (p_map Odoor (load_door c))
  | oCMobFire => Some (p_map Ofire (load_fire c))
  | zCVobSound => Some (p_map Osound (load_sound c))
  | zCVobSoundDaytime => Some (p_map Odaysound (load_daysound c))
  | oCZoneMusic => Some (p_map (Omusic oCZoneMusic) (load_music c))
  | oCZoneMusicDefault => Some (p_map (Omusic oCZoneMusicDefault) (load_music c))
  | zCZoneVobFarPlane => Some (p_map (Ofarplane zCZoneVobFarPlane) (load_farplane c))
  | zCZoneVobFarPlaneDefault => Some (p_map (Ofarplane zCZoneVobFarPlaneDefault) (load_farplane c))
  | zCZoneZFog => Some (p_map (Ofog zCZoneZFog) (load_fog c))
  | zCZoneZFogDefault => Some (p_map (Ofog zCZoneZFogDefault) (load_fog c))
  | zCCamTrj_KeyFrame => Some (p_map Ocamframe (load_camframe c))
  | zCCSCamera => Some (p_map Ocscamera (load_cscamera c))
  | zCVobLight => Some (p_map Olight (load_light c))
  | zCVobAnimate => Some (p_map Oanimate (load_animate c))
  | oCItem => Some (p_map Oitem (load_item c))
  | zCVobLensFlare => Some (p_map Olensflare (load_lensflare c))
  | zCPFXController => Some (p_map Opfxctl (load_pfxctl c))
  | zCMessageFilter => Some (p_map Omsgfilter (load_msgfilter c))
  | zCCodeMaster => Some (p_map Ocodemaster (load_codemaster c))
  | zCMoverController => Some (p_map Omovctl (load_movctl c))
  | oCTouchDamage => Some (p_map Otouchdmg (load_touchdmg c))
  | zCEarthquake => Some (p_map Oquake (load_quake c))
  | zCVobScreenFX => Some (p_map Oscreenfx (load_screenfx c))
  | oCNpcTalent => Some (p_map Otalent (load_talent c))
  | oCNpc => Some (p_map Onpc (load_npc c))
  | oCMsgConversation => Some (p_map Omessage (load_message c))
  | zCCSAtomicBlock => Some (p_map Oatomic (load_atomic c))
  | zCCSBlock => Some (p_map (Ocblock zCCSBlock) (load_cblock c))
  | zCCutscene => Some (p_map (Ocblock zCCutscene) (load_cblock c))
  | zCCSLib => Some (p_map Ocslib (load_cslib c))
  | zCCSProps => Some (p_map Ocsprops (load_csprops c))
  | zCCSCutsceneContext => Some (p_map Ocscontext (load_cscontext c))
  | oCSavegameInfo => Some (p_map Osavemeta (load_savemeta c))
  | zCCSPoolItem => Some (p_map Opoolitem (load_poolitem c))
  | oCCSManager => Some (p_map Ocsmanager (load_csmanager c))
  | oCCSPlayer => Some (p_map Ocsplayer (load_csplayer c))
  | zCSkyControler_Outdoor => Some (p_map Osky (load_sky c))
  | zCMaterial => Some (p_map Omaterial (load_material c))
  | zCWaypoint => Some (p_map Owaypoint (load_waypoint c))
  | zCWayNet => Some (p_map Owaynet (load_waynet c))
  | oCWorld => Some (p_map Oworld (load_world c))
  | _ => None
  end.
(** What others see of an object while saving or loading: the flags of an item (vobs/Misc.cc:322
    and 520) and the name of a cutscene block (CutsceneLibrary.cc:107 and 128). *)
Definition object_flags (o : object) : Z :=
  match o with
  | Oitem x => item_s_flags x
  | Ocblock _ x => code (cblock_name x)
  | _ => 0%Z
  end.
Definition somes (l : list (option oid)) : list oid := flat_map (fun r => match r with Some r => [r] | None => [] end) l.
Definition object_looks (o : object) : list oid :=
  match o with
  | Onpc x => somes (npc_items x)
  | Ocslib x => somes (cslib_blocks x)
  | _ => []
  end.
Definition library (c : cfg) : classes :=
  mkClasses object object_map (object_load c) (object_save c) object_type (object_version c) object_flags object_looks.
