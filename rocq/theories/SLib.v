(** What an object must be like for a saved object to load as the same object, for all classes. *)

From Coq Require Import String.
From Verif Require Import MBase MStream SStream MBoxes SBoxes MText MClasses MArchive SArchive MVob MVobs MNpc MCutscene MMaterial MWorld SVob MLib.
Local Open Scope N_scope.

(** The conditions of SVob.v, class by class; and an object has a type of its class. *)
Definition ok_object (c : cfg) (ty : oid -> otype) (fl : oid -> Z) (o : object) : Prop :=
  match o with
  | Ovisual t => In t [zCMesh; zCProgMeshProto; zCParticleFX; zCAICamera; zCModel; zCMorphMesh]
  | Odecal x => ok_decal c ty x
  | Oevman x => ok_evman c ty x
  | Oaihuman x => ok_aihuman c ty x
  | Oaimove x => ok_aimove c ty x
  | Ovob t x => In t [zCVob; zCVobLevelCompo; zCVobStair; zCVobSpot; zCVobStartpoint] /\ ok_vob c ty x
  | Otrigger t x => In t [zCTrigger; oCCSTrigger] /\ ok_trigger c ty x
  | Omover x => ok_mover c ty x
  | Otlist x => ok_tlist c ty x
  | Otscript x => ok_tscript c ty x
  | Otlevel x => ok_tlevel c ty x
  | Otstart x => ok_tstart c ty x
  | Otuntouch x => ok_tuntouch c ty x
  | Omovable x => ok_movable c ty x
  | Ointeractive t x => In t [oCMobInter; oCMobLadder; oCMobSwitch; oCMobWheel; oCMobBed] /\ ok_interactive c ty x
  | Ocontainer x => ok_container c ty x
  | Odoor x => ok_door c ty x
  | Ofire x => ok_fire c ty x
  | Osound x => ok_sound c ty x
  | Odaysound x => ok_daysound c ty x
  | Omusic t x => In t [oCZoneMusic; oCZoneMusicDefault] /\ ok_music c ty x
  | Ofarplane t x => In t [zCZoneVobFarPlane; zCZoneVobFarPlaneDefault] /\ ok_farplane c ty x
  | Ofog t x => In t [zCZoneZFog; zCZoneZFogDefault] /\ ok_fog c ty x
  | Ocamframe x => ok_camframe c ty x
  | Ocscamera x => ok_cscamera c ty x
  | Olight x => ok_light c ty x
  | Oanimate x => ok_animate c ty x
  | Oitem x => ok_item c ty x
  | Olensflare x => ok_lensflare c ty x
  | Opfxctl x => ok_pfxctl c ty x
  | Omsgfilter x => ok_msgfilter c ty x
  | Ocodemaster x => ok_codemaster c ty x
  | Omovctl x => ok_movctl c ty x
  | Otouchdmg x => ok_touchdmg c ty x
  | Oquake x => ok_quake c ty x
  | Oscreenfx x => ok_screenfx c ty x
  | Otalent x => ok_talent c ty x
  | Onpc x => ok_npc c ty fl x
  | Omessage x => ok_message c ty x
  | Oatomic x => ok_atomic c ty x
  | Ocblock t x => In t [zCCSBlock; zCCutscene] /\ ok_cblock c ty x
  | Ocslib x => ok_cslib c ty fl x
  | Ocsprops x => ok_csprops c ty x
  | Ocscontext x => ok_cscontext c ty x
  | Osavemeta x => ok_savemeta c ty x
  | Opoolitem x => ok_poolitem c ty x
  | Ocsmanager x => ok_csmanager c ty x
  | Ocsplayer x => ok_csplayer c ty x
  | Osky x => ok_sky c ty x
  | Omaterial x => ok_mat c ty x
  | Owaypoint x => ok_waypoint c ty x
  | Owaynet x => ok_waynet c ty x
  | Oworld x => ok_world c ty x
  end.
(** A graph of objects of the library: what an object refers to is fine for it, and no NPC or
    cutscene library is part of one of its own items or blocks. *)
Definition library_graph (c : cfg) (G : oid -> option object) : Prop :=
  forall r x, G r = Some x ->
    ok_object c (g_type (library c) G) (g_flags (library c) G) x /\
    forall i, In i (object_looks x) -> ~ reaches (library c) G i r.
