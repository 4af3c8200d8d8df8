(** Generated from include/zenkit/Object.hh and src/Archive.cc by a script kept outside the
    repository: the object types and the class-name tables of the archive. *)

From Coq Require Import List String.
From Verif Require Import MBase.
Import ListNotations.
Local Open Scope N_scope.

(** Object.hh:12-88 [ObjectType] *)
Inductive otype :=
| zCVob
| zCVobLevelCompo
| oCItem
| oCNpc
| zCMoverController
| zCVobScreenFX
| zCVobStair
| zCPFXController
| zCVobAnimate
| zCVobLensFlare
| zCVobLight
| zCVobSpot
| zCVobStartpoint
| zCMessageFilter
| zCCodeMaster
| zCTriggerWorldStart
| zCCSCamera
| zCCamTrj_KeyFrame
| oCTouchDamage
| zCTriggerUntouch
| zCEarthquake
| oCMOB
| oCMobInter
| oCMobBed
| oCMobFire
| oCMobLadder
| oCMobSwitch
| oCMobWheel
| oCMobContainer
| oCMobDoor
| zCTrigger
| zCTriggerList
| oCTriggerScript
| oCTriggerChangeLevel
| oCCSTrigger
| zCMover
| zCVobSound
| zCVobSoundDaytime
| oCZoneMusic
| oCZoneMusicDefault
| zCZoneZFog
| zCZoneZFogDefault
| zCZoneVobFarPlane
| zCZoneVobFarPlaneDefault
| ignored
| unknown
| oCNpcTalent
| zCEventManager
| zCDecal
| zCMesh
| zCProgMeshProto
| zCParticleFX
| zCAICamera
| zCModel
| zCMorphMesh
| oCAIHuman
| oCAIVobMove
| oCCSPlayer
| zCSkyControler_Outdoor
| oCWorld
| zCWayNet
| zCWaypoint
| zCMaterial
| oCSavegameInfo
| oCCSManager
| zCCSPoolItem
| zCCSBlock
| zCCutscene
| zCCSCutsceneContext
| oCMsgConversation
| zCCSAtomicBlock
| zCCSLib
| zCCSProps.

(** The enumerators' values, Object.hh:12-88. *)
Definition otype_num (t : otype) : N :=
  match t with
  | zCVob => 0
  | zCVobLevelCompo => 1
  | oCItem => 2
  | oCNpc => 3
  | zCMoverController => 4
  | zCVobScreenFX => 5
  | zCVobStair => 6
  | zCPFXController => 7
  | zCVobAnimate => 8
  | zCVobLensFlare => 9
  | zCVobLight => 10
  | zCVobSpot => 11
  | zCVobStartpoint => 12
  | zCMessageFilter => 13
  | zCCodeMaster => 14
  | zCTriggerWorldStart => 15
  | zCCSCamera => 16
  | zCCamTrj_KeyFrame => 17
  | oCTouchDamage => 18
  | zCTriggerUntouch => 19
  | zCEarthquake => 20
  | oCMOB => 21
  | oCMobInter => 22
  | oCMobBed => 23
  | oCMobFire => 24
  | oCMobLadder => 25
  | oCMobSwitch => 26
  | oCMobWheel => 27
  | oCMobContainer => 28
  | oCMobDoor => 29
  | zCTrigger => 30
  | zCTriggerList => 31
  | oCTriggerScript => 32
  | oCTriggerChangeLevel => 33
  | oCCSTrigger => 34
  | zCMover => 35
  | zCVobSound => 36
  | zCVobSoundDaytime => 37
  | oCZoneMusic => 38
  | oCZoneMusicDefault => 39
  | zCZoneZFog => 40
  | zCZoneZFogDefault => 41
  | zCZoneVobFarPlane => 42
  | zCZoneVobFarPlaneDefault => 43
  | ignored => 44
  | unknown => 45
  | oCNpcTalent => 46
  | zCEventManager => 47
  | zCDecal => 48
  | zCMesh => 49
  | zCProgMeshProto => 50
  | zCParticleFX => 51
  | zCAICamera => 52
  | zCModel => 53
  | zCMorphMesh => 54
  | oCAIHuman => 55
  | oCAIVobMove => 56
  | oCCSPlayer => 57
  | zCSkyControler_Outdoor => 58
  | oCWorld => 59
  | zCWayNet => 60
  | zCWaypoint => 61
  | zCMaterial => 62
  | oCSavegameInfo => 63
  | oCCSManager => 64
  | zCCSPoolItem => 65
  | zCCSBlock => 66
  | zCCutscene => 67
  | zCCSCutsceneContext => 68
  | oCMsgConversation => 69
  | zCCSAtomicBlock => 70
  | zCCSLib => 71
  | zCCSProps => 72
  end.

Definition otypes : list otype :=
  [zCVob; zCVobLevelCompo; oCItem; oCNpc; zCMoverController; zCVobScreenFX; zCVobStair; zCPFXController; zCVobAnimate; zCVobLensFlare; zCVobLight; zCVobSpot; zCVobStartpoint; zCMessageFilter; zCCodeMaster; zCTriggerWorldStart; zCCSCamera; zCCamTrj_KeyFrame; oCTouchDamage; zCTriggerUntouch; zCEarthquake; oCMOB; oCMobInter; oCMobBed; oCMobFire; oCMobLadder; oCMobSwitch; oCMobWheel; oCMobContainer; oCMobDoor; zCTrigger; zCTriggerList; oCTriggerScript; oCTriggerChangeLevel; oCCSTrigger; zCMover; zCVobSound; zCVobSoundDaytime; oCZoneMusic; oCZoneMusicDefault; zCZoneZFog; zCZoneZFogDefault; zCZoneVobFarPlane; zCZoneVobFarPlaneDefault; ignored; unknown; oCNpcTalent; zCEventManager; zCDecal; zCMesh; zCProgMeshProto; zCParticleFX; zCAICamera; zCModel; zCMorphMesh; oCAIHuman; oCAIVobMove; oCCSPlayer; zCSkyControler_Outdoor; oCWorld; zCWayNet; zCWaypoint; zCMaterial; oCSavegameInfo; oCCSManager; zCCSPoolItem; zCCSBlock; zCCutscene; zCCSCutsceneContext; oCMsgConversation; zCCSAtomicBlock; zCCSLib; zCCSProps].

Definition otype_eqb (a b : otype) : bool := otype_num a =? otype_num b.

(** Object.hh:90-92 [is_vobject] *)
Definition is_vobject (t : otype) : bool := otype_num t <? otype_num ignored.

(** Archive.cc:29-101 [OBJECTS] *)
Definition objects_table : list (bytes * otype) :=
  [(lit "zCVob", zCVob);
   (lit "zCVobLevelCompo:zCVob", zCVobLevelCompo);
   (lit "oCItem:zCVob", oCItem);
   (lit "oCNpc:zCVob", oCNpc);
   (lit "oCMOB:zCVob", oCMOB);
   (lit "oCMobInter:oCMOB:zCVob", oCMobInter);
   (lit "oCMobBed:oCMobInter:oCMOB:zCVob", oCMobBed);
   (lit "oCMobFire:oCMobInter:oCMOB:zCVob", oCMobFire);
   (lit "oCMobLadder:oCMobInter:oCMOB:zCVob", oCMobLadder);
   (lit "oCMobSwitch:oCMobInter:oCMOB:zCVob", oCMobSwitch);
   (lit "oCMobWheel:oCMobInter:oCMOB:zCVob", oCMobWheel);
   (lit "oCMobContainer:oCMobInter:oCMOB:zCVob", oCMobContainer);
   (lit "oCMobDoor:oCMobInter:oCMOB:zCVob", oCMobDoor);
   (lit "zCPFXControler:zCVob", zCPFXController);
   (lit "zCVobAnimate:zCVob", zCVobAnimate);
   (lit "zCVobLensFlare:zCVob", zCVobLensFlare);
   (lit "zCVobLight:zCVob", zCVobLight);
   (lit "zCVobSpot:zCVob", zCVobSpot);
   (lit "zCVobStartpoint:zCVob", zCVobStartpoint);
   (lit "zCVobSound:zCVob", zCVobSound);
   (lit "zCVobSoundDaytime:zCVobSound:zCVob", zCVobSoundDaytime);
   (lit "oCZoneMusic:zCVob", oCZoneMusic);
   (lit "oCZoneMusicDefault:oCZoneMusic:zCVob", oCZoneMusicDefault);
   (lit "zCZoneZFog:zCVob", zCZoneZFog);
   (lit "zCZoneZFogDefault:zCZoneZFog:zCVob", zCZoneZFogDefault);
   (lit "zCZoneVobFarPlane:zCVob", zCZoneVobFarPlane);
   (lit "zCZoneVobFarPlaneDefault:zCZoneVobFarPlane:zCVob", zCZoneVobFarPlaneDefault);
   (lit "zCMessageFilter:zCVob", zCMessageFilter);
   (lit "zCCodeMaster:zCVob", zCCodeMaster);
   (lit "zCTrigger:zCVob", zCTrigger);
   (lit "zCTriggerList:zCTrigger:zCVob", zCTriggerList);
   (lit "oCTriggerScript:zCTrigger:zCVob", oCTriggerScript);
   (lit "zCMover:zCTrigger:zCVob", zCMover);
   (lit "oCTriggerChangeLevel:zCTrigger:zCVob", oCTriggerChangeLevel);
   (lit "zCTriggerWorldStart:zCVob", zCTriggerWorldStart);
   (lit "zCTriggerUntouch:zCVob", zCTriggerUntouch);
   (lit "zCCSCamera:zCVob", zCCSCamera);
   (lit "zCCamTrj_KeyFrame:zCVob", zCCamTrj_KeyFrame);
   (lit "oCTouchDamage:zCTouchDamage:zCVob", oCTouchDamage);
   (lit "zCEarthquake:zCVob", zCEarthquake);
   (lit "zCMoverControler:zCVob", zCMoverController);
   (lit "zCVobScreenFX:zCVob", zCVobScreenFX);
   (lit "zCVobStair:zCVob", zCVobStair);
   (lit "oCCSTrigger:zCTrigger:zCVob", oCCSTrigger);
   (lit "oCNpcTalent", oCNpcTalent);
   (lit "zCEventManager", zCEventManager);
   (lit "zCDecal", zCDecal);
   (lit "zCMesh", zCMesh);
   (lit "zCProgMeshProto", zCProgMeshProto);
   (lit "zCParticleFX", zCParticleFX);
   (lit "zCAICamera", zCAICamera);
   (lit "zCModel", zCModel);
   (lit "zCMorphMesh", zCMorphMesh);
   (lit "oCAIHuman:oCAniCtrl_Human:zCAIPlayer", oCAIHuman);
   (lit "oCAIVobMove", oCAIVobMove);
   (lit "oCCSPlayer:zCCSPlayer", oCCSPlayer);
   (lit "zCSkyControler_Outdoor", zCSkyControler_Outdoor);
   (lit "zCWayNet", zCWayNet);
   (lit "zCWaypoint", zCWaypoint);
   (lit "oCWorld:zCWorld", oCWorld);
   (lit "zCMaterial", zCMaterial);
   (lit "oCSavegameInfo", oCSavegameInfo);
   (lit "oCCSManager:zCCSManager", oCCSManager);
   (lit "zCCSPoolItem", zCCSPoolItem);
   (lit "zCCSBlock", zCCSBlock);
   (lit "zCCutscene:zCCSBlock", zCCutscene);
   (lit "zCCSCutsceneContext:zCCutscene:zCCSBlock", zCCSCutsceneContext);
   (lit "oCMsgConversation:oCNpcMessage:zCEventMessage", oCMsgConversation);
   (lit "zCCSAtomicBlock", zCCSAtomicBlock);
   (lit "zCCSLib", zCCSLib);
   (lit "zCCSProps", zCCSProps)].

(** Archive.cc:103-175 [CLASS_NAMES] *)
Definition class_names_table : list (otype * bytes) :=
  [(zCVob, lit "zCVob");
   (zCVobLevelCompo, lit "zCVobLevelCompo:zCVob");
   (oCItem, lit "oCItem:zCVob");
   (oCNpc, lit "oCNpc:zCVob");
   (oCMOB, lit "oCMOB:zCVob");
   (oCMobInter, lit "oCMobInter:oCMOB:zCVob");
   (oCMobBed, lit "oCMobBed:oCMobInter:oCMOB:zCVob");
   (oCMobFire, lit "oCMobFire:oCMobInter:oCMOB:zCVob");
   (oCMobLadder, lit "oCMobLadder:oCMobInter:oCMOB:zCVob");
   (oCMobSwitch, lit "oCMobSwitch:oCMobInter:oCMOB:zCVob");
   (oCMobWheel, lit "oCMobWheel:oCMobInter:oCMOB:zCVob");
   (oCMobContainer, lit "oCMobContainer:oCMobInter:oCMOB:zCVob");
   (oCMobDoor, lit "oCMobDoor:oCMobInter:oCMOB:zCVob");
   (zCPFXController, lit "zCPFXControler:zCVob");
   (zCVobAnimate, lit "zCVobAnimate:zCVob");
   (zCVobLensFlare, lit "zCVobLensFlare:zCVob");
   (zCVobLight, lit "zCVobLight:zCVob");
   (zCVobSpot, lit "zCVobSpot:zCVob");
   (zCVobStartpoint, lit "zCVobStartpoint:zCVob");
   (zCVobSound, lit "zCVobSound:zCVob");
   (zCVobSoundDaytime, lit "zCVobSoundDaytime:zCVobSound:zCVob");
   (oCZoneMusic, lit "oCZoneMusic:zCVob");
   (oCZoneMusicDefault, lit "oCZoneMusicDefault:oCZoneMusic:zCVob");
   (zCZoneZFog, lit "zCZoneZFog:zCVob");
   (zCZoneZFogDefault, lit "zCZoneZFogDefault:zCZoneZFog:zCVob");
   (zCZoneVobFarPlane, lit "zCZoneVobFarPlane:zCVob");
   (zCZoneVobFarPlaneDefault, lit "zCZoneVobFarPlaneDefault:zCZoneVobFarPlane:zCVob");
   (zCMessageFilter, lit "zCMessageFilter:zCVob");
   (zCCodeMaster, lit "zCCodeMaster:zCVob");
   (zCTrigger, lit "zCTrigger:zCVob");
   (zCTriggerList, lit "zCTriggerList:zCTrigger:zCVob");
   (oCTriggerScript, lit "oCTriggerScript:zCTrigger:zCVob");
   (zCMover, lit "zCMover:zCTrigger:zCVob");
   (oCTriggerChangeLevel, lit "oCTriggerChangeLevel:zCTrigger:zCVob");
   (zCTriggerWorldStart, lit "zCTriggerWorldStart:zCVob");
   (zCTriggerUntouch, lit "zCTriggerUntouch:zCVob");
   (zCCSCamera, lit "zCCSCamera:zCVob");
   (zCCamTrj_KeyFrame, lit "zCCamTrj_KeyFrame:zCVob");
   (oCTouchDamage, lit "oCTouchDamage:zCTouchDamage:zCVob");
   (zCEarthquake, lit "zCEarthquake:zCVob");
   (zCMoverController, lit "zCMoverControler:zCVob");
   (zCVobScreenFX, lit "zCVobScreenFX:zCVob");
   (zCVobStair, lit "zCVobStair:zCVob");
   (oCCSTrigger, lit "oCCSTrigger:zCTrigger:zCVob");
   (oCNpcTalent, lit "oCNpcTalent");
   (zCEventManager, lit "zCEventManager");
   (zCDecal, lit "zCDecal");
   (zCMesh, lit "zCMesh");
   (zCProgMeshProto, lit "zCProgMeshProto");
   (zCParticleFX, lit "zCParticleFX");
   (zCAICamera, lit "zCAICamera");
   (zCModel, lit "zCModel");
   (zCMorphMesh, lit "zCMorphMesh");
   (oCAIHuman, lit "oCAIHuman:oCAniCtrl_Human:zCAIPlayer");
   (oCAIVobMove, lit "oCAIVobMove");
   (oCCSPlayer, lit "oCCSPlayer:zCCSPlayer");
   (zCSkyControler_Outdoor, lit "zCSkyControler_Outdoor");
   (zCWayNet, lit "zCWayNet");
   (zCWaypoint, lit "zCWaypoint");
   (oCWorld, lit "oCWorld:zCWorld");
   (zCMaterial, lit "zCMaterial");
   (oCSavegameInfo, lit "oCSavegameInfo");
   (oCCSManager, lit "oCCSManager:zCCSManager");
   (zCCSPoolItem, lit "zCCSPoolItem");
   (zCCSBlock, lit "zCCSBlock");
   (zCCutscene, lit "zCCutscene:zCCSBlock");
   (zCCSCutsceneContext, lit "zCCSCutsceneContext:zCCutscene:zCCSBlock");
   (oCMsgConversation, lit "oCMsgConversation:oCNpcMessage:zCEventMessage");
   (zCCSAtomicBlock, lit "zCCSAtomicBlock");
   (zCCSLib, lit "zCCSLib");
   (zCCSProps, lit "zCCSProps")].

(** Archive.cc:281-503: the C++ class made for a type, given by the type its objects report
    ([ZK_OBJECT] or [get_object_type] of the class).  [None]: no object is made. *)
Definition made_type (t : otype) : option otype :=
  match t with
  | oCNpcTalent => Some oCNpcTalent (* VNpc::Talent *)
  | zCEventManager => Some zCEventManager (* EventManager *)
  | zCDecal => Some zCDecal (* VisualDecal *)
  | zCMesh => Some zCMesh (* VisualMesh *)
  | zCProgMeshProto => Some zCProgMeshProto (* VisualMultiResolutionMesh *)
  | zCParticleFX => Some zCParticleFX (* VisualParticleEffect *)
  | zCAICamera => Some zCAICamera (* VisualCamera *)
  | zCModel => Some zCModel (* VisualModel *)
  | zCMorphMesh => Some zCMorphMesh (* VisualMorphMesh *)
  | oCAIHuman => Some oCAIHuman (* AiHuman *)
  | oCAIVobMove => Some oCAIVobMove (* AiMove *)
  | zCSkyControler_Outdoor => Some zCSkyControler_Outdoor (* SkyController *)
  | oCCSPlayer => Some oCCSPlayer (* CutscenePlayer *)
  | zCVobLevelCompo => Some zCVobLevelCompo (* VLevel *)
  | zCVobStartpoint => Some zCVobStartpoint (* VStartPoint *)
  | zCVobStair => Some zCVobStair (* VStair *)
  | zCVobSpot => Some zCVobSpot (* VSpot *)
  | zCVob => Some zCVob (* VirtualObject *)
  | zCVobScreenFX => Some zCVobScreenFX (* VScreenEffect *)
  | zCCSCamera => Some zCCSCamera (* VCutsceneCamera *)
  | zCCamTrj_KeyFrame => Some zCCamTrj_KeyFrame (* VCameraTrajectoryFrame *)
  | zCVobAnimate => Some zCVobAnimate (* VAnimate *)
  | zCZoneVobFarPlane => Some zCZoneVobFarPlane (* VZoneFarPlane *)
  | zCZoneVobFarPlaneDefault => Some zCZoneVobFarPlaneDefault (* VZoneFarPlaneDefault *)
  | zCZoneZFogDefault => Some zCZoneZFogDefault (* VZoneFogDefault *)
  | zCZoneZFog => Some zCZoneZFog (* VZoneFog *)
  | zCVobLensFlare => Some zCVobLensFlare (* VLensFlare *)
  | oCItem => Some oCItem (* VItem *)
  | zCTrigger => Some zCTrigger (* VTrigger *)
  | oCCSTrigger => Some oCCSTrigger (* VCutsceneTrigger *)
  | oCMOB => Some oCMOB (* VMovableObject *)
  | oCMobInter => Some oCMobInter (* VInteractiveObject *)
  | oCMobLadder => Some oCMobLadder (* VLadder *)
  | oCMobSwitch => Some oCMobSwitch (* VSwitch *)
  | oCMobWheel => Some oCMobWheel (* VWheel *)
  | oCMobBed => Some oCMobBed (* VBed *)
  | oCMobFire => Some oCMobFire (* VFire *)
  | oCMobContainer => Some oCMobContainer (* VContainer *)
  | oCMobDoor => Some oCMobDoor (* VDoor *)
  | zCPFXController => Some zCPFXController (* VParticleEffectController *)
  | zCVobLight => Some zCVobLight (* VLight *)
  | zCVobSound => Some zCVobSound (* VSound *)
  | zCVobSoundDaytime => Some zCVobSoundDaytime (* VSoundDaytime *)
  | oCZoneMusic => Some oCZoneMusic (* VZoneMusic *)
  | oCZoneMusicDefault => Some oCZoneMusicDefault (* VZoneMusicDefault *)
  | zCMessageFilter => Some zCMessageFilter (* VMessageFilter *)
  | zCCodeMaster => Some zCCodeMaster (* VCodeMaster *)
  | zCTriggerList => Some zCTriggerList (* VTriggerList *)
  | oCTriggerScript => Some oCTriggerScript (* VTriggerScript *)
  | zCMover => Some zCMover (* VMover *)
  | oCTriggerChangeLevel => Some oCTriggerChangeLevel (* VTriggerChangeLevel *)
  | zCTriggerWorldStart => Some zCTriggerWorldStart (* VTriggerWorldStart *)
  | oCTouchDamage => Some oCTouchDamage (* VTouchDamage *)
  | zCTriggerUntouch => Some zCTriggerUntouch (* VTriggerUntouch *)
  | zCEarthquake => Some zCEarthquake (* VEarthquake *)
  | zCMoverController => Some zCMoverController (* VMoverController *)
  | oCNpc => Some oCNpc (* VNpc *)
  | oCWorld => Some oCWorld (* World *)
  | zCMaterial => Some zCMaterial (* Material *)
  | oCSavegameInfo => Some oCSavegameInfo (* SaveMetadata *)
  | oCCSManager => Some oCCSManager (* CutsceneManager *)
  | zCCSPoolItem => Some zCCSPoolItem (* CutscenePoolItem *)
  | zCCutscene => Some zCCutscene (* Cutscene *)
  | zCCSCutsceneContext => Some zCCSCutsceneContext (* CutsceneContext *)
  | zCCSBlock => Some zCCSBlock (* CutsceneBlock *)
  | zCCSAtomicBlock => Some zCCSAtomicBlock (* CutsceneAtomicBlock *)
  | zCCSLib => Some zCCSLib (* CutsceneLibrary *)
  | oCMsgConversation => Some oCMsgConversation (* ConversationMessageEvent *)
  | zCCSProps => Some zCCSProps (* CutsceneProps *)
  | zCWayNet => Some zCWayNet (* WayNet *)
  | zCWaypoint => Some zCWaypoint (* WayPoint *)
  | _ => None
  end.

(** [OBJECTS.find(class_name)], Archive.cc:281-285 *)
Definition type_of_class (c : bytes) : otype :=
  match find (fun e => bytes_eqb (fst e) c) objects_table with Some e => snd e | None => unknown end.
(** [CLASS_NAMES.at(type)], Archive.cc:582: throws std::out_of_range for a type without a name. *)
Definition class_of_type (t : otype) : option bytes :=
  match find (fun e => otype_eqb (fst e) t) class_names_table with Some e => Some (snd e) | None => None end.
