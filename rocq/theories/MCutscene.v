(** Model of the cutscene classes: src/CutsceneLibrary.cc, the classes with a [load] in
    src/SaveGame.cc, and src/World.cc:253-305. *)

From Coq Require Import String.
From Verif Require Import MBase MStream MBoxes MText MClasses MArchive MVob.
Local Open Scope N_scope.

(** CutsceneLibrary.hh:18 [ConversationMessageEvent] *)
Record message := mk_message { message_type : N; message_high_priority : bool; message_used : bool; message_deleted : bool;
  message_text : bytes; message_name : bytes }.
(** CutsceneLibrary.cc:13-24 *)
Definition load_message (c : cfg) : prog oid message :=
  (do type_ <- p_rd KEnum ;
   do '(high_priority_, used_, deleted_) <- (if cf_save c then (
        do high_priority_ <- p_rd KBool ;
        do used_ <- p_rd KBool ;
        do deleted_ <- p_rd KBool ;
        PRet (high_priority_, used_, deleted_))%p else PRet (false, false, false)) ;
   do text_ <- p_rd KStr ;
   do name_ <- p_rd KStr ;
   PRet (mk_message type_ high_priority_ used_ deleted_ text_ name_))%p.
(** CutsceneLibrary.cc:26-37 *)
Definition save_message (c : cfg) (x : message) : list (wop oid) :=
  [wE "subType" (message_type x)] ++
  (if cf_save c then [wB "highPriority" (message_high_priority x); wB "inUse" (message_used x); wB "deleted" (message_deleted x)] else []) ++
  [wS "text" (message_text x); wS "name" (message_name x)].
(** The object with its references renamed. *)
Definition map_message (ph : oid -> oid) (x : message) : message :=
  mk_message (message_type x) (message_high_priority x) (message_used x) (message_deleted x) (message_text x)
  (message_name x).
(** CutsceneLibrary.hh:37 [CutsceneAtomicBlock] *)
Record atomic := mk_atomic { atomic_message : option oid }.
(** CutsceneLibrary.cc:39-41 *)
Definition load_atomic (c : cfg) : prog oid atomic :=
  (do message_ <- (p_obj oCMsgConversation) ;
   PRet (mk_atomic message_))%p.
(** CutsceneLibrary.cc:43-45 *)
Definition save_atomic (c : cfg) (x : atomic) : list (wop oid) :=
  [wO "%" (atomic_message x)].
(** The object with its references renamed. *)
Definition map_atomic (ph : oid -> oid) (x : atomic) : atomic :=
  mk_atomic (option_map ph (atomic_message x)).
(** CutsceneLibrary.cc:80-90: the object must be one of the two kinds of block; null is
    dereferenced.  The block remembers which of the two it is. *)
Record sub := mkSub { sb_atomic : bool; sb_obj : oid }.
Definition p_sub : prog oid (option sub) :=
  PObj (fun o =>
    match o with
    | None => PUndef
    | Some (r, t, _) =>
        if otype_eqb t zCCSAtomicBlock then PRet (Some (mkSub true r))
        else if otype_eqb t zCCSBlock then PRet (Some (mkSub false r))
        else PThrow ParserError
    end).
Definition map_sub (ph : oid -> oid) (s : sub) : sub := mkSub (sb_atomic s) (ph (sb_obj s)).
(** CutsceneLibrary.cc:73-78 *)
Definition p_one : prog oid unit :=
  (do n <- p_rd KInt ;
   do _ <- p_rd KFloat ;
   if (n =? 1)%Z then PRet tt else PThrow ParserError)%p.
(** CutsceneLibrary.hh:48-71 [CutsceneBlock]; a null pointer of either kind is [None] *)
Record cblock := mk_cblock { cblock_name : bytes; cblock_block : option sub }.
(** CutsceneLibrary.cc:70-91 *)
Definition load_cblock (c : cfg) : prog oid cblock :=
  (do name_ <- p_rd KStr ;
   do _ <- p_one ;
   do block_ <- p_sub ;
   PRet (mk_cblock name_ block_))%p.
(** CutsceneLibrary.cc:93-103 *)
Definition save_cblock (c : cfg) (x : cblock) : list (wop oid) :=
  [wS "blockName" (cblock_name x)] ++
  [wI "numOfBlocks" 1; wF "subBlock0" 0] ++
  [wO "%" (option_map sb_obj (cblock_block x))].
(** The object with its references renamed. *)
Definition map_cblock (ph : oid -> oid) (x : cblock) : cblock :=
  mk_cblock (cblock_name x) (option_map (map_sub ph) (cblock_block x)).
(** ** The library *)
(** [std::string::operator<]: lexicographic by unsigned bytes. *)
Fixpoint bytes_ltb (a b : bytes) : bool :=
  match a, b with
  | _, [] => false
  | [], _ :: _ => true
  | x :: a', y :: b' => (b2n x <? b2n y) || ((b2n x =? b2n y) && bytes_ltb a' b')
  end.
(** The name of a block as the number other objects see ([c_flags] in SArchive.v), and back. *)
Definition code (s : bytes) : Z := Z.of_N (le_dec (s ++ [x01])).
Fixpoint uncode_n (fuel : nat) (n : N) : bytes :=
  match fuel with
  | O => []
  | S f => if n <=? 1 then [] else n2b (n mod 256) :: uncode_n f (n / 256)
  end.
Definition uncode (z : Z) : bytes := let n := Z.to_N z in uncode_n (N.to_nat (N.size n)) n.
(** [std::sort] by name.  Simplification: the order of blocks of the same name, which
    [std::sort] leaves open, is kept. *)
Fixpoint insert_block {A} (x : bytes * A) (l : list (bytes * A)) : list (bytes * A) :=
  match l with
  | [] => [x]
  | y :: l' => if bytes_ltb (fst x) (fst y) then x :: y :: l' else y :: insert_block x l'
  end.
Definition sort_blocks {A} (l : list (bytes * A)) : list (bytes * A) :=
  fold_left (fun l x => insert_block x l) l [].
(** CutsceneLibrary.cc:105-116 [block_by_name]: [std::lower_bound], that is the first block
    whose name is not less, in a list partitioned by that test.  [search] is the binary search
    over [n] elements from [i] on. *)
Fixpoint lower_bound {A} (fuel : nat) (l : list (bytes * A)) (name : bytes) (i n : nat) : nat :=
  match fuel with
  | O => i
  | S f =>
      match n with
      | O => i
      | _ =>
          let h := Nat.div2 n in
          match nth_error l (i + h) with
          | Some x =>
              if bytes_ltb (fst x) name then lower_bound f l name (i + h + 1) (n - h - 1)
              else lower_bound f l name i h
          | None => i
          end
      end
  end.
Definition block_by_name {A} (l : list (bytes * A)) (name : bytes) : option A :=
  option_map snd (nth_error l (lower_bound (length l) l name 0 (length l))).
(** A list of blocks of [CutsceneLibrary]: objects and their names as seen at loading. *)
Definition p_blk : prog oid (option (Z * oid)) :=
  PObj (fun o => match o with
                 | None => PRet None
                 | Some (r, t, fl) => if otype_eqb t zCCSBlock then PRet (Some (fl, r)) else PThrow ParserError
                 end).
(** The sorted list; comparing null pointers is undefined. *)
Fixpoint named (l : list (option (Z * oid))) : option (list (bytes * oid)) :=
  match l with
  | [] => Some []
  | None :: _ => None
  | Some (z, r) :: l' => option_map (cons (uncode z, r)) (named l')
  end.
Definition sorted_lib (l : list (option (Z * oid))) : outcome (list (option oid)) :=
  match named l with
  | Some m => Ret (map (fun p => Some (snd p)) (sort_blocks m))
  | None => match l with [None] => Ret [None] | _ => Undef end
  end.
(** CutsceneLibrary.hh:160-180 [CutsceneLibrary] *)
Record cslib := mk_cslib { cslib_blocks : list (option oid) }.
(** CutsceneLibrary.cc:118-130 *)
Definition load_cslib (c : cfg) : prog oid cslib :=
  (do blocks_ <- (do n <- p_size ; do l <- p_rep n p_blk ; p_lift (sorted_lib l))%p ;
   PRet (mk_cslib blocks_))%p.
(** CutsceneLibrary.cc:132-138 *)
Definition save_cslib (c : cfg) (fl : oid -> Z) (x : cslib) : list (wop oid) :=
  wCount "NumOfItems" (cslib_blocks x) :: map (wO "%") (cslib_blocks x).
(** The object with its references renamed. *)
Definition map_cslib (ph : oid -> oid) (x : cslib) : cslib :=
  mk_cslib (map (option_map ph) (cslib_blocks x)).
(** CutsceneLibrary.hh:92 [CutsceneProps] *)
Record csprops := mk_csprops { csprops_name : bytes; csprops_global : bool; csprops_loop : bool; csprops_has_to_be_triggered : bool;
  csprops_distance : N; csprops_range : N; csprops_locked_block_count : Z; csprops_run_behaviour : N;
  csprops_run_behaviour_value : Z; csprops_stage_name : bytes; csprops_script_function_on_stop : bytes }.
(** CutsceneLibrary.cc:141-153 *)
Definition load_csprops (c : cfg) : prog oid csprops :=
  (do name_ <- p_rd KStr ;
   do global_ <- p_rd KBool ;
   do loop_ <- p_rd KBool ;
   do has_to_be_triggered_ <- p_rd KBool ;
   do distance_ <- p_rd KFloat ;
   do range_ <- p_rd KFloat ;
   do locked_block_count_ <- p_rd KInt ;
   do run_behaviour_ <- p_rd KEnum ;
   do run_behaviour_value_ <- p_rd KInt ;
   do stage_name_ <- p_rd KStr ;
   do script_function_on_stop_ <- p_rd KStr ;
   PRet (mk_csprops name_ global_ loop_ has_to_be_triggered_ distance_ range_ locked_block_count_ run_behaviour_
     run_behaviour_value_ stage_name_ script_function_on_stop_))%p.
(** CutsceneLibrary.cc:155-167 *)
Definition save_csprops (c : cfg) (x : csprops) : list (wop oid) :=
  [wS "name" (csprops_name x); wB "globalCutscene" (csprops_global x); wB "csLoop" (csprops_loop x);
   wB "hasToBeTriggerd" (csprops_has_to_be_triggered x); wF "distance" (csprops_distance x);
   wF "range" (csprops_range x); wI "numLockedBlocks" (csprops_locked_block_count x);
   wE "runBehaviour" (csprops_run_behaviour x); wI "runBehaviourValue" (csprops_run_behaviour_value x);
   wS "StageName" (csprops_stage_name x); wS "scriptFuncOnStop" (csprops_script_function_on_stop x)].
(** The object with its references renamed. *)
Definition map_csprops (ph : oid -> oid) (x : csprops) : csprops :=
  mk_csprops (csprops_name x) (csprops_global x) (csprops_loop x) (csprops_has_to_be_triggered x) (csprops_distance x)
  (csprops_range x) (csprops_locked_block_count x) (csprops_run_behaviour x) (csprops_run_behaviour_value x)
  (csprops_stage_name x) (csprops_script_function_on_stop x).
(** CutsceneLibrary.hh:123-157 [Cutscene] and [CutsceneContext]; weak pointers as pointers *)
Record cscontext := mk_cscontext { cscontext_base : cblock; cscontext_props : option oid;
  cscontext_role_count : Z; cscontext_role_vob_count : Z; cscontext_npc : option oid;
  cscontext_main_role : option oid; cscontext_is_cutscene : bool; cscontext_reference : Z;
  cscontext_actual_block : Z; cscontext_alt_stage : option oid; cscontext_stage : option oid;
  cscontext_was_triggered : bool }.
(** CutsceneLibrary.cc:181-195 *)
Definition load_cscontext (c : cfg) : prog oid cscontext :=
  (do b <- load_cblock c ;
   do props_ <- p_obj zCCSProps ;
   do role_count_ <- p_rd KInt ;
   do role_vob_count_ <- p_rd KInt ;
   do npc_ <- p_obj oCNpc ;
   do main_role_ <- p_obj oCNpc ;
   do is_cutscene_ <- p_rd KBool ;
   do reference_ <- p_rd KInt ;
   do actual_block_ <- p_rd KInt ;
   do alt_stage_ <- p_any ;
   do stage_ <- p_any ;
   do was_triggered_ <- p_rd KBool ;
   PRet (mk_cscontext b props_ role_count_ role_vob_count_ npc_ main_role_ is_cutscene_ reference_
     actual_block_ alt_stage_ stage_ was_triggered_))%p.
(** CutsceneLibrary.cc:197-211 *)
Definition save_cscontext (c : cfg) (x : cscontext) : list (wop oid) :=
  save_cblock c (cscontext_base x) ++
  [wO "%" (cscontext_props x); wI "numOfRoles" (cscontext_role_count x);
   wI "numOfRoleVobs" (cscontext_role_vob_count x); wO "%" (cscontext_npc x);
   wO "mainRoleVob" (cscontext_main_role x); wB "isCutscene" (cscontext_is_cutscene x);
   wI "reference" (cscontext_reference x); wI "actualBlock" (cscontext_actual_block x);
   wO "alt_stage" (cscontext_alt_stage x); wO "stage" (cscontext_stage x);
   wB "wasTriggered" (cscontext_was_triggered x)].
(** The object with its references renamed. *)
Definition map_cscontext (ph : oid -> oid) (x : cscontext) : cscontext :=
  mk_cscontext (map_cblock ph (cscontext_base x)) (option_map ph (cscontext_props x))
  (cscontext_role_count x) (cscontext_role_vob_count x) (option_map ph (cscontext_npc x))
  (option_map ph (cscontext_main_role x)) (cscontext_is_cutscene x) (cscontext_reference x)
  (cscontext_actual_block x) (option_map ph (cscontext_alt_stage x)) (option_map ph (cscontext_stage x))
  (cscontext_was_triggered x).
(** SaveGame.hh:24 [SaveMetadata] *)
Record savemeta := mk_savemeta { savemeta_title : bytes; savemeta_world : bytes; savemeta_time_day : Z; savemeta_time_hour : Z;
  savemeta_time_minute : Z; savemeta_save_date : bytes; savemeta_version_major : Z;
  savemeta_version_minor : Z; savemeta_play_time_seconds : Z; savemeta_version_point : Z;
  savemeta_version_int : Z; savemeta_version_app_name : bytes }.
(** SaveGame.cc:14-30 *)
Definition load_savemeta (c : cfg) : prog oid savemeta :=
  (do title_ <- p_rd KStr ;
   do world_ <- p_rd KStr ;
   do time_day_ <- p_rd KInt ;
   do time_hour_ <- p_rd KInt ;
   do time_minute_ <- p_rd KInt ;
   do save_date_ <- p_rd KStr ;
   do version_major_ <- p_rd KInt ;
   do version_minor_ <- p_rd KInt ;
   do play_time_seconds_ <- p_rd KInt ;
   do '(version_point_, version_int_, version_app_name_) <- (if g2 c then (
        do version_point_ <- p_rd KInt ;
        do version_int_ <- p_rd KInt ;
        do version_app_name_ <- p_rd KStr ;
        PRet (version_point_, version_int_, version_app_name_))%p else PRet (0%Z, 0%Z, [])) ;
   PRet (mk_savemeta title_ world_ time_day_ time_hour_ time_minute_ save_date_ version_major_ version_minor_
     play_time_seconds_ version_point_ version_int_ version_app_name_))%p.
(** SaveGame.cc:32-48 *)
Definition save_savemeta (c : cfg) (x : savemeta) : list (wop oid) :=
  [wS "Title" (savemeta_title x); wS "WorldName" (savemeta_world x); wI "TimeDay" (savemeta_time_day x);
   wI "TimeHour" (savemeta_time_hour x); wI "TimeMin" (savemeta_time_minute x);
   wS "SaveDate" (savemeta_save_date x); wI "VersionMajor" (savemeta_version_major x);
   wI "VersionMinor" (savemeta_version_minor x); wI "PlayTimeSeconds" (savemeta_play_time_seconds x)] ++
  (if g2 c then [wI "VersionPoint" (savemeta_version_point x); wI "VersionInt" (savemeta_version_int x);
   wS "VersionAppName" (savemeta_version_app_name x)] else []).
(** The object with its references renamed. *)
Definition map_savemeta (ph : oid -> oid) (x : savemeta) : savemeta :=
  mk_savemeta (savemeta_title x) (savemeta_world x) (savemeta_time_day x) (savemeta_time_hour x)
  (savemeta_time_minute x) (savemeta_save_date x) (savemeta_version_major x) (savemeta_version_minor x)
  (savemeta_play_time_seconds x) (savemeta_version_point x) (savemeta_version_int x)
  (savemeta_version_app_name x).
(** SaveGame.hh:89 [CutscenePoolItem] *)
Record poolitem := mk_poolitem { poolitem_name : bytes; poolitem_run_behavior : N; poolitem_run_behavior_value : Z;
  poolitem_times_played : Z; poolitem_deactivated : Z; poolitem_flags : Z }.
(** SaveGame.cc:50-57 *)
Definition load_poolitem (c : cfg) : prog oid poolitem :=
  (do name_ <- p_rd KStr ;
   do run_behavior_ <- p_rd KEnum ;
   do run_behavior_value_ <- p_rd KInt ;
   do times_played_ <- p_rd KInt ;
   do deactivated_ <- p_rd KInt ;
   do flags_ <- p_rd KInt ;
   PRet (mk_poolitem name_ run_behavior_ run_behavior_value_ times_played_ deactivated_ flags_))%p.
(** SaveGame.cc:59-66 *)
Definition save_poolitem (c : cfg) (x : poolitem) : list (wop oid) :=
  [wS "itemName" (poolitem_name x); wE "runBehaviour" (poolitem_run_behavior x);
   wI "runBehaviourValue" (poolitem_run_behavior_value x); wI "numPlayed" (poolitem_times_played x);
   wI "deactivated" (poolitem_deactivated x); wI "flags" (poolitem_flags x)].
(** The object with its references renamed. *)
Definition map_poolitem (ph : oid -> oid) (x : poolitem) : poolitem :=
  mk_poolitem (poolitem_name x) (poolitem_run_behavior x) (poolitem_run_behavior_value x) (poolitem_times_played x)
  (poolitem_deactivated x) (poolitem_flags x).
(** SaveGame.hh:101-108 [CutsceneManager] *)
Record csmanager := mk_csmanager { csmanager_pool_items : list (option oid) }.
(** SaveGame.cc:69-74 *)
Definition load_csmanager (c : cfg) : prog oid csmanager :=
  (do pool_items_ <- (do n <- p_upto ; p_rep n (p_obj zCCSPoolItem))%p ;
   PRet (mk_csmanager pool_items_))%p.
(** SaveGame.cc:76-81 *)
Definition save_csmanager (c : cfg) (x : csmanager) : list (wop oid) :=
  wCount "poolCount" (csmanager_pool_items x) :: map (wO "%") (csmanager_pool_items x).
(** The object with its references renamed. *)
Definition map_csmanager (ph : oid -> oid) (x : csmanager) : csmanager :=
  mk_csmanager (map (option_map ph) (csmanager_pool_items x)).
(** World.hh:30-40 [CutscenePlayer]; weak pointers as pointers *)
Record csplayer := mk_csplayer { csplayer_last_process_day : Z; csplayer_last_process_hour : Z;
  csplayer_playlists : list (option oid) }.
(** World.cc:253-261 *)
Definition load_csplayer (c : cfg) : prog oid csplayer :=
  (do last_process_day_ <- p_rd KInt ;
   do last_process_hour_ <- p_rd KInt ;
   do playlists_ <- (do n <- p_upto ; p_rep n (p_obj zCCSCutsceneContext))%p ;
   PRet (mk_csplayer last_process_day_ last_process_hour_ playlists_))%p.
(** World.cc:263-271 *)
Definition save_csplayer (c : cfg) (x : csplayer) : list (wop oid) :=
  [wI "lastProcessDay" (csplayer_last_process_day x); wI "lastProcessHour" (csplayer_last_process_hour x)] ++
  wCount "playListCount" (csplayer_playlists x) :: map (fun p => WObj (numbered "playContext" (fst p)) (snd p)) (indexed 0 (csplayer_playlists x)).
(** The object with its references renamed. *)
Definition map_csplayer (ph : oid -> oid) (x : csplayer) : csplayer :=
  mk_csplayer (csplayer_last_process_day x) (csplayer_last_process_hour x)
  (map (option_map ph) (csplayer_playlists x)).
(** World.hh:34 [SkyController] *)
Record sky := mk_sky { sky_master_time : N; sky_rain_weight : N; sky_rain_start : N; sky_rain_stop : N; sky_rain_sct_timer : N;
  sky_rain_snd_vol : N; sky_day_ctr : N; sky_fade_scale : N; sky_render_lightning : bool;
  sky_is_raining : bool; sky_rain_ctr : Z }.
(** World.cc:273-288 *)
Definition load_sky (c : cfg) : prog oid sky :=
  (do master_time_ <- p_rd KFloat ;
   do rain_weight_ <- p_rd KFloat ;
   do rain_start_ <- p_rd KFloat ;
   do rain_stop_ <- p_rd KFloat ;
   do rain_sct_timer_ <- p_rd KFloat ;
   do rain_snd_vol_ <- p_rd KFloat ;
   do day_ctr_ <- p_rd KFloat ;
   do '(fade_scale_, render_lightning_, is_raining_, rain_ctr_) <- (if g2 c then (
        do fade_scale_ <- p_rd KFloat ;
        do render_lightning_ <- p_rd KBool ;
        do is_raining_ <- p_rd KBool ;
        do rain_ctr_ <- p_rd KInt ;
        PRet (fade_scale_, render_lightning_, is_raining_, rain_ctr_))%p else PRet (0, false, false, 0%Z)) ;
   PRet (mk_sky master_time_ rain_weight_ rain_start_ rain_stop_ rain_sct_timer_ rain_snd_vol_ day_ctr_ fade_scale_
     render_lightning_ is_raining_ rain_ctr_))%p.
(** World.cc:290-305 *)
Definition save_sky (c : cfg) (x : sky) : list (wop oid) :=
  [wF "masterTime" (sky_master_time x); wF "rainWeight" (sky_rain_weight x);
   wF "rainStart" (sky_rain_start x); wF "rainStop" (sky_rain_stop x);
   wF "rainSctTimer" (sky_rain_sct_timer x); wF "rainSndVol" (sky_rain_snd_vol x);
   wF "dayCtr" (sky_day_ctr x)] ++
  (if g2 c then [wF "" (sky_fade_scale x); wB "" (sky_render_lightning x); wB "" (sky_is_raining x); wI "" (sky_rain_ctr x)] else []).
(** The object with its references renamed. *)
Definition map_sky (ph : oid -> oid) (x : sky) : sky :=
  mk_sky (sky_master_time x) (sky_rain_weight x) (sky_rain_start x) (sky_rain_stop x) (sky_rain_sct_timer x)
  (sky_rain_snd_vol x) (sky_day_ctr x) (sky_fade_scale x) (sky_render_lightning x) (sky_is_raining x)
  (sky_rain_ctr x).
