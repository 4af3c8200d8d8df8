(** Lemmas: loading a saved object of a class gives the same object.  Classes derived from [VirtualObject]. *)

From Coq Require Import String.
From Verif Require Import MBase MStream SStream LBase LStream LStreamHist MBoxes SBoxes LBoxes MText MClasses MArchive SArchive MVob MVobs MNpc MCutscene MMaterial MWorld SVob LVob LVobC.
Local Open Scope N_scope.

Lemma law_tstart c ty x : ok_tstart c ty x -> forall f ph fl, gives f ph ty fl (load_tstart c) (save_tstart c x) (map_tstart ph x).
Proof.
  intros H f ph fl. destruct x as [v0 v1 v2 v3]. unfold ok_tstart, load_tstart, save_tstart, map_tstart in *. g_cfg c;
  cbn [g2 cf_game cf_save andb app tstart_base tstart_target tstart_fire_once tstart_s_has_fired] in *;
  g_use; subst; g_run law_vob.
Qed.
Lemma law_tuntouch c ty x : ok_tuntouch c ty x -> forall f ph fl, gives f ph ty fl (load_tuntouch c) (save_tuntouch c x) (map_tuntouch ph x).
Proof.
  intros H f ph fl. destruct x as [v0 v1]. unfold ok_tuntouch, load_tuntouch, save_tuntouch, map_tuntouch in *. g_cfg c;
  cbn [g2 cf_game cf_save andb app tuntouch_base tuntouch_target] in *;
  g_use; subst; g_run law_vob.
Qed.
Lemma law_movable c ty x : ok_movable c ty x -> forall f ph fl, gives f ph ty fl (load_movable c) (save_movable c x) (map_movable ph x).
Proof.
  intros H f ph fl. destruct x as [v0 v1 v2 v3 v4 v5 v6 v7 v8 v9 v10 v11]. unfold ok_movable, load_movable, save_movable, map_movable in *. g_cfg c;
  cbn [g2 cf_game cf_save andb app movable_base movable_name movable_hp movable_damage movable_movable movable_takable
    movable_focus_override movable_material movable_visual_destroyed movable_owner movable_owner_guild
    movable_destroyed] in *;
  g_use; subst; g_run law_vob.
Qed.
Lemma law_interactive c ty x : ok_interactive c ty x -> forall f ph fl, gives f ph ty fl (load_interactive c) (save_interactive c x) (map_interactive ph x).
Proof.
  intros H f ph fl. destruct x as [v0 v1 v2 v3 v4 v5 v6]. unfold ok_interactive, load_interactive, save_interactive, map_interactive in *. g_cfg c;
  cbn [g2 cf_game cf_save andb app interactive_base interactive_state_count interactive_target interactive_item
    interactive_condition_function interactive_on_state_change_function interactive_rewind] in *;
  g_use; subst; g_run law_movable.
Qed.
Lemma law_door c ty x : ok_door c ty x -> forall f ph fl, gives f ph ty fl (load_door c) (save_door c x) (map_door ph x).
Proof.
  intros H f ph fl. destruct x as [v0 v1 v2 v3]. unfold ok_door, load_door, save_door, map_door in *. g_cfg c;
  cbn [g2 cf_game cf_save andb app door_base door_locked door_key door_pick_string] in *;
  g_use; subst; g_run law_interactive.
Qed.
Lemma law_fire c ty x : ok_fire c ty x -> forall f ph fl, gives f ph ty fl (load_fire c) (save_fire c x) (map_fire ph x).
Proof.
  intros H f ph fl. destruct x as [v0 v1 v2]. unfold ok_fire, load_fire, save_fire, map_fire in *. g_cfg c;
  cbn [g2 cf_game cf_save andb app fire_base fire_slot fire_vob_tree] in *;
  g_use; subst; g_run law_interactive.
Qed.
Lemma law_sound c ty x : ok_sound c ty x -> forall f ph fl, gives f ph ty fl (load_sound c) (save_sound c x) (map_sound ph x).
Proof.
  intros H f ph fl. destruct x as [v0 v1 v2 v3 v4 v5 v6 v7 v8 v9 v10 v11 v12 v13]. unfold ok_sound, load_sound, save_sound, map_sound in *. g_cfg c;
  cbn [g2 cf_game cf_save andb app sound_base sound_volume sound_mode sound_random_delay sound_random_delay_var sound_initially_playing
    sound_ambient3d sound_obstruction sound_cone_angle sound_volume_type sound_radius sound_sound_name
    sound_s_is_running sound_s_is_allowed_to_run] in *;
  g_use; subst; g_run law_vob.
Qed.
Lemma law_daysound c ty x : ok_daysound c ty x -> forall f ph fl, gives f ph ty fl (load_daysound c) (save_daysound c x) (map_daysound ph x).
Proof.
  intros H f ph fl. destruct x as [v0 v1 v2 v3]. unfold ok_daysound, load_daysound, save_daysound, map_daysound in *. g_cfg c;
  cbn [g2 cf_game cf_save andb app daysound_base daysound_start_time daysound_end_time daysound_sound_name2] in *;
  g_use; subst; g_run law_sound.
Qed.
Lemma law_music c ty x : ok_music c ty x -> forall f ph fl, gives f ph ty fl (load_music c) (save_music c x) (map_music ph x).
Proof.
  intros H f ph fl. destruct x as [v0 v1 v2 v3 v4 v5 v6 v7 v8 v9]. unfold ok_music, load_music, save_music, map_music in *. g_cfg c;
  cbn [g2 cf_game cf_save andb app music_base music_enabled music_priority music_ellipsoid music_reverb music_volume music_loop
    music_s_local_enabled music_s_day_entrance_done music_s_night_entrance_done] in *;
  g_use; subst; g_run law_vob.
Qed.
Lemma law_farplane c ty x : ok_farplane c ty x -> forall f ph fl, gives f ph ty fl (load_farplane c) (save_farplane c x) (map_farplane ph x).
Proof.
  intros H f ph fl. destruct x as [v0 v1 v2]. unfold ok_farplane, load_farplane, save_farplane, map_farplane in *. g_cfg c;
  cbn [g2 cf_game cf_save andb app farplane_base farplane_vob_far_plane_z farplane_inner_range_percentage] in *;
  g_use; subst; g_run law_vob.
Qed.
Lemma law_fog c ty x : ok_fog c ty x -> forall f ph fl, gives f ph ty fl (load_fog c) (save_fog c x) (map_fog ph x).
Proof.
  intros H f ph fl. destruct x as [v0 v1 v2 v3 v4 v5]. unfold ok_fog, load_fog, save_fog, map_fog in *. g_cfg c;
  cbn [g2 cf_game cf_save andb app fog_base fog_range_center fog_inner_range_percentage fog_color fog_fade_out_sky fog_override_color] in *;
  g_use; subst; g_run law_vob.
Qed.
Lemma law_item c ty x : ok_item c ty x -> forall f ph fl, gives f ph ty fl (load_item c) (save_item c x) (map_item ph x).
Proof.
  intros H f ph fl. destruct x as [v0 v1 v2 v3]. unfold ok_item, load_item, save_item, map_item in *. g_cfg c;
  cbn [g2 cf_game cf_save andb app item_base item_instance item_s_amount item_s_flags] in *;
  g_use; subst; g_run law_vob.
Qed.
Lemma law_lensflare c ty x : ok_lensflare c ty x -> forall f ph fl, gives f ph ty fl (load_lensflare c) (save_lensflare c x) (map_lensflare ph x).
Proof.
  intros H f ph fl. destruct x as [v0 v1]. unfold ok_lensflare, load_lensflare, save_lensflare, map_lensflare in *. g_cfg c;
  cbn [g2 cf_game cf_save andb app lensflare_base lensflare_fx] in *;
  g_use; subst; g_run law_vob.
Qed.
Lemma law_pfxctl c ty x : ok_pfxctl c ty x -> forall f ph fl, gives f ph ty fl (load_pfxctl c) (save_pfxctl c x) (map_pfxctl ph x).
Proof.
  intros H f ph fl. destruct x as [v0 v1 v2 v3]. unfold ok_pfxctl, load_pfxctl, save_pfxctl, map_pfxctl in *. g_cfg c;
  cbn [g2 cf_game cf_save andb app pfxctl_base pfxctl_pfx_name pfxctl_kill_when_done pfxctl_initially_running] in *;
  g_use; subst; g_run law_vob.
Qed.
Lemma law_msgfilter c ty x : ok_msgfilter c ty x -> forall f ph fl, gives f ph ty fl (load_msgfilter c) (save_msgfilter c x) (map_msgfilter ph x).
Proof.
  intros H f ph fl. destruct x as [v0 v1 v2 v3]. unfold ok_msgfilter, load_msgfilter, save_msgfilter, map_msgfilter in *. g_cfg c;
  cbn [g2 cf_game cf_save andb app msgfilter_base msgfilter_target msgfilter_on_trigger msgfilter_on_untrigger] in *;
  g_use; subst; g_run law_vob.
Qed.
Lemma law_movctl c ty x : ok_movctl c ty x -> forall f ph fl, gives f ph ty fl (load_movctl c) (save_movctl c x) (map_movctl ph x).
Proof.
  intros H f ph fl. destruct x as [v0 v1 v2 v3]. unfold ok_movctl, load_movctl, save_movctl, map_movctl in *. g_cfg c;
  cbn [g2 cf_game cf_save andb app movctl_base movctl_target movctl_message movctl_key] in *;
  g_use; subst; g_run law_vob.
Qed.
Lemma law_touchdmg c ty x : ok_touchdmg c ty x -> forall f ph fl, gives f ph ty fl (load_touchdmg c) (save_touchdmg c x) (map_touchdmg ph x).
Proof.
  intros H f ph fl. destruct x as [v0 v1 v2 v3 v4 v5 v6 v7 v8 v9 v10 v11 v12]. unfold ok_touchdmg, load_touchdmg, save_touchdmg, map_touchdmg in *. g_cfg c;
  cbn [g2 cf_game cf_save andb app touchdmg_base touchdmg_damage touchdmg_barrier touchdmg_blunt touchdmg_edge touchdmg_fire
    touchdmg_fly touchdmg_magic touchdmg_point touchdmg_fall touchdmg_repeat_delay_sec
    touchdmg_volume_scale touchdmg_collision] in *;
  g_use; subst; g_run law_vob.
Qed.
Lemma law_quake c ty x : ok_quake c ty x -> forall f ph fl, gives f ph ty fl (load_quake c) (save_quake c x) (map_quake ph x).
Proof.
  intros H f ph fl. destruct x as [v0 v1 v2 v3]. unfold ok_quake, load_quake, save_quake, map_quake in *. g_cfg c;
  cbn [g2 cf_game cf_save andb app quake_base quake_radius quake_duration quake_amplitude] in *;
  g_use; subst; g_run law_vob.
Qed.
