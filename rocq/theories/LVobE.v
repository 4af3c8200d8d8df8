(** Lemmas: loading a saved object of a class gives the same object.  Classes with lists and raw data. *)

From Coq Require Import String.
From Verif Require Import MBase MStream SStream LBase LStream LStreamHist MBoxes SBoxes LBoxes MText MClasses MArchive SArchive MVob MVobs MNpc MCutscene MMaterial MWorld SVob LVob LText LVobC LVobD.
Local Open Scope N_scope.

(** One step with the help of [tac]. *)
Ltac g_run_with law tac := repeat first [g_step | tac | g_base law | g_base_last law].

(** ** Triggers *)
Lemma gives_flag f ph ty fl name n : n < 256 -> gives f ph ty fl p_flag [wR name [n2b n]] n.
Proof.
  intros H. unfold p_flag. apply gives_raw; [apply (reads_ubyte n); exact H | reflexivity | reflexivity].
Qed.
Definition sample_enc (s : sample) : bytes :=
  words_le [v3x (sm_pos s); v3y (sm_pos s); v3z (sm_pos s)] ++ words_le [sm_x s; sm_y s; sm_z s; sm_w s].
Lemma len_samples l : len (flat_map sample_enc l) = len l * 28.
Proof.
  induction l as [|s l IH]; [reflexivity|]. cbn [flat_map]. rewrite len_app, IH, len_cons.
  unfold sample_enc. rewrite len_app, !len_words_le. change (len [v3x (sm_pos s); v3y (sm_pos s); v3z (sm_pos s)]) with 3.
  change (len [sm_x s; sm_y s; sm_z s; sm_w s]) with 4. lia.
Qed.
Lemma sample_writes s : writes (write_sample s) (sample_enc s).
Proof.
  unfold write_sample, sample_enc. apply writes_seq; [apply writes_vec3|].
  unfold words_le. cbn [flat_map]. rewrite app_nil_r.
  apply writes_seq; [apply writes_float|]. apply writes_seq; [apply writes_float|].
  apply writes_seq; apply writes_float.
Qed.
Lemma sample_reads s : sample_ok s -> reads read_sample (sample_enc s) s.
Proof.
  intros (Hp & Hx & Hy & Hz & Hw). unfold read_sample, sample_enc.
  eapply reads_bind; [apply vec3_reads; exact Hp|].
  unfold words_le. cbn [flat_map]. rewrite app_nil_r.
  eapply reads_bind; [apply reads_float; exact Hx|]. eapply reads_bind; [apply reads_float; exact Hy|].
  eapply reads_bind; [apply reads_float; exact Hz|]. eapply reads_if_last; [apply reads_float; exact Hw|].
  destruct s. apply reads_ret.
Qed.
Lemma gives_keyframes f ph ty fl s l m k : ok_frames (s, l, m, k) ->
  gives f ph ty fl p_keyframes (w_keyframes s l m k) (s, l, m, k).
Proof.
  intros (Hl & Hk & He). unfold p_keyframes, w_keyframes.
  assert (Hu : u16 (len k) = len k) by (apply N.mod_small; exact Hl). rewrite Hu.
  eapply gives_cons; [apply gives_rd; reflexivity|]. cbn beta iota.
  destruct k as [|k0 k'] eqn:Ek; cbn [empty].
  - destruct (He eq_refl) as (-> & -> & ->). apply gives_ret. reflexivity.
  - rewrite <- Ek in *. assert (Hne : len k =? 0 = false) by (apply N.eqb_neq; rewrite Ek, len_cons; lia).
    rewrite Hne. repeat g_step. eapply gives_last; [|apply gives_ret; reflexivity].
    change (2 ^ 16) with 65536 in Hl.
    assert (Hm : len k * 28 < max_size) by (rewrite max_size_val; lia).
    rewrite (raw_of_writes _ (flat_map sample_enc k)).
    + apply gives_raw; [|apply len_samples | exact Hm].
      apply reads_repM; [unfold len; rewrite Nnat.Nat2N.id; reflexivity|]. intros x Hx. apply sample_reads.
      rewrite Forall_forall in Hk. apply Hk, Hx.
    + apply writes_iter. intros x _. apply sample_writes.
    + rewrite len_samples. exact Hm.
Qed.
Lemma gives_targets f ph ty fl l n : n = length l -> gives f ph ty fl (p_rep n p_target) (w_targets l) l.
Proof.
  intros Hn. unfold w_targets. rewrite <- (map_id l) at 2. apply gives_repi; [exact Hn|].
  intros [a b] i _. unfold p_target. cbn [fst snd]. repeat g_step.
Qed.
Lemma gives_refs f ph ty fl t name l n : n = length l -> Forall (fun r => refers_to ty r t) l ->
  gives f ph ty fl (p_rep n (p_obj t)) (map (wO name) l) (map (option_map ph) l).
Proof.
  intros -> H. apply gives_rep1. intros r Hr. apply gives_obj. rewrite Forall_forall in H. apply (H r Hr).
Qed.
Lemma gives_refsi f ph ty fl t name l n : n = length l -> Forall (fun r => refers_to ty r t) l ->
  gives f ph ty fl (p_rep n (p_obj t)) (map (fun p => WObj (numbered name (fst p)) (snd p)) (indexed 0 l)) (map (option_map ph) l).
Proof.
  intros Hn H. apply gives_repi1; [exact Hn|]. intros r i Hr. apply gives_obj. rewrite Forall_forall in H. apply (H r Hr).
Qed.
Lemma gives_strs f ph ty fl name l n : n = length l ->
  gives f ph ty fl (p_rep n (p_rd KStr)) (map (wS name) l) l.
Proof.
  intros ->. pose proof (gives_rep1 f ph ty fl (p_rd KStr) (wS name) (fun s => s) l) as H. rewrite map_id in H.
  apply H. intros a _. apply gives_rd. reflexivity.
Qed.
Lemma gives_strsi f ph ty fl name l n : n = length l ->
  gives f ph ty fl (p_rep n (p_rd KStr)) (map (fun p => WEntry (numbered name (fst p)) (EStr (snd p))) (indexed 0 l)) l.
Proof.
  intros Hn. pose proof (gives_repi1 f ph ty fl (p_rd KStr) (fun p => WEntry (numbered name (fst p)) (EStr (snd p))) (fun s => s) l n Hn) as H.
  rewrite map_id in H. apply H. intros a i _. apply gives_rd. reflexivity.
Qed.
Lemma to_nat_u8 {A} (l : list A) : len l < 256 -> N.to_nat (u8 (len l)) = length l.
Proof. intros H. unfold u8. rewrite N.mod_small by exact H. unfold len. apply Nnat.Nat2N.id. Qed.
Lemma to_nat_len {A} (l : list A) : Z.to_nat (Z.of_N (len l)) = length l.
Proof. unfold len. rewrite nat_N_Z. apply Nat2Z.id. Qed.

(** ** Cameras *)
Lemma gives_pose f ph ty fl name m : ok_pose m -> gives f ph ty fl (p_raw 64 read_mat4) [wR name (words_le m)] m.
Proof.
  intros (Hl & Hf & Ht). rewrite <- Ht at 1. apply gives_raw; [apply reads_mat4; assumption | | reflexivity].
  rewrite Ht, len_words_le. unfold len. rewrite Hl. reflexivity.
Qed.
Lemma gives_frames f ph ty fl l n : n = Z.of_N (len l) -> Forall (fun r => refers_to ty r zCCamTrj_KeyFrame) l ->
  gives f ph ty fl (p_frames n) (w_frames n l) (map (option_map ph) l).
Proof.
  intros -> H. unfold p_frames, w_frames. rewrite to_nat_len, firstn_all.
  replace (Z.of_nat (length l) <? Z.of_N (len l))%Z with false
    by (symmetry; apply Z.ltb_ge; unfold len; rewrite nat_N_Z; lia).
  rewrite app_nil_r. apply gives_refs; [reflexivity | exact H].
Qed.

(** ** Lights *)
Lemma stream_u32_dec n rest : n < 256 -> not_digit rest -> stream_u32 (dec n ++ rest) = (n, Some rest).
Proof.
  intros H Hr. unfold stream_u32. rewrite scan_int_dec by exact Hr.
  replace (Z.abs (Z.of_N n) <? 2 ^ 32)%Z with true by (symmetry; apply Z.ltb_lt; change (2 ^ 32)%Z with 4294967296%Z; lia).
  unfold uint. rewrite Z.mod_small by (change (Z.of_N (2 ^ 32)) with 4294967296%Z; lia).
  rewrite N2Z.id. reflexivity.
Qed.
Lemma stream_rgb_color v k rest : color_ok k ->
  stream_rgb v (dec (c_r k) ++ [x20] ++ dec (c_g k) ++ [x20] ++ dec (c_b k) ++ x29 :: rest) =
  ((Some (c_r k), Some (c_g k), Some (c_b k)), Some rest).
Proof.
  intros (Hr & Hg & Hb & _). destruct v as [[v1 v2] v3]. unfold stream_rgb.
  rewrite stream_u32_dec by (exact Hr || reflexivity). cbn [app].
  assert (W : forall n r, n < 256 -> not_digit r -> stream_u32 (x20 :: dec n ++ r) = (n, Some r)).
  { intros n r Hn Hd. rewrite <- (stream_u32_dec n r Hn Hd). reflexivity. }
  rewrite W by (exact Hg || reflexivity). rewrite W by (exact Hb || reflexivity). reflexivity.
Qed.
Lemma stream_colors_show l : Forall color_ok l -> forall fuel v, (length l < fuel)%nat ->
  stream_colors fuel v (show_colors l) = Ret l /\ stream_colors fuel v (x20 :: show_colors l) = Ret l.
Proof.
  induction 1 as [|k l Hk _ IH]; intros fuel v Hf; (destruct fuel as [|fuel]; [lia|]).
  - split; reflexivity.
  - cbn [length] in Hf.
    assert (E : show_colors (k :: l) = x28 :: dec (c_r k) ++ [x20] ++ dec (c_g k) ++ [x20] ++ dec (c_b k) ++ x29 :: x20 :: show_colors l).
    { unfold show_colors. cbn [flat_map]. unfold show_color. cbn [lit]. rewrite <- !app_assoc. reflexivity. }
    rewrite E.
    assert (Q : forall s, stream_colors (S fuel) v (x20 :: s) = stream_colors (S fuel) v s) by (intros s; reflexivity).
    rewrite Q.
    assert (R : stream_colors (S fuel) v (x28 :: dec (c_r k) ++ [x20] ++ dec (c_g k) ++ [x20] ++ dec (c_b k) ++ x29 :: x20 :: show_colors l) = Ret (k :: l)).
    { cbn [stream_colors]. change (drop_while is_ws (x28 :: ?s)) with (x28 :: s).
      cbv iota. change (is_digit x28) with false. cbv iota zeta.
      rewrite stream_rgb_color by exact Hk. destruct (IH fuel (Some (c_r k), Some (c_g k), Some (c_b k))) as [_ ->]; [lia|].
      destruct Hk as (Hr & Hg & Hb & Ha). cbn [obind]. destruct k as [r g b a]. cbn [c_r c_g c_b c_a] in *. subst a.
      unfold u8. rewrite !N.mod_small by assumption. reflexivity. }
    rewrite R. split; reflexivity.
Qed.
Lemma len_show_colors l : (length l <= length (show_colors l))%nat.
Proof.
  induction l as [|k l IH]; [apply Nat.le_refl|]. unfold show_colors in *. cbn [flat_map length]. rewrite app_length.
  assert (1 <= length (show_color k))%nat by (unfold show_color; rewrite app_length; apply Nat.le_add_r). lia.
Qed.
Lemma read_colors_show l : Forall color_ok l -> read_colors (show_colors l) = Ret l.
Proof.
  intros H. unfold read_colors. apply stream_colors_show; [exact H|]. pose proof (len_show_colors l). lia.
Qed.
Lemma gives_dyn c f ph ty fl d : ok_dyn c d -> gives f ph ty fl (load_dyn c) (save_dyn c d) d.
Proof.
  intros (Hr & Hc & Hm). destruct d as [v0 v1 v2 v3 v4 v5 v6 v7]. unfold load_dyn, save_dyn.
  cbn [dl_on dl_ranges dl_range_fps dl_range_smooth dl_colors dl_color_fps dl_color_smooth dl_can_move] in *. subst v1.
  change (show_ranges []) with (@nil byte). cbn [app].
  assert (Hl : gives f ph ty fl (p_lift (read_colors (show_colors v4))) [] v4) by (rewrite read_colors_show by exact Hc; apply gives_ret; reflexivity).
  repeat g_step. eapply gives_none; [exact Hl|]. destruct (g2 c); [|rewrite Hm by reflexivity]; repeat g_step.
Qed.
Lemma law_trigger c ty x : ok_trigger c ty x -> forall f ph fl, gives f ph ty fl (load_trigger c) (save_trigger c x) (map_trigger ph x).
Proof.
  intros H f ph fl. destruct x as [v0 v1 v2 v3 v4 v5 v6 v7 v8 v9 v10 v11 v12 v13 v14 v15 v16 v17 v18 v19 v20]. unfold ok_trigger, load_trigger, save_trigger, map_trigger in *. g_cfg c;
  cbn [g2 cf_game cf_save andb app trigger_base trigger_target trigger_flags trigger_filter_flags trigger_vob_target
    trigger_max_activation_count trigger_retrigger_delay_sec trigger_damage_threshold
    trigger_fire_delay_sec trigger_start_enabled trigger_send_untrigger trigger_react_to_on_trigger
    trigger_react_to_on_touch trigger_react_to_on_damage trigger_respond_to_object trigger_respond_to_pc
    trigger_respond_to_npc trigger_s_next_time_triggerable trigger_s_other_vob
    trigger_s_count_can_be_activated trigger_s_is_enabled] in *;
  g_use; subst; g_run_with law_vob ltac:(eapply gives_cons; [apply gives_flag; assumption | cbn beta iota]).
Qed.
Lemma law_mover c ty x : ok_mover c ty x -> forall f ph fl, gives f ph ty fl (load_mover c) (save_mover c x) (map_mover ph x).
Proof.
  intros H f ph fl. destruct x as [v0 v1 v2 v3 v4 v5 v6 v7 v8 v9 v10 v11 v12 v13 v14 v15 v16 v17 v18 v19 v20 v21 v22 v23 v24]. unfold ok_mover, load_mover, save_mover, map_mover in *. destruct v7 as [[[fr0 fr1] fr2] fr3]; g_cfg c;
  cbn [g2 cf_game cf_save andb app mover_base mover_behavior mover_touch_blocker_damage mover_stay_open_time_sec mover_locked
    mover_auto_link mover_auto_rotate mover_frames mover_s_act_key_pos_delta mover_s_act_keyframe_f
    mover_s_act_keyframe mover_s_next_keyframe mover_s_move_speed_unit mover_s_advance_dir
    mover_s_mover_state mover_s_trigger_event_count mover_s_stay_open_time_dest mover_sfx_open_start
    mover_sfx_open_end mover_sfx_transitioning mover_sfx_close_start mover_sfx_close_end mover_sfx_lock
    mover_sfx_unlock mover_sfx_use_locked] in *;
  g_use; subst; g_run_with law_trigger ltac:(eapply gives_bind; [apply gives_keyframes; assumption | cbn beta iota]).
Qed.
Lemma law_tlist c ty x : ok_tlist c ty x -> forall f ph fl, gives f ph ty fl (load_tlist c) (save_tlist c x) (map_tlist ph x).
Proof.
  intros H f ph fl. destruct x as [v0 v1 v2 v3 v4]. unfold ok_tlist, load_tlist, save_tlist, map_tlist in *. g_cfg c;
  cbn [g2 cf_game cf_save andb app tlist_base tlist_mode tlist_targets tlist_s_act_target tlist_s_send_on_trigger] in *;
  g_use; subst; g_run_with law_trigger ltac:(first [eapply gives_bind; [apply gives_targets; apply to_nat_u8; assumption | cbn beta iota] | eapply gives_last; [apply gives_targets; apply to_nat_u8; assumption | cbn beta iota]]).
Qed.
Lemma law_tscript c ty x : ok_tscript c ty x -> forall f ph fl, gives f ph ty fl (load_tscript c) (save_tscript c x) (map_tscript ph x).
Proof.
  intros H f ph fl. destruct x as [v0 v1]. unfold ok_tscript, load_tscript, save_tscript, map_tscript in *. g_cfg c;
  cbn [g2 cf_game cf_save andb app tscript_base tscript_function] in *;
  g_use; subst; g_run law_trigger.
Qed.
Lemma law_tlevel c ty x : ok_tlevel c ty x -> forall f ph fl, gives f ph ty fl (load_tlevel c) (save_tlevel c x) (map_tlevel ph x).
Proof.
  intros H f ph fl. destruct x as [v0 v1 v2]. unfold ok_tlevel, load_tlevel, save_tlevel, map_tlevel in *. g_cfg c;
  cbn [g2 cf_game cf_save andb app tlevel_base tlevel_level_name tlevel_start_vob] in *;
  g_use; subst; g_run law_trigger.
Qed.
Lemma law_container c ty x : ok_container c ty x -> forall f ph fl, gives f ph ty fl (load_container c) (save_container c x) (map_container ph x).
Proof.
  intros H f ph fl. destruct x as [v0 v1 v2 v3 v4 v5]. unfold ok_container, load_container, save_container, map_container in *. g_cfg c;
  cbn [g2 cf_game cf_save andb app container_base container_locked container_key container_pick_string container_contents
    container_s_items] in *;
  g_use; subst; g_run_with law_interactive ltac:(unfold ok_refs in *; g_use; first [eapply gives_cons; [apply gives_size; assumption | cbn beta iota] | eapply gives_last; [apply gives_refs; [reflexivity | assumption] | cbn beta iota]]).
Qed.
Lemma law_camframe c ty x : ok_camframe c ty x -> forall f ph fl, gives f ph ty fl (load_camframe c) (save_camframe c x) (map_camframe ph x).
Proof.
  intros H f ph fl. destruct x as [v0 v1 v2 v3 v4 v5 v6 v7 v8 v9 v10 v11 v12 v13]. unfold ok_camframe, load_camframe, save_camframe, map_camframe in *. g_cfg c;
  cbn [g2 cf_game cf_save andb app camframe_base camframe_time camframe_roll_angle camframe_fov_scale camframe_motion_type
    camframe_motion_type_fov camframe_motion_type_roll camframe_motion_type_time_scale camframe_tension
    camframe_cam_bias camframe_continuity camframe_time_scale camframe_time_fixed camframe_original_pose] in *;
  g_use; subst; g_run_with law_vob ltac:(eapply gives_cons; [apply gives_pose; assumption | cbn beta iota]).
Qed.
Lemma law_cscamera c ty x : ok_cscamera c ty x -> forall f ph fl, gives f ph ty fl (load_cscamera c) (save_cscamera c x) (map_cscamera ph x).
Proof.
  intros H f ph fl. destruct x as [v0 v1 v2 v3 v4 v5 v6 v7 v8 v9 v10 v11 v12 v13 v14 v15 v16 v17 v18 v19 v20 v21 v22]. unfold ok_cscamera, load_cscamera, save_cscamera, map_cscamera in *. g_cfg c;
  cbn [g2 cf_game cf_save andb app cscamera_base cscamera_trajectory_for cscamera_target_trajectory_for cscamera_loop_mode
    cscamera_lerp_mode cscamera_ignore_for_vob_rotation cscamera_ignore_for_vob_rotation_target
    cscamera_adapt cscamera_ease_first cscamera_ease_last cscamera_total_duration
    cscamera_auto_focus_vob cscamera_auto_player_movable cscamera_auto_untrigger_last
    cscamera_auto_untrigger_last_delay cscamera_position_count cscamera_target_count
    cscamera_trajectory_frames cscamera_target_frames cscamera_paused cscamera_started
    cscamera_goto_time_mode cscamera_cs_time] in *;
  g_use; subst; g_run_with law_vob ltac:(first [eapply gives_bind; [apply gives_frames; [reflexivity | assumption] | cbn beta iota] | eapply gives_last; [apply gives_frames; [reflexivity | assumption] | cbn beta iota]]).
Qed.
Lemma law_light c ty x : ok_light c ty x -> forall f ph fl, gives f ph ty fl (load_light c) (save_light c x) (map_light ph x).
Proof.
  intros H f ph fl. destruct x as [v0 v1 v2 v3 v4 v5 v6 v7 v8 v9]. unfold ok_light, load_light, save_light, map_light in *. destruct v6; g_cfg c;
  cbn [g2 cf_game cf_save andb app light_base light_preset light_light_type light_range light_color light_cone_angle light_is_static
    light_quality light_lensflare_fx light_dyn] in *;
  g_use; subst; g_run_with law_vob ltac:(eapply gives_last; [apply gives_dyn; assumption | cbn beta iota]).
Qed.
Lemma law_animate c ty x : ok_animate c ty x -> forall f ph fl, gives f ph ty fl (load_animate c) (save_animate c x) (map_animate ph x).
Proof.
  intros H f ph fl. destruct x as [v0 v1 v2]. unfold ok_animate, load_animate, save_animate, map_animate in *. g_cfg c;
  cbn [g2 cf_game cf_save andb app animate_base animate_start_on animate_s_is_running] in *;
  g_use; subst; g_run_with law_vob ltac:(fail).
Qed.
Lemma law_codemaster c ty x : ok_codemaster c ty x -> forall f ph fl, gives f ph ty fl (load_codemaster c) (save_codemaster c x) (map_codemaster ph x).
Proof.
  intros H f ph fl. destruct x as [v0 v1 v2 v3 v4 v5 v6 v7]. unfold ok_codemaster, load_codemaster, save_codemaster, map_codemaster in *. cbn [codemaster_slaves] in *. assert (Ht : take (N.land (len v6) 255) v6 = v6) by (destruct H as (_ & Hl & _); change 255 with (N.ones 8); rewrite N.land_ones; rewrite N.mod_small by exact Hl; apply take_all; lia). rewrite Ht, app_nil_r. g_cfg c;
  cbn [g2 cf_game cf_save andb app codemaster_base codemaster_target codemaster_ordered codemaster_first_false_is_failure
    codemaster_failure_target codemaster_untriggered_cancels codemaster_slaves
    codemaster_s_num_triggered_slaves] in *;
  g_use; subst; g_run_with law_vob ltac:(eapply gives_last; [apply gives_strsi; apply to_nat_u8; assumption | cbn beta iota]). all: discriminate.
Qed.
Lemma law_screenfx c ty x : ok_screenfx c ty x -> forall f ph fl, gives f ph ty fl (load_screenfx c) (save_screenfx c x) (map_screenfx ph x).
Proof.
  intros H f ph fl. destruct x as [v0]. unfold ok_screenfx, load_screenfx, save_screenfx, map_screenfx in *. g_cfg c;
  cbn [g2 cf_game cf_save andb app screenfx_base] in *;
  g_use; subst; g_run_with law_vob ltac:(fail).
Qed.
