(** Lemmas: loading a saved object of a class gives the same object.  The base classes. *)

From Coq Require Import String.
From Verif Require Import MBase MStream SStream LBase LStream LStreamHist MBoxes SBoxes LBoxes MText MClasses MArchive SArchive MVob MVobs MNpc MCutscene MMaterial MWorld SVob LVob.
Local Open Scope N_scope.

Lemma law_decal c ty x : ok_decal c ty x -> forall f ph fl, gives f ph ty fl (load_decal c) (save_decal c x) (map_decal ph x).
Proof.
  intros H f ph fl. destruct x as [v0 v1 v2 v3 v4 v5 v6 v7]. unfold ok_decal, load_decal, save_decal, map_decal in *. g_cfg c;
  cbn [g2 cf_game cf_save andb app decal_name decal_dimension decal_offset decal_two_sided decal_alpha_func decal_texture_anim_fps
    decal_alpha_weight decal_ignore_daylight] in *;
  g_use; subst; g_run I.
Qed.
Lemma law_body c ty x : ok_body c ty x -> forall f ph fl, gives f ph ty fl (load_body c) (save_body c x) (map_body ph x).
Proof.
  intros H f ph fl. destruct x as [v0 v1 v2 v3 v4]. unfold ok_body, load_body, save_body, map_body in *. g_cfg c;
  cbn [g2 cf_game cf_save andb app body_vel body_mode body_gravity_enabled body_gravity_scale body_slide_direction] in *;
  g_use; subst; g_run I.
Qed.
Lemma law_evman c ty x : ok_evman c ty x -> forall f ph fl, gives f ph ty fl (load_evman c) (save_evman c x) (map_evman ph x).
Proof.
  intros H f ph fl. destruct x as [v0 v1 v2]. unfold ok_evman, load_evman, save_evman, map_evman in *. g_cfg c;
  cbn [g2 cf_game cf_save andb app evman_cleared evman_active evman_cutscene] in *;
  g_use; subst; g_run I.
Qed.
Lemma law_aihuman c ty x : ok_aihuman c ty x -> forall f ph fl, gives f ph ty fl (load_aihuman c) (save_aihuman c x) (map_aihuman ph x).
Proof.
  intros H f ph fl. destruct x as [v0 v1 v2 v3 v4 v5 v6 v7 v8 v9 v10 v11 v12 v13 v14]. unfold ok_aihuman, load_aihuman, save_aihuman, map_aihuman in *. g_cfg c;
  cbn [g2 cf_game cf_save andb app aihuman_water_level aihuman_floor_y aihuman_water_y aihuman_ceil_y aihuman_feet_y aihuman_head_y
    aihuman_fall_dist_y aihuman_fall_start_y aihuman_npc aihuman_walk_mode aihuman_weapon_mode
    aihuman_wmode_ast aihuman_wmode_select aihuman_change_weapon aihuman_action_mode] in *;
  g_use; subst; g_run I.
Qed.
Lemma law_aimove c ty x : ok_aimove c ty x -> forall f ph fl, gives f ph ty fl (load_aimove c) (save_aimove c x) (map_aimove ph x).
Proof.
  intros H f ph fl. destruct x as [v0 v1]. unfold ok_aimove, load_aimove, save_aimove, map_aimove in *. g_cfg c;
  cbn [g2 cf_game cf_save andb app aimove_vob aimove_owner] in *;
  g_use; subst; g_run I.
Qed.
Lemma law_talent c ty x : ok_talent c ty x -> forall f ph fl, gives f ph ty fl (load_talent c) (save_talent c x) (map_talent ph x).
Proof.
  intros H f ph fl. destruct x as [v0 v1 v2]. unfold ok_talent, load_talent, save_talent, map_talent in *. g_cfg c;
  cbn [g2 cf_game cf_save andb app talent_talent talent_value talent_skill] in *;
  g_use; subst; g_run I.
Qed.
Lemma law_savemeta c ty x : ok_savemeta c ty x -> forall f ph fl, gives f ph ty fl (load_savemeta c) (save_savemeta c x) (map_savemeta ph x).
Proof.
  intros H f ph fl. destruct x as [v0 v1 v2 v3 v4 v5 v6 v7 v8 v9 v10 v11]. unfold ok_savemeta, load_savemeta, save_savemeta, map_savemeta in *. g_cfg c;
  cbn [g2 cf_game cf_save andb app savemeta_title savemeta_world savemeta_time_day savemeta_time_hour savemeta_time_minute
    savemeta_save_date savemeta_version_major savemeta_version_minor savemeta_play_time_seconds
    savemeta_version_point savemeta_version_int savemeta_version_app_name] in *;
  g_use; subst; g_run I.
Qed.
Lemma law_poolitem c ty x : ok_poolitem c ty x -> forall f ph fl, gives f ph ty fl (load_poolitem c) (save_poolitem c x) (map_poolitem ph x).
Proof.
  intros H f ph fl. destruct x as [v0 v1 v2 v3 v4 v5]. unfold ok_poolitem, load_poolitem, save_poolitem, map_poolitem in *. g_cfg c;
  cbn [g2 cf_game cf_save andb app poolitem_name poolitem_run_behavior poolitem_run_behavior_value poolitem_times_played
    poolitem_deactivated poolitem_flags] in *;
  g_use; subst; g_run I.
Qed.
Lemma law_message c ty x : ok_message c ty x -> forall f ph fl, gives f ph ty fl (load_message c) (save_message c x) (map_message ph x).
Proof.
  intros H f ph fl. destruct x as [v0 v1 v2 v3 v4 v5]. unfold ok_message, load_message, save_message, map_message in *. g_cfg c;
  cbn [g2 cf_game cf_save andb app message_type message_high_priority message_used message_deleted message_text message_name] in *;
  g_use; subst; g_run I.
Qed.
Lemma law_atomic c ty x : ok_atomic c ty x -> forall f ph fl, gives f ph ty fl (load_atomic c) (save_atomic c x) (map_atomic ph x).
Proof.
  intros H f ph fl. destruct x as [v0]. unfold ok_atomic, load_atomic, save_atomic, map_atomic in *. g_cfg c;
  cbn [g2 cf_game cf_save andb app atomic_message] in *;
  g_use; subst; g_run I.
Qed.
Lemma law_csprops c ty x : ok_csprops c ty x -> forall f ph fl, gives f ph ty fl (load_csprops c) (save_csprops c x) (map_csprops ph x).
Proof.
  intros H f ph fl. destruct x as [v0 v1 v2 v3 v4 v5 v6 v7 v8 v9 v10]. unfold ok_csprops, load_csprops, save_csprops, map_csprops in *. g_cfg c;
  cbn [g2 cf_game cf_save andb app csprops_name csprops_global csprops_loop csprops_has_to_be_triggered csprops_distance csprops_range
    csprops_locked_block_count csprops_run_behaviour csprops_run_behaviour_value csprops_stage_name
    csprops_script_function_on_stop] in *;
  g_use; subst; g_run I.
Qed.
Lemma law_sky c ty x : ok_sky c ty x -> forall f ph fl, gives f ph ty fl (load_sky c) (save_sky c x) (map_sky ph x).
Proof.
  intros H f ph fl. destruct x as [v0 v1 v2 v3 v4 v5 v6 v7 v8 v9 v10]. unfold ok_sky, load_sky, save_sky, map_sky in *. g_cfg c;
  cbn [g2 cf_game cf_save andb app sky_master_time sky_rain_weight sky_rain_start sky_rain_stop sky_rain_sct_timer sky_rain_snd_vol
    sky_day_ctr sky_fade_scale sky_render_lightning sky_is_raining sky_rain_ctr] in *;
  g_use; subst; g_run I.
Qed.
Lemma law_waypoint c ty x : ok_waypoint c ty x -> forall f ph fl, gives f ph ty fl (load_waypoint c) (save_waypoint c x) (map_waypoint ph x).
Proof.
  intros H f ph fl. destruct x as [v0 v1 v2 v3 v4]. unfold ok_waypoint, load_waypoint, save_waypoint, map_waypoint in *. g_cfg c;
  cbn [g2 cf_game cf_save andb app waypoint_name waypoint_water_depth waypoint_under_water waypoint_position waypoint_direction] in *;
  g_use; subst; g_run I.
Qed.

(** ** VirtualObject *)
Lemma bits0 (a b c d : bool) al sh : al < 4 -> sh < 4 ->
  let n := u8 (N.lor (bit a 0) (N.lor (N.shiftl (N.land al 3) 1) (N.lor (bit b 3) (N.lor (bit c 4) (N.lor (bit d 5)
             (N.shiftl (N.land sh 3) 6)))))) in
  n < 256 /\ N.testbit n 0 = a /\ N.shiftr (N.land n 6) 1 = al /\ N.testbit n 3 = b /\ N.testbit n 4 = c /\
  N.testbit n 5 = d /\ N.shiftr (N.land n 192) 6 = sh.
Proof.
  intros Ha Hs. cbv zeta.
  assert (Aa : al = 0 \/ al = 1 \/ al = 2 \/ al = 3) by lia. assert (As : sh = 0 \/ sh = 1 \/ sh = 2 \/ sh = 3) by lia.
  destruct a, b, c, d, Aa as [-> | [-> | [-> | ->]]], As as [-> | [-> | [-> | ->]]]; vm_compute; repeat split.
Qed.
Lemma bits1 (a b c d e f g amb : bool) m : m < 4 ->
  let n := u16 (N.lor (bit a 0) (N.lor (bit b 1) (N.lor (bit c 2) (N.lor (bit d 3) (N.lor (bit e 4) (N.lor (bit f 5)
             (N.lor (bit g 6) (N.lor (N.shiftl (N.land m 2) 7) (N.lor (N.shiftl (N.land (uint 8 0) 31) 13) (bit amb 14)))))))))) in
  n < 65536 /\ N.testbit n 0 = a /\ N.testbit n 1 = b /\ N.testbit n 2 = c /\ N.testbit n 3 = d /\ N.testbit n 4 = e /\
  N.testbit n 5 = f /\ N.testbit n 6 = g /\ N.land n (N.shiftr 384 7) = (if a then 1 else 0) + (if b then 2 else 0) /\
  N.shiftr (N.land n 15872) 9 = 0 /\ N.testbit n 14 = amb.
Proof.
  intros Hm. cbv zeta. assert (Am : m = 0 \/ m = 1 \/ m = 2 \/ m = 3) by lia.
  destruct Am as [-> | [-> | [-> | ->]]]; destruct a, b, c, d, e, f, g, amb; vm_compute; repeat split.
Qed.
Lemma bits1g (a b c d e f g : bool) :
  let n := N.land (u16 (N.lor (bit a 0) (N.lor (bit b 1) (N.lor (bit c 2) (N.lor (bit d 3) (N.lor (bit e 4) (N.lor (bit f 5)
             (N.lor (bit g 6) 0)))))))) 255 in
  n < 256 /\ N.testbit n 0 = a /\ N.testbit n 1 = b /\ N.testbit n 2 = c /\ N.testbit n 3 = d /\ N.testbit n 4 = e /\
  N.testbit n 5 = f /\ N.testbit n 6 = g.
Proof. cbv zeta. destruct a, b, c, d, e, f, g; vm_compute; repeat split. Qed.
Definition packed_enc (c : cfg) (v : vob) : bytes :=
  aabb_enc (vb_bbox v) ++ words_le [v3x (vb_position v); v3y (vb_position v); v3z (vb_position v)] ++
  words_le (transpose3 (vb_rotation v)) ++ [n2b (bit0_of v)] ++
  (if g2 c then le_enc 2 (bit1_of c v) ++ le_enc 4 (vb_anim_strength v) ++ le_enc 4 (vb_far_clip v)
   else [n2b (N.land (bit1_of c v) 255)]).
Lemma packed_writes c v : writes (write_packed c v) (packed_enc c v).
Proof.
  unfold write_packed, packed_enc.
  apply writes_seq; [apply aabb_writes|]. apply writes_seq; [apply writes_vec3|]. apply writes_seq; [apply writes_mat3|].
  apply writes_seq; [apply writes_ubyte|]. destruct (g2 c); [|apply writes_ubyte].
  apply writes_seq; [apply writes_ushort|]. apply writes_seq; apply writes_float.
Qed.
Definition packed_values (c : cfg) (v : vob) : aabb * vec3 * mat * N * N * N * N :=
  (vb_bbox v, vb_position v, vb_rotation v, bit0_of v, (if g2 c then bit1_of c v else N.land (bit1_of c v) 255),
   (if g2 c then vb_anim_strength v else 0), (if g2 c then vb_far_clip v else two)).
Lemma packed_reads c ty v : ok_packed_vob c ty v -> bit0_of v < 256 -> bit1_of c v < 65536 -> N.land (bit1_of c v) 255 < 256 ->
  reads (read_packed c) (packed_enc c v) (packed_values c v).
Proof.
  intros (Hb & Hp & Hl & Hr & _ & _ & Hs & Hf & _) H0 H1 H1'.
  unfold read_packed, packed_enc, packed_values.
  eapply reads_bind; [apply aabb_reads; exact Hb|]. eapply reads_bind; [apply vec3_reads; exact Hp|].
  eapply reads_bind; [apply reads_mat3; [exact Hl | exact Hr]|].
  eapply reads_bind; [apply (reads_ubyte (bit0_of v)); exact H0|].
  destruct (g2 c).
  - eapply reads_bind; [apply reads_ushort; exact H1|]. eapply reads_bind; [apply reads_float; exact Hs|].
    eapply reads_if_last; [apply reads_float; exact Hf|]. apply reads_ret.
  - eapply reads_if_last; [apply (reads_ubyte (N.land (bit1_of c v) 255)); exact H1'|]. apply reads_ret.
Qed.
Lemma len_packed c ty v : ok_packed_vob c ty v -> len (packed_enc c v) = if g2 c then 83 else 74.
Proof.
  intros (_ & _ & Hl & _). unfold packed_enc, aabb_enc. destruct (g2 c).
  all: rewrite ?len_app, ?len_words_le, ?len_le_enc; unfold len; cbn [length]; rewrite ?len_transpose3; try rewrite Hl; reflexivity.
Qed.
Lemma gives_visual f ph ty fl n r : is_visual (ty r) = true -> gives f ph ty fl p_visual [WObj n (Some r)] (Some (ph r)).
Proof. intros H rest st. cbn [app p_visual flat]. rewrite H. reflexivity. Qed.
Lemma gives_if_str f ph ty fl n (s : bytes) {B} (k : bytes -> prog oid B) l b :
  gives f ph ty fl (k s) l b -> gives f ph ty fl (pbind (p_if_str (negb (empty s))) k) (w_if_str n s ++ l) b.
Proof.
  intros H. unfold p_if_str, w_if_str. destruct s as [|x s]; cbn [negb empty app]; [exact H|].
  eapply gives_cons; [apply (gives_rd f ph ty fl KStr); reflexivity | exact H].
Qed.
Lemma gives_if_any f ph ty fl n (r : option oid) {B} (k : option oid -> prog oid B) l b :
  gives f ph ty fl (k (option_map ph r)) l b ->
  gives f ph ty fl (pbind (if is_some r then p_any else PRet None) k) (w_if_obj n r ++ l) b.
Proof.
  intros H. unfold w_if_obj. destruct r as [r|]; cbn [is_some app]; [|exact H].
  eapply gives_cons; [apply gives_any | exact H].
Qed.
Lemma gives_if_obj f ph ty fl n t (r : option oid) {B} (k : option oid -> prog oid B) l b :
  refers_to ty r t -> gives f ph ty fl (k (option_map ph r)) l b ->
  gives f ph ty fl (pbind (if is_some r then p_obj t else PRet None) k) (w_if_obj n r ++ l) b.
Proof.
  intros Hr H. unfold w_if_obj. destruct r as [r|]; cbn [is_some app]; [|exact H].
  eapply gives_cons; [apply gives_obj; exact Hr | exact H].
Qed.
Lemma bits_of c ty v : ok_packed_vob c ty v ->
  let n := (if g2 c then bit1_of c v else N.land (bit1_of c v) 255) in
  bit0_of v < 256 /\ bit1_of c v < 65536 /\ N.land (bit1_of c v) 255 < 256 /\
  N.testbit (bit0_of v) 0 = vb_show_visual v /\ N.shiftr (N.land (bit0_of v) 6) 1 = vb_align v /\
  N.testbit (bit0_of v) 3 = vb_cd_static v /\ N.testbit (bit0_of v) 4 = vb_cd_dynamic v /\
  N.testbit (bit0_of v) 5 = vb_static v /\ N.shiftr (N.land (bit0_of v) 192) 6 = vb_shadow v /\
  N.testbit n 0 = negb (empty (vb_preset v)) /\ N.testbit n 1 = negb (empty (vb_name v)) /\
  N.testbit n 2 = negb (empty (visual_name v)) /\ N.testbit n 3 = is_some (visual_saved v) /\
  N.testbit n 4 = is_some (vb_ai v) /\ N.testbit n 5 = is_some (vb_evman v) /\ N.testbit n 6 = vb_physics v /\
  (if g2 c then N.land n (N.shiftr 384 7) = vb_anim_mode v /\ Z.of_N (N.shiftr (N.land n 15872) 9) = vb_bias v /\
     N.testbit n 14 = vb_ambient v else True).
Proof.
  intros (_ & _ & _ & _ & Ha & Hs & _ & _ & _ & _ & _ & Hp & Hg). cbv zeta.
  destruct (bits0 (vb_show_visual v) (vb_cd_static v) (vb_cd_dynamic v) (vb_static v) _ _ Ha Hs) as (A0 & A1 & A2 & A3 & A4 & A5 & A6).
  cbv zeta in *. fold (bit0_of v) in *.
  assert (B255 : forall x, N.land x 255 < 256).
  { intros x. change 255 with (N.ones 8). rewrite N.land_ones. apply N.mod_lt. discriminate. }
  assert (B16 : bit1_of c v < 65536) by (unfold bit1_of, u16; apply N.mod_lt; discriminate).
  assert (Hph : vb_physics v && (negb (g2 c) || is_some (vb_body v)) = vb_physics v).
  { destruct (cf_save c).
    - rewrite Hp. destruct (is_some (vb_body v)); [apply orb_true_r | reflexivity].
    - destruct (g2 c); [destruct Hp as [_ Hp]; rewrite (Hp eq_refl); reflexivity | apply andb_true_r]. }
  repeat match goal with |- _ < _ /\ _ => split; [first [exact A0 | exact B16 | apply B255]|] end.
  do 6 (split; [assumption|]).
  destruct (g2 c) eqn:Eg.
  - destruct Hg as [Hm Hbi].
    assert (Hm4 : vb_anim_mode v < 4) by (rewrite Hm; destruct (empty (vb_preset v)), (empty (vb_name v)); reflexivity).
    destruct (bits1 (negb (empty (vb_preset v))) (negb (empty (vb_name v))) (negb (empty (visual_name v)))
      (is_some (visual_saved v)) (is_some (vb_ai v)) (is_some (vb_evman v)) (vb_physics v) (vb_ambient v) _ Hm4)
      as (C0 & C1 & C2 & C3 & C4 & C5 & C6 & C7 & C8 & C9 & C10).
    cbv zeta in *.
    assert (Q : bit1_of c v = u16 (N.lor (bit (negb (empty (vb_preset v))) 0) (N.lor (bit (negb (empty (vb_name v))) 1)
      (N.lor (bit (negb (empty (visual_name v))) 2) (N.lor (bit (is_some (visual_saved v)) 3) (N.lor (bit (is_some (vb_ai v)) 4)
      (N.lor (bit (is_some (vb_evman v)) 5) (N.lor (bit (vb_physics v) 6) (N.lor (N.shiftl (N.land (vb_anim_mode v) 2) 7)
      (N.lor (N.shiftl (N.land (uint 8 0) 31) 13) (bit (vb_ambient v) 14))))))))))) by (unfold bit1_of; rewrite Eg, Hph, Hbi; reflexivity).
    rewrite <- Q in *. clear Q.
    do 7 (split; [assumption|]). rewrite C8, C9, Hm, Hbi. split; [|split; [reflexivity | exact C10]].
    destruct (empty (vb_preset v)), (empty (vb_name v)); reflexivity.
  - destruct (bits1g (negb (empty (vb_preset v))) (negb (empty (vb_name v))) (negb (empty (visual_name v)))
      (is_some (visual_saved v)) (is_some (vb_ai v)) (is_some (vb_evman v)) (vb_physics v))
      as (C0 & C1 & C2 & C3 & C4 & C5 & C6 & C7).
    cbv zeta in *.
    assert (Q : bit1_of c v = u16 (N.lor (bit (negb (empty (vb_preset v))) 0) (N.lor (bit (negb (empty (vb_name v))) 1)
      (N.lor (bit (negb (empty (visual_name v))) 2) (N.lor (bit (is_some (visual_saved v)) 3) (N.lor (bit (is_some (vb_ai v)) 4)
      (N.lor (bit (is_some (vb_evman v)) 5) (N.lor (bit (vb_physics v) 6) 0)))))))) by (unfold bit1_of; rewrite Eg, Hph; reflexivity).
    rewrite <- Q in *. clear Q. do 7 (split; [assumption|]). exact I.
Qed.
Lemma law_vob c ty v : ok_vob c ty v -> forall f ph fl, gives f ph ty fl (load_vob c) (save_vob c v) (map_vob ph v).
Proof.
  unfold ok_vob, load_vob, save_vob. destruct (cf_pack c); intros H f ph fl.
  - pose proof (bits_of _ _ _ H) as B. cbv zeta in B. destruct B as (B0 & B1 & B2 & B).
    pose proof (packed_reads _ _ _ H B0 B1 B2) as R. pose proof (len_packed _ _ _ H) as L.
    cbn [app]. eapply gives_cons; [apply gives_rd; reflexivity|]. cbn [Z.eqb]. unfold load_packed. apply gives_assoc.
    rewrite (raw_of_writes _ _ (packed_writes c v)) by (rewrite L; destruct (g2 c); reflexivity).
    eapply gives_cons.
    { apply gives_raw; [exact R | exact L | destruct (g2 c); reflexivity]. }
    unfold packed_values. cbn beta iota. apply gives_assoc.
    destruct B as (E0 & E1 & E2 & E3 & E4 & E5 & F0 & F1 & F2 & F3 & F4 & F5 & F6 & Fg).
    rewrite F0. apply gives_if_str. apply gives_assoc. rewrite F1. apply gives_if_str. apply gives_assoc. rewrite F2. apply gives_if_str.
    apply gives_pret. cbn [vh_vob vh_visual vh_ai vh_evman vb_bbox vb_position vb_rotation vb_show_visual vb_align vb_cd_static
      vb_cd_dynamic vb_static vb_shadow vb_physics vb_anim_mode vb_bias vb_ambient vb_anim_strength vb_far_clip vb_preset vb_name vb_visual_name].
    rewrite E0, E1, E2, E3, E4, E5, F3, F4, F5, F6.
    destruct H as (_ & _ & _ & _ & _ & _ & _ & _ & Hvn & Hv & He & Hp & Hg).
    assert (Hvis : gives f ph ty fl (if is_some (visual_saved v) then p_visual else PRet None) (w_if_obj "visual" (visual_saved v))
                     (option_map ph (visual_saved v))).
    { unfold visual_saved. destruct (vb_visual v) as [[r nm kn]|]; cbn [vr_known vr_obj] in *; [|apply gives_ret; reflexivity].
      destruct Hv as [-> Hv]. cbn [is_some w_if_obj option_map]. apply gives_visual. exact Hv. }
    eapply gives_bind; [exact Hvis|]. apply gives_if_any.
    assert (Hev : is_some (vb_evman v) && cf_save c = is_some (vb_evman v)).
    { destruct (cf_save c); [apply andb_true_r|]. destruct Hp as [(-> & _) _]. reflexivity. }
    rewrite Hev. apply gives_if_obj; [exact He|].
    assert (Hend : forall sl ti bo,
       sl = vb_sleep v -> ti = vb_timer v -> bo = vb_body v ->
       gives f ph ty fl (PRet (mkVob (vb_bbox v) (vb_position v) (vb_rotation v) (vb_show_visual v) (vb_align v)
     (vb_cd_static v) (vb_cd_dynamic v) (vb_static v) (vb_shadow v) (vb_physics v)
     (if g2 c then N.land (if g2 c then bit1_of c v else N.land (bit1_of c v) 255) (N.shiftr 384 7) else 0)
     (if g2 c then Z.of_N (N.shiftr (N.land (if g2 c then bit1_of c v else N.land (bit1_of c v) 255) 15872) 9) else 0%Z)
     (if g2 c then N.testbit (if g2 c then bit1_of c v else N.land (bit1_of c v) 255) 14 else false)
     (if g2 c then vb_anim_strength v else 0) (if g2 c then vb_far_clip v else two) (vb_preset v) (vb_name v)
     (visual_name v)
     (match option_map ph (visual_saved v) with Some r => Some (mkVref r (visual_name v) true) | None => None end)
     (option_map ph (vb_ai v)) (option_map ph (vb_evman v)) sl ti bo)) [] (map_vob ph v)).
    { intros sl ti bo -> -> ->. apply gives_ret. unfold map_vob. rewrite Hvn.
      replace (match option_map ph (visual_saved v) with Some r => Some (mkVref r (visual_name v) true) | None => None end)
        with (option_map (map_vref ph) (vb_visual v)).
      2:{ unfold visual_saved, visual_name. destruct (vb_visual v) as [[r nm kn]|]; [|reflexivity].
          cbn [vr_known vr_obj vr_name] in *. destruct Hv as [-> _]. reflexivity. }
      destruct (g2 c).
      - destruct Fg as (-> & -> & ->). reflexivity.
      - destruct Hg as (-> & -> & -> & -> & ->). reflexivity. }
    destruct (cf_save c).
    + cbn [app]. apply gives_assoc. g_step. apply gives_assoc. g_step. apply gives_assoc.
      destruct (vb_body v) as [b|] eqn:Eb; cbn [is_some] in Hp; rewrite Hp in *.
      * apply gives_assoc. eapply gives_last; [apply law_body; exact I|]. apply gives_pret. apply gives_pret. cbn beta iota.
        apply Hend; try reflexivity. destruct b; reflexivity.
      * apply gives_pret. apply gives_pret. cbn beta iota. apply Hend; reflexivity.
    + apply gives_pret. destruct Hp as [(_ & S1 & S2 & S3) _]. cbn beta iota. apply Hend; symmetry; assumption.
  - destruct H as (Hpre & Hna & Hvn & Hv & Ha & He & Hph & Hal & Hsh & Hm & Hs & Hg).
    destruct v as [v0 v1 v2 v3 v4 v5 v6 v7 v8 v9 v10 v11 v12 v13 v14 v15 v16 v17 v18 v19 v20 v21 v22 v23].
    unfold no_animation, no_save_state, visual_saved, visual_name in *.
    cbn [vb_bbox vb_position vb_rotation vb_show_visual vb_align vb_cd_static
      vb_cd_dynamic vb_static vb_shadow vb_physics vb_anim_mode vb_bias vb_ambient vb_anim_strength vb_far_clip vb_preset vb_name vb_visual_name
      vb_visual vb_ai vb_evman vb_sleep vb_timer vb_body] in *.
    subst. destruct v18 as [[r nm kn]|]; [|destruct Hv]. cbn [vr_known vr_obj vr_name] in *. destruct Hv as (-> & -> & Hv).
    destruct v19 as [ai|]; [|congruence]. cbn [w_if_str w_if_obj empty app].
    eapply gives_cons; [apply gives_rd; reflexivity|]. cbn [Z.eqb]. unfold load_unpacked.
    assert (U : forall x, x < 256 -> u8 x = x) by (intros x Hx; apply N.mod_small; exact Hx).
    destruct c as [ga sv pk dp]. destruct ga, sv; cbn [g2 cf_game cf_save] in *; cbn [app]; repeat g_step; g_use; subst;
      cbn [vh_vob vh_visual vh_ai vh_evman vb_bbox vb_position vb_rotation vb_show_visual vb_align vb_cd_static
      vb_cd_dynamic vb_static vb_shadow vb_physics vb_anim_mode vb_bias vb_ambient vb_anim_strength vb_far_clip vb_preset vb_name vb_visual_name].
    all: eapply gives_cons; [apply gives_visual; exact Hv|]; eapply gives_cons; [apply gives_any|]; apply gives_pret; repeat g_step.
    all: try (destruct v23 as [b|]; [|congruence]; eapply gives_last; [apply law_body; exact I|]; apply gives_pret; apply gives_pret; cbn beta iota; apply gives_ret).
    all: unfold map_vob; cbn [vb_bbox vb_position vb_rotation vb_show_visual vb_align vb_cd_static
      vb_cd_dynamic vb_static vb_shadow vb_physics vb_anim_mode vb_bias vb_ambient vb_anim_strength vb_far_clip vb_preset vb_name vb_visual_name
      vb_visual vb_ai vb_evman vb_sleep vb_timer vb_body]; rewrite ?U by assumption; try reflexivity.
    all: destruct b; reflexivity.
Qed.
