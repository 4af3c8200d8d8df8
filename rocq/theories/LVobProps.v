(** The laws of the classes, property by property, and the objects that do not come back. *)

From Coq Require Import String.
From Verif Require Import MBase MStream SStream MBoxes SBoxes MText MClasses MArchive SArchive.
From Verif Require Import MVob MVobs MNpc MCutscene MMaterial MWorld SVob MLib SLib SReload.
From Verif Require Import LArchProps LVob LVobF LLib.
Local Open Scope N_scope.

Lemma library_graphs_come_back : forall c G f dom name root e1 e2,
  library_graph c G -> (forall r, G r <> None -> In r dom) ->
  (forall a b, refers (library c) G a b -> G b <> None) ->
  (forall r, root = Some r -> G r <> None) ->
  len (we_date e1) = len (we_date e2) -> len (we_user e1) = len (we_user e2) -> env_ok e2 ->
  exists n nd w wc, content (library c) G n name root = Some (nd, w, wc) /\
    (archive_fits f e2 nd (nw_idx w) (nw_keys w) ->
     exists b head h ph,
       save_archive f e1 e2 (cf_save c) (g_graph (library c) G) n name root = Ret b /\
       load_archive (c_load (library c)) (c_flags (library c)) n b = Ret (head, option_map ph root, h) /\
       isomorphic (library c) G root ph h).
Proof. intros c G f dom name root e1 e2 H. exact (finite_graphs_come_back (library c) G f dom name root e1 e2 (cf_save c) (library_graph_ok c G f H)). Qed.

Local Ltac by_law := repeat split; intros; apply library_obeys; cbn [ok_object]; try split; assumption.

Lemma common_part : forall c G f t x,
  In t [zCVob; zCVobLevelCompo; zCVobStair; zCVobSpot; zCVobStartpoint] ->
  ok_vob c (g_type (library c) G) x -> obeys (library c) G f (Ovob t x).
Proof. intros. apply library_obeys. split; assumption. Qed.
Lemma parts_of_objects : forall c G f,
  (forall t, In t [zCMesh; zCProgMeshProto; zCParticleFX; zCAICamera; zCModel; zCMorphMesh] -> obeys (library c) G f (Ovisual t)) /\
  (forall x, ok_decal c (g_type (library c) G) x -> obeys (library c) G f (Odecal x)) /\
  (forall x, ok_evman c (g_type (library c) G) x -> obeys (library c) G f (Oevman x)) /\
  (forall x, ok_aihuman c (g_type (library c) G) x -> obeys (library c) G f (Oaihuman x)) /\
  (forall x, ok_aimove c (g_type (library c) G) x -> obeys (library c) G f (Oaimove x)) /\
  (forall x, obeys (library c) G f (Otalent x)).
Proof.
  intros c G f. split; [|split; [|split; [|split; [|split]]]]; intros; apply library_obeys; cbn [ok_object]; try assumption. exact I.
Qed.
Lemma triggers : forall c G f,
  (forall t x, In t [zCTrigger; oCCSTrigger] -> ok_trigger c (g_type (library c) G) x -> obeys (library c) G f (Otrigger t x)) /\
  (forall x, ok_mover c (g_type (library c) G) x -> obeys (library c) G f (Omover x)) /\
  (forall x, ok_tlist c (g_type (library c) G) x -> obeys (library c) G f (Otlist x)) /\
  (forall x, ok_tscript c (g_type (library c) G) x -> obeys (library c) G f (Otscript x)) /\
  (forall x, ok_tlevel c (g_type (library c) G) x -> obeys (library c) G f (Otlevel x)) /\
  (forall x, ok_tstart c (g_type (library c) G) x -> obeys (library c) G f (Otstart x)) /\
  (forall x, ok_tuntouch c (g_type (library c) G) x -> obeys (library c) G f (Otuntouch x)).
Proof.
  intros c G f. split; [intros t x Ht H; apply library_obeys; split; assumption|].
  split; [|split; [|split; [|split; [|split]]]]; intros x H; apply library_obeys; exact H.
Qed.
Lemma movables : forall c G f,
  (forall x, ok_movable c (g_type (library c) G) x -> obeys (library c) G f (Omovable x)) /\
  (forall t x, In t [oCMobInter; oCMobLadder; oCMobSwitch; oCMobWheel; oCMobBed] ->
     ok_interactive c (g_type (library c) G) x -> obeys (library c) G f (Ointeractive t x)) /\
  (forall x, ok_container c (g_type (library c) G) x -> obeys (library c) G f (Ocontainer x)) /\
  (forall x, ok_door c (g_type (library c) G) x -> obeys (library c) G f (Odoor x)) /\
  (forall x, ok_fire c (g_type (library c) G) x -> obeys (library c) G f (Ofire x)).
Proof.
  intros c G f. split; [|split; [intros t x Ht H; apply library_obeys; split; assumption|split; [|split]]]; intros x H; apply library_obeys; exact H.
Qed.
Lemma zones_and_sounds : forall c G f,
  (forall x, ok_sound c (g_type (library c) G) x -> obeys (library c) G f (Osound x)) /\
  (forall x, ok_daysound c (g_type (library c) G) x -> obeys (library c) G f (Odaysound x)) /\
  (forall t x, In t [oCZoneMusic; oCZoneMusicDefault] -> ok_music c (g_type (library c) G) x -> obeys (library c) G f (Omusic t x)) /\
  (forall t x, In t [zCZoneVobFarPlane; zCZoneVobFarPlaneDefault] -> ok_farplane c (g_type (library c) G) x -> obeys (library c) G f (Ofarplane t x)) /\
  (forall t x, In t [zCZoneZFog; zCZoneZFogDefault] -> ok_fog c (g_type (library c) G) x -> obeys (library c) G f (Ofog t x)) /\
  (forall x, ok_cscamera c (g_type (library c) G) x -> obeys (library c) G f (Ocscamera x)).
Proof.
  intros c G f. split; [|split; [|split; [|split; [|split]]]]; intros; apply library_obeys; cbn [ok_object]; try assumption; split; assumption.
Qed.
Lemma frames_and_lights : forall c G f,
  (forall x, ok_camframe c (g_type (library c) G) x -> obeys (library c) G f (Ocamframe x)) /\
  (forall x, ok_light c (g_type (library c) G) x -> obeys (library c) G f (Olight x)).
Proof. intros c G f. split; intros x H; apply library_obeys; exact H. Qed.
Lemma items_and_effects : forall c G f,
  (forall x, ok_animate c (g_type (library c) G) x -> obeys (library c) G f (Oanimate x)) /\
  (forall x, ok_item c (g_type (library c) G) x -> obeys (library c) G f (Oitem x)) /\
  (forall x, ok_lensflare c (g_type (library c) G) x -> obeys (library c) G f (Olensflare x)) /\
  (forall x, ok_pfxctl c (g_type (library c) G) x -> obeys (library c) G f (Opfxctl x)) /\
  (forall x, ok_msgfilter c (g_type (library c) G) x -> obeys (library c) G f (Omsgfilter x)) /\
  (forall x, ok_movctl c (g_type (library c) G) x -> obeys (library c) G f (Omovctl x)) /\
  (forall x, ok_touchdmg c (g_type (library c) G) x -> obeys (library c) G f (Otouchdmg x)) /\
  (forall x, ok_quake c (g_type (library c) G) x -> obeys (library c) G f (Oquake x)) /\
  (forall x, ok_screenfx c (g_type (library c) G) x -> obeys (library c) G f (Oscreenfx x)).
Proof.
  intros c G f. split; [|split; [|split; [|split; [|split; [|split; [|split; [|split]]]]]]]; intros x H; apply library_obeys; exact H.
Qed.
Lemma codemasters : forall c G f x, ok_codemaster c (g_type (library c) G) x -> obeys (library c) G f (Ocodemaster x).
Proof. intros c G f x H. apply library_obeys. exact H. Qed.
Lemma npcs : forall c G f x, ok_npc c (g_type (library c) G) (g_flags (library c) G) x -> obeys (library c) G f (Onpc x).
Proof. intros c G f x H. apply library_obeys. exact H. Qed.
Lemma materials : forall c G f x, ok_mat c (g_type (library c) G) x -> obeys (library c) G f (Omaterial x).
Proof. intros c G f x H. apply library_obeys. exact H. Qed.
Lemma way_nets : forall c G f,
  (forall x, obeys (library c) G f (Owaypoint x)) /\
  (forall x, ok_waynet c (g_type (library c) G) x -> obeys (library c) G f (Owaynet x)).
Proof. intros c G f. split; intros; apply library_obeys; [exact I | assumption]. Qed.
Lemma trees : forall f ph ty fl d t n rest st, ok_tree ty d t ->
  flat f ph ty fl (p_tree d) ((fst (save_tree t n) ++ rest) :: st) = Some (Some (map_tree ph t), rest :: st).
Proof. intros f ph ty fl d t n rest st H. exact (gives_tree f ph ty fl d t n H rest st). Qed.
Lemma worlds : forall c G f x, ok_world c (g_type (library c) G) x -> obeys (library c) G f (Oworld x).
Proof. intros c G f x H. apply library_obeys. exact H. Qed.
Lemma cutscenes : forall c G f,
  (forall x, ok_message c (g_type (library c) G) x -> obeys (library c) G f (Omessage x)) /\
  (forall x, ok_atomic c (g_type (library c) G) x -> obeys (library c) G f (Oatomic x)) /\
  (forall t x, In t [zCCSBlock; zCCutscene] -> ok_cblock c (g_type (library c) G) x -> obeys (library c) G f (Ocblock t x)) /\
  (forall x, ok_cslib c (g_type (library c) G) (g_flags (library c) G) x -> obeys (library c) G f (Ocslib x)) /\
  (forall x, obeys (library c) G f (Ocsprops x)) /\
  (forall x, ok_cscontext c (g_type (library c) G) x -> obeys (library c) G f (Ocscontext x)) /\
  (forall x, obeys (library c) G f (Opoolitem x)) /\
  (forall x, ok_csmanager c (g_type (library c) G) x -> obeys (library c) G f (Ocsmanager x)) /\
  (forall x, ok_csplayer c (g_type (library c) G) x -> obeys (library c) G f (Ocsplayer x)) /\
  (forall x, ok_savemeta c (g_type (library c) G) x -> obeys (library c) G f (Osavemeta x)) /\
  (forall x, ok_sky c (g_type (library c) G) x -> obeys (library c) G f (Osky x)).
Proof.
  intros c G f. split; [|split; [|split; [|split; [|split; [|split; [|split; [|split; [|split; [|split]]]]]]]]];
    intros; apply library_obeys; cbn [ok_object]; try assumption; try exact I; split; assumption.
Qed.

(** ** Objects that do not come back *)
Definition env0 : wenv := mkEnv (lit "2024-02-29 12:00:00") (lit "zenkit").
Definition vob0 (name : bytes) (mode : N) (bias : Z) : vob :=
  mkVob (mkAabb (mkV3 0 0 0) (mkV3 0 0 0)) (mkV3 1 2 3) [1; 0; 0; 0; 1; 0; 0; 0; 1] true 1 true false true 2 false
    mode bias false 0 two [] name [] None None None 0 0 None.
Definition v0 : vob := vob0 [] 0 0%Z.
Local Notation w1 := (mkCfg G1 false true 8).
Local Notation w2 := (mkCfg G2 false true 8).
Local Notation s2 := (mkCfg G2 true true 8).
Local Notation u1 := (mkCfg G1 false false 8).
Local Ltac wit x y := exists x, y; split; [vm_compute; reflexivity | vm_compute; discriminate].

Lemma common_part_not :
  (forall f, f <> AAscii -> exists v w, comes_back_as w2 f env0 (Ovob zCVob v) (Ovob zCVob w) /\ vb_anim_mode w <> vb_anim_mode v) /\
  (forall f, f <> AAscii -> exists v w, comes_back_as w2 f env0 (Ovob zCVob v) (Ovob zCVob w) /\ vb_bias w <> vb_bias v) /\
  (exists v w, comes_back_as u1 ABinary env0 (Ovob zCVob v) (Ovob zCVob w) /\ vb_physics w <> vb_physics v) /\
  (forall f, f <> AAscii -> exists x y, comes_back_as u1 f env0 (Olensflare x) (Olensflare y) /\ lensflare_fx y <> lensflare_fx x).
Proof.
  split; [|split; [|split]].
  - intros [] Hf; try (destruct Hf; reflexivity); wit (vob0 (lit "A") 0 0%Z) (vob0 (lit "A") 2 0%Z).
  - intros [] Hf; try (destruct Hf; reflexivity); wit (vob0 [] 0 1%Z) (vob0 [] 0 16%Z).
  - exists (vob0 (lit "A") 0 0%Z). eexists. split; [vm_compute; reflexivity | vm_compute; discriminate].
  - intros [] Hf; try (destruct Hf; reflexivity);
      (exists (mk_lensflare (vob0 (lit "A") 0 0%Z) (lit "FX")); eexists; split; [vm_compute; reflexivity | vm_compute; discriminate]).
Qed.
Lemma triggers_not : forall f, f <> AAscii -> exists x y,
  comes_back_as w1 f env0 (Otrigger zCTrigger x) (Otrigger zCTrigger y) /\ trigger_start_enabled y <> trigger_start_enabled x.
Proof.
  pose (tr b := mk_trigger v0 [] 1 0 [] 0%Z 0 0 0 b false false false false false false false 0 None 0%Z true).
  intros [] Hf; try (destruct Hf; reflexivity); wit (tr false) (tr true).
Qed.
Lemma frames_and_lights_not :
  (forall f, f <> AAscii -> exists x y, comes_back_as w1 f env0 (Ocamframe x) (Ocamframe y) /\
     camframe_original_pose y <> camframe_original_pose x) /\
  (forall f, f <> AAscii -> exists x y, comes_back_as w1 f env0 (Olight x) (Olight y) /\
     dl_colors (light_dyn y) <> dl_colors (light_dyn x)).
Proof.
  split.
  - pose (cf m := mk_camframe v0 0 0 0 0 0 0 0 0 0 0 0 false m).
    intros [] Hf; try (destruct Hf; reflexivity);
      wit (cf [1; 2; 3; 4; 5; 6; 7; 8; 9; 10; 11; 12; 13; 14; 15; 16]) (cf [1; 5; 9; 13; 2; 6; 10; 14; 3; 7; 11; 15; 4; 8; 12; 16]).
  - pose (li l := mk_light v0 [] 0 0 (mkColor 1 2 3 4) 0 false 0 [] (mkDyn true [1065353216; two] 0 true l 0 true true)).
    intros [] Hf; try (destruct Hf; reflexivity);
      wit (li [mkColor 1 2 3 255]) (li [mkColor 1 1 1 255; mkColor 2 2 2 255; mkColor 1 2 3 255]).
Qed.
Lemma codemasters_not :
  (exists x y, comes_back_as s2 ABinary env0 (Ocodemaster x) (Ocodemaster y) /\
     codemaster_s_num_triggered_slaves y <> codemaster_s_num_triggered_slaves x) /\
  (exists x e, reload s2 ABinsafe env0 (alone (Ocodemaster x)) (Some 0) = Throw e).
Proof.
  pose (cm n := mk_codemaster v0 [] false false [] false [] n). split.
  - wit (cm 3) (cm 0).
  - exists (cm 3). eexists. vm_compute. reflexivity.
Qed.
Lemma npcs_not :
  exists x y, comes_back_as w2 ABinsafe env0 (Onpc x) (Onpc y) /\ npc_packed y <> npc_packed x.
Proof.
  pose (np l := mk_npc v0 [] (mkV3 0 0 0) 0 [] 0%Z 0%Z 0%Z 0%Z 0%Z 0%Z 0%Z [] 0%Z 0%Z false false 0%Z false (repeat 0%Z 8)
    (repeat 0%Z 4) (repeat 0%Z 5) [] (repeat 0%Z 100) [] 0%Z 0%Z 0%Z [] None None false l [] [] false [] 0%Z false false [] 0%Z
    false 0%Z false false false 0%Z 0%Z false false 0%Z (mkV3 0 0 0) [] false 0%Z (repeat 0%Z 8) 0%Z 0%Z 0%Z).
  wit (np (map lit ["a"; "b"; "c"; "d"; "e"; "f"; "g"; "h"; "i"]%string)) (np (map lit ["a"; ""; ""; ""; ""; ""; ""; ""; ""]%string)).
Qed.
Lemma materials_not :
  (exists x y, comes_back_as w2 ABinary env0 (Omaterial x) (Omaterial y) /\ material_alpha_func y <> material_alpha_func x) /\
  (forall f, f <> ABinary -> exists x e, reload w2 f env0 (alone (Omaterial x)) (Some 0) = Throw e).
Proof.
  pose (mt a := mk_material [] 0 (mkColor 1 2 3 4) 0 [] (mkV2 0 0) 0 0 (mkV2 0 0) false false false [] 0 false false 0 0 0 0 0
    false a (mkV2 0 0)). split.
  - wit (mt 2) (mt 1).
  - intros [] Hf; try (destruct Hf; reflexivity); exists (mt 2); eexists; vm_compute; reflexivity.
Qed.
Lemma worlds_not :
  (exists x y, comes_back_as s2 ABinary env0 (Oworld x) (Oworld y) /\ world_spawn_flags y <> world_spawn_flags x) /\
  (forall f, f <> ABinary -> exists x e, reload s2 f env0 (alone (Oworld x)) (Some 0) = Throw e).
Proof.
  pose (wl z := mk_world [] None None None [] [] true z). split.
  - wit (wl 5%Z) (wl 1%Z).
  - intros [] Hf; try (destruct Hf; reflexivity); exists (wl 5%Z); eexists; vm_compute; reflexivity.
Qed.
Lemma way_nets_not : forall f, exists p x y,
  reload w1 f env0 (few [Owaynet x; Owaypoint p]) (Some 0) = Ret (Some 0, [mkHobj zCWayNet 0 (Some (Owaynet y))]) /\
  waynet_points x = [(Some 1, false)] /\ waynet_points y = [].
Proof.
  intros f. exists (mk_waypoint (lit "WP") 0%Z false (mkV3 0 0 0) (mkV3 0 0 0)).
  exists (mk_waynet [(Some 1, false)] []), (mk_waynet [] []).
  destruct f; (split; [vm_compute; reflexivity|]); split; reflexivity.
Qed.
(** An edge from a point to itself: the point is not in the list. *)
Lemma way_nets_self : forall f, exists p x y,
  reload w1 f env0 (few [Owaynet x; Owaypoint p]) (Some 0) =
    Ret (Some 0, [mkHobj zCWayNet 0 (Some (Owaynet y)); mkHobj zCWaypoint 1 (Some (Owaypoint p))]) /\
  waynet_edges y = [(Some 1, Some 1)] /\ waynet_points y = [].
Proof.
  intros f. exists (mk_waypoint (lit "WP") 0%Z false (mkV3 0 0 0) (mkV3 0 0 0)).
  exists (mk_waynet [(Some 1, false)] [(Some 1, Some 1)]), (mk_waynet [] [(Some 1, Some 1)]).
  destruct f; (split; [vm_compute; reflexivity|]); split; reflexivity.
Qed.
