(** Properties of the objects of worlds and save games: C32 to C40 and C78 to C83.

    The law of a class, [obeys] of SArchive.v, says: whatever references the reader uses for the
    objects an object refers to, loading what saving the object wrote gives the object with
    its references replaced by these, and takes exactly what was written.  C78 takes the laws to
    whole graphs and the bytes of archives. *)

From Coq Require Import String Lia.
From Verif Require Import MBase MStream SStream MBoxes SBoxes MText MClasses MArchive SArchive.
From Verif Require Import MVob MVobs MNpc MCutscene MMaterial MWorld SFloat SVob MLib SLib SReload.
From Verif Require Import LVobProps.
From Verif Require LFloatText.
Local Open Scope N_scope.

Definition demo_env : wenv := mkEnv (lit "2024-02-29 12:00:00") (lit "zenkit").
(** A Gothic 1 world and save game, and the same for Gothic 2; and a world without packing. *)
Definition w1 : cfg := mkCfg G1 false true 8.
Definition w2 : cfg := mkCfg G2 false true 8.
Definition s1 : cfg := mkCfg G1 true true 8.
Definition s2 : cfg := mkCfg G2 true true 8.
Definition u1 : cfg := mkCfg G1 false false 8.

(** ** C78 *)
Theorem C78_library_graphs_come_back : forall c G f dom name root e1 e2,
  library_graph c G -> (forall r, G r <> None -> In r dom) ->
  (forall a b, refers (library c) G a b -> G b <> None) ->
  (forall r, root = Some r -> G r <> None) ->
  len (we_date e1) = len (we_date e2) -> len (we_user e1) = len (we_user e2) -> env_ok e2 ->
  exists n nd w wc, content (library c) G n name root = Some (nd, w, wc) /\
    (archive_fits f e2 nd (nw_idx w) (nw_keys w) ->
     exists b head h ph,
       save_archive f e1 e2 (cf_save c) (g_graph (library c) G) n name root = Ret b /\
       load_archive (c_load (library c)) (c_flags (library c)) n b = Ret (head, option_map ph root, h) /\
       isomorphic (library c) G root ph h).
Proof. exact library_graphs_come_back. Qed.
Print Assumptions C78_library_graphs_come_back.

(** A save game of Gothic 1: a trigger, the door it was last touched by, with a visual, an AI and
    an event manager, and the NPC the AI belongs to. *)
Definition one : mat := [1065353216; 0; 0; 0; 1065353216; 0; 0; 0; 1065353216].
Definition unit_box : aabb := mkAabb (mkV3 0 0 0) (mkV3 1065353216 1065353216 1065353216).
Definition demo_vob (name : bytes) (physics : option body) (visual : option vref) (ai evman : option oid) : vob :=
  mkVob unit_box (mkV3 1 2 3) one true 1 true false true 2 (is_some physics) 0 0%Z false 0 two
    (lit "preset") name (match visual with Some r => vr_name r | None => [] end) visual ai evman 1 5 physics.
Definition demo_body : body := mk_body (mkV3 7 8 9) 1 true 1065353216 (mkV3 0 0 0).
Definition demo_trigger : trigger :=
  mk_trigger (demo_vob (lit "TRIGGER") None None None None) (lit "TARGET") 5 18 (lit "") (-1)%Z 0 0 0
    true true false true false false true false 12 (Some 1) 3%Z true.
Definition demo_door : door :=
  mk_door (mk_interactive (mk_movable (demo_vob (lit "DOOR") (Some demo_body) (Some (mkVref 2 (lit "DOOR.3DS") true)) (Some 3) (Some 4))
     (lit "MOBNAME_DOOR") 10%Z 0%Z false false true 3 [] (lit "NPC") [] false)
     1%Z [] (lit "KEY") [] [] false) true (lit "KEY_1") (lit "LRLR").
Definition demo_ai : aihuman := mk_aihuman 0%Z 1 2 3 4 5 6 7 (Some 5) 0%Z 0%Z 0%Z 0%Z false 0%Z.
Definition demo_evman : evman := mk_evman true false None.
Definition demo_npc (strings : list bytes) : npc :=
  mk_npc (demo_vob (lit "NPC") None None None None) (lit "PC_HERO(4711)") (mkV3 0 0 0) 0 [lit "HUMANS_MILITIA.MDS"] 0%Z 2%Z 2%Z
    1%Z 0%Z 500%Z 10%Z [] 0%Z 0%Z false false 0%Z true (repeat 40%Z 8) (repeat 0%Z 4) (repeat 0%Z 5) [] (repeat 0%Z 100) [] 0%Z
    0%Z 0%Z [] None None false strings [Some 6] [mkSlot true (lit "ZS_TORSO") (Some 6) true] false [] 0%Z false false [] 0%Z
    false 0%Z false false false 0%Z 0%Z false false 0%Z (mkV3 0 0 0) [] false 0%Z (repeat 10%Z 8) 0%Z 0%Z 0%Z.
Definition demo_item : item :=
  mk_item (demo_vob (lit "ITEM") None None None None) (lit "ITMW_SWORD") 1%Z 1073741824%Z.
Definition demo_strings : list bytes := map lit ["a"; "b"; "c"; "d"; "e"; "f"; "g"; "h"; "i"]%string.
Definition demo_objects : list object :=
  [Otrigger zCTrigger demo_trigger; Odoor demo_door; Ovisual zCMesh; Oaihuman demo_ai; Oevman demo_evman;
   Onpc (demo_npc demo_strings); Oitem demo_item].

(* ---- *)
Local Ltac ok :=
  hnf; lazymatch goal with
  | |- _ /\ _ => split; ok
  | |- _ \/ _ => first [left; ok | right; ok]
  | |- True => exact I
  | |- _ = _ => vm_compute; reflexivity
  | |- Forall _ _ => first [apply Forall_nil | apply Forall_cons; ok]
  | |- _ -> _ => let H := fresh in intro H; first [discriminate H | ok]
  end.
Example C78_example :
  library_graph s1 (few demo_objects) /\
  (forall r, few demo_objects r <> None -> In r [0; 1; 2; 3; 4; 5; 6]) /\
  exists h, reload s1 ABinary demo_env (few demo_objects) (Some 0) = Ret (Some 0, h) /\ len h = 7.
Proof.
  assert (K : forall r x, few demo_objects r = Some x -> In r [0; 1; 2; 3; 4; 5; 6]).
  { intros r x E. unfold few, nth_N in E. destruct (N.ltb_spec r (len demo_objects)); [|discriminate].
    change (len demo_objects) with 7 in H. cbn [In]. lia. }
  split; [|split].
  - intros r x E. pose proof (K r x E) as I. cbn [In] in I.
    destruct I as [<- | [<- | [<- | [<- | [<- | [<- | [<- | []]]]]]]];
      (vm_compute in E; injection E as <-; split; [ok|]); try (intros i I; destruct I; fail).
    intros i [<- | []] R.
    assert (forall a b, reaches (library s1) (few demo_objects) a b -> a = 6 -> b = 6) as Q.
    { intros a b Rab. induction Rab as [| a b k Rab IH [x [Ex Ix]]]; intro Ea; [exact Ea|].
      rewrite (IH Ea) in Ex. vm_compute in Ex. injection Ex as <-. vm_compute in Ix. contradiction. }
    specialize (Q _ _ R eq_refl). discriminate Q.
  - intros r E. destruct (few demo_objects r) eqn:X; [eauto | congruence].
  - eexists. split; [vm_compute; reflexivity | reflexivity].
Qed.


(** ** C32 *)
Theorem C32_common_part_partial : forall c G f t x,
  In t [zCVob; zCVobLevelCompo; zCVobStair; zCVobSpot; zCVobStartpoint] ->
  ok_vob c (g_type (library c) G) x -> obeys (library c) G f (Ovob t x).
Proof. exact common_part. Qed.
Print Assumptions C32_common_part_partial.
Theorem C32_common_part_refuted :
  (forall f, f <> AAscii -> exists v w, comes_back_as w2 f demo_env (Ovob zCVob v) (Ovob zCVob w) /\ vb_anim_mode w <> vb_anim_mode v) /\
  (forall f, f <> AAscii -> exists v w, comes_back_as w2 f demo_env (Ovob zCVob v) (Ovob zCVob w) /\ vb_bias w <> vb_bias v) /\
  (exists v w, comes_back_as u1 ABinary demo_env (Ovob zCVob v) (Ovob zCVob w) /\ vb_physics w <> vb_physics v) /\
  (forall f, f <> AAscii -> exists x y, comes_back_as u1 f demo_env (Olensflare x) (Olensflare y) /\ lensflare_fx y <> lensflare_fx x).
Proof. exact common_part_not. Qed.
Print Assumptions C32_common_part_refuted.
(** Packed, in a world and a save game of both games; not packed. *)
Definition demo_g2 : vob :=
  mkVob unit_box (mkV3 1 2 3) one true 1 true false true 2 false 3 0%Z true 5 two
    (lit "preset") (lit "NAME") [] None None None 1 5 None.
Definition demo_plain : vob :=
  mkVob unit_box (mkV3 1 2 3) one true 1 true false true 2 true 0 0%Z false 0 two
    [] [] [] (Some (mkVref 1 [] true)) (Some 2) None 0 0 None.
Example C32_example :
  ok_vob w1 (fun _ => zCMesh) (mkVob unit_box (mkV3 1 2 3) one true 1 true false true 2 true 0 0%Z false 0 two
    (lit "p") (lit "n") (lit "v") (Some (mkVref 1 (lit "v") true)) (Some 2) None 0 0 None) /\
  ok_vob s1 (fun r => if r =? 2 then zCMesh else zCEventManager)
    (demo_vob (lit "DOOR") (Some demo_body) (Some (mkVref 2 (lit "DOOR.3DS") true)) (Some 3) (Some 4)) /\
  ok_vob s2 (fun _ => unknown) demo_g2 /\
  ok_vob u1 (fun r => if r =? 1 then zCModel else oCAIHuman) demo_plain.
Proof. ok. Qed.


(** ** C33 *)
Theorem C33_triggers_partial : forall c G f,
  (forall t x, In t [zCTrigger; oCCSTrigger] -> ok_trigger c (g_type (library c) G) x -> obeys (library c) G f (Otrigger t x)) /\
  (forall x, ok_mover c (g_type (library c) G) x -> obeys (library c) G f (Omover x)) /\
  (forall x, ok_tlist c (g_type (library c) G) x -> obeys (library c) G f (Otlist x)) /\
  (forall x, ok_tscript c (g_type (library c) G) x -> obeys (library c) G f (Otscript x)) /\
  (forall x, ok_tlevel c (g_type (library c) G) x -> obeys (library c) G f (Otlevel x)) /\
  (forall x, ok_tstart c (g_type (library c) G) x -> obeys (library c) G f (Otstart x)) /\
  (forall x, ok_tuntouch c (g_type (library c) G) x -> obeys (library c) G f (Otuntouch x)).
Proof. exact triggers. Qed.
Print Assumptions C33_triggers_partial.
Theorem C33_triggers_refuted : forall f, f <> AAscii -> exists x y,
  comes_back_as w1 f demo_env (Otrigger zCTrigger x) (Otrigger zCTrigger y) /\ trigger_start_enabled y <> trigger_start_enabled x.
Proof. exact triggers_not. Qed.
Print Assumptions C33_triggers_refuted.
Definition demo_mover : mover :=
  mk_mover demo_trigger 1 2 3 true false false (1065353216, 1, 0, [mkSample (mkV3 1 2 3) 4 5 6 7; mkSample (mkV3 0 0 0) 0 0 0 1])
    (mkV3 1 1 1) 2 3%Z 4%Z 5 6 1 2%Z 7 (lit "a") (lit "b") [] [] [] [] [] [].
Example C33_example :
  ok_trigger s1 (fun _ => oCMobDoor) demo_trigger /\ ok_mover s1 (fun _ => oCMobDoor) demo_mover /\
  ok_tlist s1 (fun _ => oCMobDoor) (mk_tlist demo_trigger 1 [(lit "A", 1); (lit "B", 2)] 1 true).
Proof. ok. Qed.


(** ** C34 *)
Theorem C34_movables : forall c G f,
  (forall x, ok_movable c (g_type (library c) G) x -> obeys (library c) G f (Omovable x)) /\
  (forall t x, In t [oCMobInter; oCMobLadder; oCMobSwitch; oCMobWheel; oCMobBed] ->
     ok_interactive c (g_type (library c) G) x -> obeys (library c) G f (Ointeractive t x)) /\
  (forall x, ok_container c (g_type (library c) G) x -> obeys (library c) G f (Ocontainer x)) /\
  (forall x, ok_door c (g_type (library c) G) x -> obeys (library c) G f (Odoor x)) /\
  (forall x, ok_fire c (g_type (library c) G) x -> obeys (library c) G f (Ofire x)).
Proof. exact movables. Qed.
Print Assumptions C34_movables.
Example C34_example :
  ok_door s1 (g_type (library s1) (few demo_objects)) demo_door /\
  ok_container s1 (g_type (library s1) (few demo_objects)) (mk_container (door_base demo_door) true (lit "K") (lit "LR") [] [Some 6; None; Some 6]).
Proof. ok. Qed.


(** ** C35 *)
Theorem C35_zones_and_sounds : forall c G f,
  (forall x, ok_sound c (g_type (library c) G) x -> obeys (library c) G f (Osound x)) /\
  (forall x, ok_daysound c (g_type (library c) G) x -> obeys (library c) G f (Odaysound x)) /\
  (forall t x, In t [oCZoneMusic; oCZoneMusicDefault] -> ok_music c (g_type (library c) G) x -> obeys (library c) G f (Omusic t x)) /\
  (forall t x, In t [zCZoneVobFarPlane; zCZoneVobFarPlaneDefault] -> ok_farplane c (g_type (library c) G) x -> obeys (library c) G f (Ofarplane t x)) /\
  (forall t x, In t [zCZoneZFog; zCZoneZFogDefault] -> ok_fog c (g_type (library c) G) x -> obeys (library c) G f (Ofog t x)) /\
  (forall x, ok_cscamera c (g_type (library c) G) x -> obeys (library c) G f (Ocscamera x)).
Proof. exact zones_and_sounds. Qed.
Print Assumptions C35_zones_and_sounds.
Example C35_example :
  ok_fog s2 (fun _ => unknown) (mk_fog demo_g2 1 2 (mkColor 1 2 3 4) true false) /\
  ok_sound s2 (fun _ => unknown) (mk_sound demo_g2 1 2 3 4 true false true 0 1 2 (lit "S") true true).
Proof. ok. Qed.


(** ** C36 *)
Theorem C36_items_and_effects : forall c G f,
  (forall x, ok_animate c (g_type (library c) G) x -> obeys (library c) G f (Oanimate x)) /\
  (forall x, ok_item c (g_type (library c) G) x -> obeys (library c) G f (Oitem x)) /\
  (forall x, ok_lensflare c (g_type (library c) G) x -> obeys (library c) G f (Olensflare x)) /\
  (forall x, ok_pfxctl c (g_type (library c) G) x -> obeys (library c) G f (Opfxctl x)) /\
  (forall x, ok_msgfilter c (g_type (library c) G) x -> obeys (library c) G f (Omsgfilter x)) /\
  (forall x, ok_movctl c (g_type (library c) G) x -> obeys (library c) G f (Omovctl x)) /\
  (forall x, ok_touchdmg c (g_type (library c) G) x -> obeys (library c) G f (Otouchdmg x)) /\
  (forall x, ok_quake c (g_type (library c) G) x -> obeys (library c) G f (Oquake x)) /\
  (forall x, ok_screenfx c (g_type (library c) G) x -> obeys (library c) G f (Oscreenfx x)).
Proof. exact items_and_effects. Qed.
Print Assumptions C36_items_and_effects.
Example C36_example :
  ok_item s1 (fun _ => unknown) demo_item /\ ok_animate s2 (fun _ => unknown) (mk_animate demo_g2 true false).
Proof. ok. Qed.


(** ** C79 *)
Theorem C79_code_masters_partial : forall c G f x, ok_codemaster c (g_type (library c) G) x -> obeys (library c) G f (Ocodemaster x).
Proof. exact codemasters. Qed.
Print Assumptions C79_code_masters_partial.
Theorem C79_code_masters_refuted :
  (exists x y, comes_back_as s2 ABinary demo_env (Ocodemaster x) (Ocodemaster y) /\
     codemaster_s_num_triggered_slaves y <> codemaster_s_num_triggered_slaves x) /\
  (exists x e, reload s2 ABinsafe demo_env (alone (Ocodemaster x)) (Some 0) = Throw e).
Proof. exact codemasters_not. Qed.
Print Assumptions C79_code_masters_refuted.
Example C79_example :
  ok_codemaster s1 (fun _ => unknown) (mk_codemaster (demo_vob [] None None None None) (lit "T") true false [] true [lit "A"; lit "B"] 0).
Proof. ok. Qed.


(** ** C80 *)
Theorem C80_frames_and_lights_partial : forall c G f,
  (forall x, ok_camframe c (g_type (library c) G) x -> obeys (library c) G f (Ocamframe x)) /\
  (forall x, ok_light c (g_type (library c) G) x -> obeys (library c) G f (Olight x)).
Proof. exact frames_and_lights. Qed.
Print Assumptions C80_frames_and_lights_partial.
Theorem C80_frames_and_lights_refuted :
  (forall f, f <> AAscii -> exists x y, comes_back_as w1 f demo_env (Ocamframe x) (Ocamframe y) /\
     camframe_original_pose y <> camframe_original_pose x) /\
  (forall f, f <> AAscii -> exists x y, comes_back_as w1 f demo_env (Olight x) (Olight y) /\
     dl_colors (light_dyn y) <> dl_colors (light_dyn x)).
Proof. exact frames_and_lights_not. Qed.
Print Assumptions C80_frames_and_lights_refuted.
Example C80_example :
  ok_camframe s2 (fun _ => unknown) (mk_camframe demo_g2 1 2 3 0 1 2 3 4 5 6 7 true
    [1065353216; 0; 0; 0; 0; 1065353216; 0; 0; 0; 0; 1065353216; 0; 0; 0; 0; 1065353216]) /\
  ok_light s2 (fun _ => unknown) (mk_light demo_g2 (lit "L") 0 5 (mkColor 1 2 3 4) 0 false 0 []
    (mkDyn true [] 0 true [mkColor 1 2 3 255; mkColor 4 5 6 255] 7 true false)).
Proof. ok. Qed.


(** ** C37 *)
Theorem C37_npcs_partial : forall c G f x, ok_npc c (g_type (library c) G) (g_flags (library c) G) x -> obeys (library c) G f (Onpc x).
Proof. exact npcs. Qed.
Print Assumptions C37_npcs_partial.
Theorem C37_npcs_refuted :
  exists x y, comes_back_as w2 ABinsafe demo_env (Onpc x) (Onpc y) /\ npc_packed y <> npc_packed x.
Proof. exact npcs_not. Qed.
Print Assumptions C37_npcs_refuted.
Example C37_example :
  ok_npc s1 (g_type (library s1) (few demo_objects)) (g_flags (library s1) (few demo_objects)) (demo_npc demo_strings).
Proof. ok. Qed.


(** ** C38 *)
Theorem C38_materials_partial : forall c G f x, ok_mat c (g_type (library c) G) x -> obeys (library c) G f (Omaterial x).
Proof. exact materials. Qed.
Print Assumptions C38_materials_partial.
(** The two vectors written as text survive exactly when they are finite: nine significant digits
    are enough for every float, but infinities and NaNs are not read back. *)
Theorem C38_text_vectors_partial : forall v, v2x v < 2 ^ 32 -> v2y v < 2 ^ 32 ->
  text_vec2 (show_vec2 v) = v <-> finite_vec2 v = true.
Proof. exact LFloatText.vec2_read_iff. Qed.
Print Assumptions C38_text_vectors_partial.
(** 0.1 and the smallest float. *)
Example C38_text_vectors_example : finite_vec2 (mkV2 1036831949 1) = true /\ finite_vec2 (mkV2 2139095040 0) = false /\
  show_vec2 (mkV2 1036831949 1) = lit "0.100000001 1.40129846e-45".
Proof. repeat split; vm_compute; reflexivity. Qed.
Theorem C38_materials_refuted :
  (exists x y, comes_back_as w2 ABinary demo_env (Omaterial x) (Omaterial y) /\ material_alpha_func y <> material_alpha_func x) /\
  (forall f, f <> ABinary -> exists x e, reload w2 f demo_env (alone (Omaterial x)) (Some 0) = Throw e).
Proof. exact materials_not. Qed.
Print Assumptions C38_materials_refuted.
Example C38_example :
  ok_mat w1 (fun _ => unknown) (mk_material (lit "STONE") 3 (mkColor 1 2 3 4) 5 (lit "STONE.TGA") (mkV2 512 512) 0 0 (mkV2 0 0)
    true false false [] 0 false false 0 0 0 0 0 false 0 (mkV2 1 2)).
Proof. ok. Qed.


(** ** C39 *)
Theorem C39_way_nets_partial : forall c G f,
  (forall x, obeys (library c) G f (Owaypoint x)) /\
  (forall x, ok_waynet c (g_type (library c) G) x -> obeys (library c) G f (Owaynet x)).
Proof. exact way_nets. Qed.
Print Assumptions C39_way_nets_partial.
Theorem C39_way_nets_refuted : forall f, exists p x y,
  reload w1 f demo_env (few [Owaynet x; Owaypoint p]) (Some 0) = Ret (Some 0, [mkHobj zCWayNet 0 (Some (Owaynet y))]) /\
  waynet_points x = [(Some 1, false)] /\ waynet_points y = [].
Proof. exact way_nets_not. Qed.
Print Assumptions C39_way_nets_refuted.
Theorem C39_edges_to_itself_refuted : forall f, exists p x y,
  reload w1 f demo_env (few [Owaynet x; Owaypoint p]) (Some 0) =
    Ret (Some 0, [mkHobj zCWayNet 0 (Some (Owaynet y)); mkHobj zCWaypoint 1 (Some (Owaypoint p))]) /\
  waynet_edges y = [(Some 1, Some 1)] /\ waynet_points y = [].
Proof. exact way_nets_self. Qed.
Print Assumptions C39_edges_to_itself_refuted.
(** A free point and a triangle, one corner of which is the free point. *)
Example C39_example :
  ok_waynet w1 (fun _ => zCWaypoint)
    (mk_waynet [(Some 7, true); (Some 8, true); (Some 2, false); (Some 3, false)]
               [(Some 2, Some 7); (Some 7, Some 3); (Some 3, Some 2)]).
Proof.
  exists [7; 8], [(2, 7); (7, 3); (3, 2)]. split; [reflexivity|]. split; [reflexivity|]. ok.
Qed.


(** ** C40 *)
Theorem C40_trees : forall f ph ty fl d t n rest st, ok_tree ty d t ->
  flat f ph ty fl (p_tree d) ((fst (save_tree t n) ++ rest) :: st) = Some (Some (map_tree ph t), rest :: st).
Proof. exact trees. Qed.
Print Assumptions C40_trees.
Definition demo_tree : vtree := Tree 1 [Tree 2 []; Tree 3 [Tree 4 []]].
Example C40_example : ok_tree (fun r => if r =? 1 then zCVobLevelCompo else oCMobDoor) 3 demo_tree.
Proof. ok. Qed.


(** ** C81 *)
Theorem C81_worlds_partial : forall c G f x, ok_world c (g_type (library c) G) x -> obeys (library c) G f (Oworld x).
Proof. exact worlds. Qed.
Print Assumptions C81_worlds_partial.
Theorem C81_worlds_refuted :
  (exists x y, comes_back_as s2 ABinary demo_env (Oworld x) (Oworld y) /\ world_spawn_flags y <> world_spawn_flags x) /\
  (forall f, f <> ABinary -> exists x e, reload s2 f demo_env (alone (Oworld x)) (Some 0) = Throw e).
Proof. exact worlds_not. Qed.
Print Assumptions C81_worlds_refuted.
Example C81_example :
  ok_world s1 (fun r => if r <? 5 then oCMobDoor else if r =? 5 then zCWayNet else oCNpc)
    (mk_world [demo_tree; Tree 1 []] (Some 5) None None [Some 6; Some 7] [mkSpawn (Some 6) (mkV3 1 2 3) 4] true 0%Z).
Proof. split; [ok|]. split; [ok|]. split; [cbn; lia|]. ok. Qed.


(** ** C82 *)
Theorem C82_cutscenes : forall c G f,
  (forall x, ok_message c (g_type (library c) G) x -> obeys (library c) G f (Omessage x)) /\
  (forall x, ok_atomic c (g_type (library c) G) x -> obeys (library c) G f (Oatomic x)) /\
  (forall t x, In t [zCCSBlock; zCCutscene] -> ok_cblock c (g_type (library c) G) x -> obeys (library c) G f (Ocblock t x)) /\
  (forall x, ok_cslib c (g_type (library c) G) (g_flags (library c) G) x -> obeys (library c) G f (Ocslib x)) /\
  (forall x, obeys (library c) G f (Ocsprops x)) /\
  (forall x, ok_cscontext c (g_type (library c) G) x -> obeys (library c) G f (Ocscontext x)) /\
  (forall x, obeys (library c) G f (Opoolitem x)) /\
  (forall x, ok_csmanager c (g_type (library c) G) x -> obeys (library c) G f (Ocsmanager x)) /\
  (forall x, ok_csplayer c (g_type (library c) G) x -> obeys (library c) G f (Ocsplayer x)) /\
  (forall x, ok_savemeta c (g_type (library c) G) x -> obeys (library c) G f (Osavemeta x)) /\
  (forall x, ok_sky c (g_type (library c) G) x -> obeys (library c) G f (Osky x)).
Proof. exact cutscenes. Qed.
Print Assumptions C82_cutscenes.
Example C82_example :
  ok_cslib w1 (fun _ => zCCSBlock) (fun r => if r =? 1 then code (lit "DIA_A") else code (lit "DIA_B")) (mk_cslib [Some 1; Some 2]) /\
  ok_cblock w1 (fun _ => zCCSAtomicBlock) (mk_cblock (lit "DIA_A") (Some (mkSub true 3))).
Proof.
  split; [split; [ok|]|].
  - exists [1; 2], [lit "DIA_A"; lit "DIA_B"]. split; [reflexivity|]. split; [reflexivity|]. ok.
  - eexists. split; reflexivity.
Qed.


(** ** C83 *)
Theorem C83_parts_of_objects : forall c G f,
  (forall t, In t [zCMesh; zCProgMeshProto; zCParticleFX; zCAICamera; zCModel; zCMorphMesh] -> obeys (library c) G f (Ovisual t)) /\
  (forall x, ok_decal c (g_type (library c) G) x -> obeys (library c) G f (Odecal x)) /\
  (forall x, ok_evman c (g_type (library c) G) x -> obeys (library c) G f (Oevman x)) /\
  (forall x, ok_aihuman c (g_type (library c) G) x -> obeys (library c) G f (Oaihuman x)) /\
  (forall x, ok_aimove c (g_type (library c) G) x -> obeys (library c) G f (Oaimove x)) /\
  (forall x, obeys (library c) G f (Otalent x)).
Proof. exact parts_of_objects. Qed.
Print Assumptions C83_parts_of_objects.
Example C83_example :
  ok_aihuman s1 (g_type (library s1) (few demo_objects)) demo_ai /\
  ok_decal w2 (fun _ => unknown) (mk_decal (lit "D") (mkV2 1 2) (mkV2 3 4) true 1 2 3 true).
Proof. ok. Qed.

