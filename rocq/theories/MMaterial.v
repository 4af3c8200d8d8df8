(** Model of src/Material.cc. *)

From Coq Require Import String.
From Verif Require Import MBase MStream MBoxes MText MClasses MArchive MVob MVobs.
Local Open Scope N_scope.

(** Material.cc:51-52: [stream >> x >> y]; a failed first extraction leaves the second number. *)
Definition text_vec2 (s : bytes) : vec2 :=
  match stream_float s with
  | (x, None) => mkV2 x 0
  | (x, Some rest) => mkV2 x (fst (stream_float rest))
  end.
(** Material.cc:96: [snprintf("%.9g %.9g")] into 100 bytes, which is always enough. *)
Definition show_vec2 (v : vec2) : bytes := show_g 9 (v2x v) ++ [x20] ++ show_g 9 (v2y v).
(** [static_cast<...>(r.read_enum())] for the enumerations of eight bits. *)
Definition p_enum8 : prog oid N := pbind (p_rd KEnum) (fun n => PRet (u8 n)).
(** Material.hh:125-176 [Material]; the union of lines 161-164 is one field *)
Record material := mk_material { material_name : bytes; material_group : N; material_color : color;
  material_smooth_angle : N; material_texture : bytes; material_texture_scale : vec2;
  material_texture_anim_fps : N; material_texture_anim_map_mode : N; material_texture_anim_map_dir : vec2;
  material_disable_collision : bool; material_disable_lightmap : bool; material_dont_collapse : bool;
  material_detail_object : bytes; material_detail_object_scale : N; material_force_occluder : bool;
  material_environment_mapping : bool; material_environment_mapping_strength : N; material_wave_mode : N;
  material_wave_speed : N; material_wave_max_amplitude : N; material_wave_grid_size : N;
  material_ignore_sun : bool; material_alpha_func : N; material_default_mapping : vec2 }.
(** Material.cc:43-83 *)
Definition load_material (c : cfg) : prog oid material :=
  (do name_ <- p_rd KStr ;
   do group_ <- p_enum8 ;
   do color_ <- p_rd KColor ;
   do smooth_angle_ <- p_rd KFloat ;
   do texture_ <- p_rd KStr ;
   do texture_scale_ <- (do s <- p_rd KStr ; PRet (text_vec2 s))%p ;
   do texture_anim_fps_ <- p_rd KFloat ;
   do texture_anim_map_mode_ <- p_rd KEnum ;
   do texture_anim_map_dir_ <- (do s <- p_rd KStr ; PRet (text_vec2 s))%p ;
   do disable_collision_ <- p_rd KBool ;
   do disable_lightmap_ <- p_rd KBool ;
   do dont_collapse_ <- p_rd KBool ;
   do detail_object_ <- p_rd KStr ;
   do '(detail_object_scale_, force_occluder_, environment_mapping_, environment_mapping_strength_, wave_mode_, wave_speed_, wave_max_amplitude_, wave_grid_size_, ignore_sun_, alpha_func_) <- (if g2 c then (
        do detail_object_scale_ <- p_rd KFloat ;
        do force_occluder_ <- p_rd KBool ;
        do environment_mapping_ <- p_rd KBool ;
        do environment_mapping_strength_ <- p_rd KFloat ;
        do wave_mode_ <- p_enum8 ;
        do wave_speed_ <- p_enum8 ;
        do wave_max_amplitude_ <- p_rd KFloat ;
        do wave_grid_size_ <- p_rd KFloat ;
        do ignore_sun_ <- p_rd KBool ;
        do alpha_func_ <- p_rd KEnum ;
        PRet (detail_object_scale_, force_occluder_, environment_mapping_, environment_mapping_strength_, wave_mode_, wave_speed_, wave_max_amplitude_, wave_grid_size_, ignore_sun_, alpha_func_))%p else PRet (0, false, false, 0, 0, 0, 0, 0, false, 0)) ;
   do default_mapping_ <- p_rd KVec2 ;
   PRet (mk_material name_ group_ color_ smooth_angle_ texture_ texture_scale_ texture_anim_fps_
     texture_anim_map_mode_ texture_anim_map_dir_ disable_collision_ disable_lightmap_ dont_collapse_
     detail_object_ detail_object_scale_ force_occluder_ environment_mapping_ environment_mapping_strength_
     wave_mode_ wave_speed_ wave_max_amplitude_ wave_grid_size_ ignore_sun_ alpha_func_ default_mapping_))%p.
(** Material.cc:85-128: line 124 writes the number [alpha_func] as a truth value *)
Definition save_material (c : cfg) (x : material) : list (wop oid) :=
  [wS "name" (material_name x)] ++
  [wE "matGroup" (material_group x)] ++
  [wC "color" (material_color x); wF "smoothAngle" (material_smooth_angle x);
   wS "texture" (material_texture x)] ++
  [wS "texScale" (show_vec2 (material_texture_scale x))] ++
  [wF "texAniFPS" (material_texture_anim_fps x); wE "texAniMapMode" (material_texture_anim_map_mode x)] ++
  [wS "texAniMapDir" (show_vec2 (material_texture_anim_map_dir x))] ++
  [wB "noCollDet" (material_disable_collision x); wB "noLightmap" (material_disable_lightmap x);
   wB "losDontCollapse" (material_dont_collapse x); wS "detailObject" (material_detail_object x)] ++
  (if g2 c then [wF "detailObjectScale" (material_detail_object_scale x); wB "forceOccluder" (material_force_occluder x);
   wB "environmentalMapping" (material_environment_mapping x);
   wF "environmentalMappingStrength" (material_environment_mapping_strength x)] ++
  [wE "waveMode" (material_wave_mode x)] ++
  [wE "waveSpeed" (material_wave_speed x)] ++
  [wF "waveMaxAmplitude" (material_wave_max_amplitude x); wF "waveGridSize" (material_wave_grid_size x);
   wB "ignoreSunLight" (material_ignore_sun x)] ++
  [wB "alphaFunc" (negb ((material_alpha_func x) =? 0))] else []) ++
  [wV2 "defaultMapping" (material_default_mapping x)].
(** The object with its references renamed. *)
Definition map_material (ph : oid -> oid) (x : material) : material :=
  mk_material (material_name x) (material_group x) (material_color x) (material_smooth_angle x)
  (material_texture x) (material_texture_scale x) (material_texture_anim_fps x)
  (material_texture_anim_map_mode x) (material_texture_anim_map_dir x) (material_disable_collision x)
  (material_disable_lightmap x) (material_dont_collapse x) (material_detail_object x)
  (material_detail_object_scale x) (material_force_occluder x) (material_environment_mapping x)
  (material_environment_mapping_strength x) (material_wave_mode x) (material_wave_speed x)
  (material_wave_max_amplitude x) (material_wave_grid_size x) (material_ignore_sun x)
  (material_alpha_func x) (material_default_mapping x).
(** Material.cc:130-132 *)
Definition ver_material (c : cfg) : N := if g2 c then 39939 else 17408.
