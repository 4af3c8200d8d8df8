(** Properties of whatever an archive reader makes: C39, C40 (second halves), C42, C84 and C85. *)

From Coq Require Import String Lia.
From Verif Require Import MBase MStream SStream MBoxes SBoxes MText MClasses MArchive SArchive.
From Verif Require Import MVob MVobs MNpc MCutscene MMaterial MWorld SVob MLib SLib SReload SLoaded SForeign.
From Verif Require Import LLoaded LLoadedProps LForeign PropertiesVobs.
Local Open Scope N_scope.

(** ** C85: every object an archive reader hands out is completely loaded by the load function of
    its class, and every object it refers to exists; whatever the bytes are. *)
Theorem C85_everything_loaded : forall c fuel b head root h,
  load_archive (c_load (library c)) (c_flags (library c)) fuel b = Ret (head, root, h) ->
  made_by (c_load (library c)) (c_flags (library c)) h /\ (forall r, root = Some r -> r < len h).
Proof. intros c fuel b head root h. exact (loaded_made _ _ fuel b head root h). Qed.
Print Assumptions C85_everything_loaded.
(** Seven objects, one of them referring to two others. *)
Definition demo_bytes : bytes :=
  match save_archive ABinary demo_env demo_env true (g_graph (library s1) (few demo_objects)) 8 (lit "%") (Some 0) with
  | Ret b => b | _ => [] end.
Example C85_example : exists head h,
  load_archive (c_load (library s1)) (c_flags (library s1)) 8 demo_bytes = Ret (head, Some 0, h) /\ len h = 7.
Proof. eexists. eexists. split; [vm_compute; reflexivity | reflexivity]. Qed.

(** ** C84: the booleans of a loaded trigger are the bits of its two flag bytes. *)
Theorem C84_triggers_loaded : forall c fuel b head root h r e o x,
  load_archive (c_load (library c)) (c_flags (library c)) fuel b = Ret (head, root, h) ->
  nth_N h r = Some e -> ho_val e = Some o -> trigger_of o = Some x -> flags_agree x.
Proof. exact triggers_loaded. Qed.
Print Assumptions C84_triggers_loaded.
Example C84_example : exists head h e o x,
  load_archive (c_load (library s1)) (c_flags (library s1)) 8 demo_bytes = Ret (head, Some 0, h) /\
  nth_N h 0 = Some e /\ ho_val e = Some o /\ trigger_of o = Some x /\
  trigger_filter_flags x = 18 /\ trigger_react_to_on_touch x = true /\ trigger_respond_to_npc x = false.
Proof.
  eexists. eexists. eexists. eexists. eexists. split; [vm_compute; reflexivity|]. split; [reflexivity|].
  split; [reflexivity|]. split; [reflexivity|]. split; [reflexivity|]. split; reflexivity.
Qed.

(** ** C39 *)
Theorem C39_loaded_way_nets_partial : forall c fuel b head root h r e w,
  load_archive (c_load (library c)) (c_flags (library c)) fuel b = Ret (head, root, h) ->
  nth_N h r = Some e -> ho_val e = Some (Owaynet w) ->
  (forall x, In x (waynet_edges w) -> fst x = snd x -> fst x = None) ->
  (forall x p, In x (waynet_edges w) -> fst x = Some p \/ snd x = Some p -> In p (listed (waynet_points w))) /\
  (NoDup (listed (filter snd (waynet_points w))) -> NoDup (listed (waynet_points w))).
Proof. exact way_nets_loaded. Qed.
Print Assumptions C39_loaded_way_nets_partial.
(** A free point and a point that only edges use. *)
Definition demo_point (name : bytes) : waypoint := mk_waypoint name 0%Z false (mkV3 1 2 3) (mkV3 0 0 1065353216).
Definition demo_net : list object :=
  [Owaynet (mk_waynet [(Some 1, true); (Some 2, false)] [(Some 1, Some 2)]);
   Owaypoint (demo_point (lit "A")); Owaypoint (demo_point (lit "B"))].
Definition demo_net_bytes : bytes :=
  match save_archive ABinary demo_env demo_env false (g_graph (library w1) (few demo_net)) 8 (lit "%") (Some 0) with
  | Ret b => b | _ => [] end.
Example C39_loaded_example : exists head h e w,
  load_archive (c_load (library w1)) (c_flags (library w1)) 8 demo_net_bytes = Ret (head, Some 0, h) /\
  nth_N h 0 = Some e /\ ho_val e = Some (Owaynet w) /\
  waynet_edges w = [(Some 1, Some 2)] /\ listed (filter snd (waynet_points w)) = [1].
Proof.
  eexists. eexists. eexists. eexists. split; [vm_compute; reflexivity|]. split; [reflexivity|].
  split; [reflexivity|]. split; reflexivity.
Qed.

(** ** C40: objects that cannot be made are dropped with everything below them. *)
Theorem C40_unsupported_classes_partial : forall c f D X fuel d t rest ca he,
  len D < 2 ^ 31 -> after_ok f X ->
  suf D (strip f (encodes f 0 (tree_nodes t ++ rest) ++ X)) ->
  forallb (node_ok f) (tree_nodes t ++ rest) = true ->
  skippable f d t = true -> forallb (no_world f) (tree_nodes t) = true ->
  let loaded := runp (fmt_prims f) (c_flags (library c)) (read_obj (fmt_prims f) (c_load (library c)) (c_flags (library c)) (S fuel))
                  (p_tree (S d)) (mkRg (rat f D (encodes f 0 (tree_nodes t ++ rest) ++ X) []) ca he) in
  match prune f (c_load (library c)) t with
  | [] => loaded = Ret (None, mkRg (rat f D (encodes f 0 rest ++ X) []) ca he)
  | t' :: _ => forall v s ca' he',
      runp (nprims f) (c_flags (library c)) (read_obj (nprims f) (c_load (library c)) (c_flags (library c)) (S fuel))
        (p_tree (S d)) (mkRg [tree_nodes t' ++ rest] ca he) = Ret (v, mkRg s ca' he') ->
      loaded = Ret (v, mkRg (rat f D (encodes f 0 rest ++ X) []) ca' he')
  end.
Proof. exact foreign_objects. Qed.
Print Assumptions C40_unsupported_classes_partial.
(** A spot with three children: a start point, an object of an unknown class with a stair below
    it, and another stair.  The unknown object and the stair below it are dropped. *)
Definition demo_content (t : otype) (v : vob) : list node :=
  match content (library w1) (alone (Ovob t v)) 8 (lit "%") (Some 0) with
  | Some (NObj _ l, _, _) => l | _ => [] end.
Definition demo_class (t : otype) (v : vob) (i : N) (l : list ctree) : ctree :=
  CTree (mkH (lit "%") (match class_of_type t with Some k => k | None => [] end) 0 i) (demo_content t v) (lit "childs0") 0 l.
Definition demo_stair (i : N) : ctree := demo_class zCVobStair (demo_vob (lit "STAIR") None None None None) i [].
Definition demo_start (i : N) : ctree := demo_class zCVobStartpoint (demo_vob (lit "START") None None None None) i [].
Definition demo_foreign : ctree :=
  CTree (mkH (lit "%") (lit "zCMyOwn") 0 3)
    [NEntry (lit "a") 0 (EInt 5); NObj (mkH (lit "b") (lit "zCVob") 0 4) [NEntry (lit "c") 0 (EStr (lit "x"))]] (lit "childs0") 0 [demo_stair 5].
Definition demo_forest : ctree :=
  demo_class zCVobSpot (demo_vob (lit "SPOT") None None None None) 1 [demo_start 2; demo_foreign; demo_stair 6].
Definition demo_eaten : ctree :=
  demo_class zCVobSpot (demo_vob (lit "SPOT") None None None None) 1
    [CTree (mkH (lit "%") (lit "zCMyOwn") 0 3) [NEntry (lit "a") 0 (EStr (lit "[]"))] (lit "childs0") 0 []; demo_stair 4].
Example C40_unsupported_example :
  let D := encodes ABinary 0 (tree_nodes demo_forest) in
  len D < 2 ^ 31 /\ forallb (node_ok ABinary) (tree_nodes demo_forest) = true /\
  skippable ABinary 3 demo_forest = true /\ forallb (no_world ABinary) (tree_nodes demo_forest) = true /\
  (exists h cs name key, prune ABinary (c_load (library w1)) demo_forest = [CTree h cs name key [demo_start 2; demo_stair 6]]) /\
  exists t' s ca he,
    prune ABinary (c_load (library w1)) demo_forest = [t'] /\
    runp (nprims ABinary) (c_flags (library w1)) (read_obj (nprims ABinary) (c_load (library w1)) (c_flags (library w1)) 4)
      (p_tree 4) (mkRg [tree_nodes t' ++ []] [] []) = Ret (Some (Tree 0 [Tree 1 []; Tree 2 []]), mkRg s ca he) /\ len he = 3.
Proof.
  split; [vm_compute; reflexivity|]. split; [vm_compute; reflexivity|]. split; [vm_compute; reflexivity|].
  split; [vm_compute; reflexivity|]. split; [eexists; eexists; eexists; eexists; vm_compute; reflexivity|].
  eexists. eexists. eexists. eexists. split; [vm_compute; reflexivity|]. split; [vm_compute; reflexivity | reflexivity].
Qed.

(** In the safe binary format a dropped object whose content has the text "[]" takes its sibling
    with it: everything else is as in the theorem. *)
Theorem C40_unsupported_classes_refuted : exists D d t t' v s ca he,
  len D < 2 ^ 31 /\ D = encodes ABinsafe 0 (tree_nodes t) /\ forallb (node_ok ABinsafe) (tree_nodes t) = true /\
  forallb (no_world ABinsafe) (tree_nodes t) = true /\ prune ABinsafe (c_load (library w1)) t = [t'] /\
  runp (nprims ABinsafe) (c_flags (library w1)) (read_obj (nprims ABinsafe) (c_load (library w1)) (c_flags (library w1)) 4)
    (p_tree d) (mkRg [tree_nodes t'] [] []) = Ret (v, mkRg s ca he) /\
  forall s', runp (fmt_prims ABinsafe) (c_flags (library w1)) (read_obj (fmt_prims ABinsafe) (c_load (library w1)) (c_flags (library w1)) 4)
    (p_tree d) (mkRg (rat ABinsafe D D []) [] []) <> Ret (v, mkRg s' ca he).
Proof.
  exists (encodes ABinsafe 0 (tree_nodes demo_eaten)), 4%nat, demo_eaten. do 5 eexists.
  split; [vm_compute; reflexivity|]. split; [reflexivity|]. split; [vm_compute; reflexivity|].
  split; [vm_compute; reflexivity|]. split; [vm_compute; reflexivity|]. split; [vm_compute; reflexivity|].
  intro s'. vm_compute. discriminate.
Qed.
Print Assumptions C40_unsupported_classes_refuted.

(** ** C42 *)
Theorem C42_lookup_partial : forall c fuel b head h e w,
  load_archive (c_load (library c)) (c_flags (library c)) fuel b = Ret (head, Some 0, h) ->
  nth_N h 0 = Some e -> ho_val e = Some (Ocslib w) ->
  in_order (map fst (named_blocks h w)) /\
  forall name,
    block_by_name (named_blocks h w) name = option_map snd (find (fun p => negb (bytes_ltb (fst p) name)) (named_blocks h w)) /\
    (In name (map fst (named_blocks h w)) ->
     exists r, block_by_name (named_blocks h w) name = Some r /\ In (Some r) (cslib_blocks w) /\ block_name h r = name).
Proof. exact libraries_loaded. Qed.
Print Assumptions C42_lookup_partial.
(** No block is called "A", and "B" is returned for it. *)
Definition demo_cutscenes : list object :=
  [Ocslib (mk_cslib [Some 4; Some 1]); Ocblock zCCSBlock (mk_cblock (lit "B") (Some (mkSub true 2))); Oatomic (mk_atomic (Some 3));
   Omessage (mk_message 0 false false false (lit "Hello") (lit "HELLO.WAV")); Ocblock zCCSBlock (mk_cblock (lit "D") (Some (mkSub true 2)))].
Definition demo_cutscene_bytes : bytes :=
  match save_archive ABinsafe demo_env demo_env false (g_graph (library w1) (few demo_cutscenes)) 8 (lit "%") (Some 0) with
  | Ret b => b | _ => [] end.
Theorem C42_lookup_refuted : exists c fuel b head h e w name r,
  load_archive (c_load (library c)) (c_flags (library c)) fuel b = Ret (head, Some 0, h) /\
  nth_N h 0 = Some e /\ ho_val e = Some (Ocslib w) /\
  ~ In name (map fst (named_blocks h w)) /\ block_by_name (named_blocks h w) name = Some r.
Proof.
  exists w1, 8%nat, demo_cutscene_bytes. do 4 eexists. exists (lit "A"). eexists.
  split; [vm_compute; reflexivity|]. split; [reflexivity|]. split; [reflexivity|].
  split; [vm_compute; intros [|[|[]]]; discriminate | vm_compute; reflexivity].
Qed.
Print Assumptions C42_lookup_refuted.
Example C42_example : exists head h e w r,
  load_archive (c_load (library w1)) (c_flags (library w1)) 8 demo_cutscene_bytes = Ret (head, Some 0, h) /\
  nth_N h 0 = Some e /\ ho_val e = Some (Ocslib w) /\ map fst (named_blocks h w) = [lit "B"; lit "D"] /\
  block_by_name (named_blocks h w) (lit "D") = Some r.
Proof.
  do 5 eexists. split; [vm_compute; reflexivity|]. split; [reflexivity|]. split; [reflexivity|].
  split; vm_compute; reflexivity.
Qed.
