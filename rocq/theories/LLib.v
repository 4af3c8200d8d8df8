(** Lemmas: every class of the library does what the archive relies on. *)

From Coq Require Import String.
From Verif Require Import MBase MStream SStream LBase LStream MBoxes SBoxes MText MClasses MArchive SArchive MVob MVobs MNpc MCutscene MMaterial MWorld SVob MLib SLib LVob LVobC LVobD LVobE LVobF.
Local Open Scope N_scope.

Lemma gives_map {A B} (g : A -> B) f ph ty fl (p : prog oid A) ops a : gives f ph ty fl p ops a -> gives f ph ty fl (p_map g p) ops (g a).
Proof. intros H. eapply gives_last; [exact H | apply gives_ret; reflexivity]. Qed.
Lemma in_somes l r : In (Some r) l -> In r (somes l).
Proof. intros H. apply in_flat_map. exists (Some r). split; [exact H | left; reflexivity]. Qed.
Lemma flat_gives {A} f ph ty fl (p : prog oid A) ops a rest : gives f ph ty fl p ops a ->
  flat f ph ty fl p (ops :: rest) = Some (a, [] :: rest).
Proof. intros H. rewrite <- (app_nil_r ops) at 1. apply H. Qed.
Lemma flags_map ph o : object_flags (object_map ph o) = object_flags o.
Proof. destruct o; try reflexivity. all: destruct x; reflexivity. Qed.
Lemma library_obeys c G f x : ok_object c (g_type (library c) G) (g_flags (library c) G) x -> obeys (library c) G f x.
Proof.
  intros H. split; [intros ph; apply flags_map|]. cbn [c_type library c_looks c_load c_map].
  unfold g_ops. cbn [c_save library].
  destruct x; cbn [ok_object object_type object_looks object_save object_map] in *;
    repeat match goal with H : In _ _ /\ _ |- _ => destruct H as [Ht H]; cbn [In] in Ht end.
  - split; [cbn [In] in H; repeat destruct H as [<- | H]; try destruct H; discriminate|]. intros ph fl rest _ _.
    cbn [In] in H. repeat destruct H as [<- | H]; try destruct H; (eexists; split; [reflexivity | reflexivity]).
  - split; [discriminate|]. intros ph fl rest _ _. eexists. split; [reflexivity|]. apply flat_gives, gives_map, (law_decal c _ _ H).
  - split; [discriminate|]. intros ph fl rest _ _. eexists. split; [reflexivity|]. apply flat_gives, gives_map, (law_evman c _ _ H).
  - split; [discriminate|]. intros ph fl rest _ _. eexists. split; [reflexivity|]. apply flat_gives, gives_map, (law_aihuman c _ _ H).
  - split; [discriminate|]. intros ph fl rest _ _. eexists. split; [reflexivity|]. apply flat_gives, gives_map, (law_aimove c _ _ H).
  - split; [repeat destruct Ht as [<- | Ht]; try destruct Ht; discriminate|]. intros ph fl rest _ _.
    repeat destruct Ht as [<- | Ht]; try destruct Ht; (eexists; split; [reflexivity|]; apply flat_gives, gives_map, (law_vob c _ _ H)).
  - split; [repeat destruct Ht as [<- | Ht]; try destruct Ht; discriminate|]. intros ph fl rest _ _.
    repeat destruct Ht as [<- | Ht]; try destruct Ht; (eexists; split; [reflexivity|]; apply flat_gives, gives_map, (law_trigger c _ _ H)).
  - split; [discriminate|]. intros ph fl rest _ _. eexists. split; [reflexivity|]. apply flat_gives, gives_map, (law_mover c _ _ H).
  - split; [discriminate|]. intros ph fl rest _ _. eexists. split; [reflexivity|]. apply flat_gives, gives_map, (law_tlist c _ _ H).
  - split; [discriminate|]. intros ph fl rest _ _. eexists. split; [reflexivity|]. apply flat_gives, gives_map, (law_tscript c _ _ H).
  - split; [discriminate|]. intros ph fl rest _ _. eexists. split; [reflexivity|]. apply flat_gives, gives_map, (law_tlevel c _ _ H).
  - split; [discriminate|]. intros ph fl rest _ _. eexists. split; [reflexivity|]. apply flat_gives, gives_map, (law_tstart c _ _ H).
  - split; [discriminate|]. intros ph fl rest _ _. eexists. split; [reflexivity|]. apply flat_gives, gives_map, (law_tuntouch c _ _ H).
  - split; [discriminate|]. intros ph fl rest _ _. eexists. split; [reflexivity|]. apply flat_gives, gives_map, (law_movable c _ _ H).
  - split; [repeat destruct Ht as [<- | Ht]; try destruct Ht; discriminate|]. intros ph fl rest _ _.
    repeat destruct Ht as [<- | Ht]; try destruct Ht; (eexists; split; [reflexivity|]; apply flat_gives, gives_map, (law_interactive c _ _ H)).
  - split; [discriminate|]. intros ph fl rest _ _. eexists. split; [reflexivity|]. apply flat_gives, gives_map, (law_container c _ _ H).
  - split; [discriminate|]. intros ph fl rest _ _. eexists. split; [reflexivity|]. apply flat_gives, gives_map, (law_door c _ _ H).
  - split; [discriminate|]. intros ph fl rest _ _. eexists. split; [reflexivity|]. apply flat_gives, gives_map, (law_fire c _ _ H).
  - split; [discriminate|]. intros ph fl rest _ _. eexists. split; [reflexivity|]. apply flat_gives, gives_map, (law_sound c _ _ H).
  - split; [discriminate|]. intros ph fl rest _ _. eexists. split; [reflexivity|]. apply flat_gives, gives_map, (law_daysound c _ _ H).
  - split; [repeat destruct Ht as [<- | Ht]; try destruct Ht; discriminate|]. intros ph fl rest _ _.
    repeat destruct Ht as [<- | Ht]; try destruct Ht; (eexists; split; [reflexivity|]; apply flat_gives, gives_map, (law_music c _ _ H)).
  - split; [repeat destruct Ht as [<- | Ht]; try destruct Ht; discriminate|]. intros ph fl rest _ _.
    repeat destruct Ht as [<- | Ht]; try destruct Ht; (eexists; split; [reflexivity|]; apply flat_gives, gives_map, (law_farplane c _ _ H)).
  - split; [repeat destruct Ht as [<- | Ht]; try destruct Ht; discriminate|]. intros ph fl rest _ _.
    repeat destruct Ht as [<- | Ht]; try destruct Ht; (eexists; split; [reflexivity|]; apply flat_gives, gives_map, (law_fog c _ _ H)).
  - split; [discriminate|]. intros ph fl rest _ _. eexists. split; [reflexivity|]. apply flat_gives, gives_map, (law_camframe c _ _ H).
  - split; [discriminate|]. intros ph fl rest _ _. eexists. split; [reflexivity|]. apply flat_gives, gives_map, (law_cscamera c _ _ H).
  - split; [discriminate|]. intros ph fl rest _ _. eexists. split; [reflexivity|]. apply flat_gives, gives_map, (law_light c _ _ H).
  - split; [discriminate|]. intros ph fl rest _ _. eexists. split; [reflexivity|]. apply flat_gives, gives_map, (law_animate c _ _ H).
  - split; [discriminate|]. intros ph fl rest _ _. eexists. split; [reflexivity|]. apply flat_gives, gives_map, (law_item c _ _ H).
  - split; [discriminate|]. intros ph fl rest _ _. eexists. split; [reflexivity|]. apply flat_gives, gives_map, (law_lensflare c _ _ H).
  - split; [discriminate|]. intros ph fl rest _ _. eexists. split; [reflexivity|]. apply flat_gives, gives_map, (law_pfxctl c _ _ H).
  - split; [discriminate|]. intros ph fl rest _ _. eexists. split; [reflexivity|]. apply flat_gives, gives_map, (law_msgfilter c _ _ H).
  - split; [discriminate|]. intros ph fl rest _ _. eexists. split; [reflexivity|]. apply flat_gives, gives_map, (law_codemaster c _ _ H).
  - split; [discriminate|]. intros ph fl rest _ _. eexists. split; [reflexivity|]. apply flat_gives, gives_map, (law_movctl c _ _ H).
  - split; [discriminate|]. intros ph fl rest _ _. eexists. split; [reflexivity|]. apply flat_gives, gives_map, (law_touchdmg c _ _ H).
  - split; [discriminate|]. intros ph fl rest _ _. eexists. split; [reflexivity|]. apply flat_gives, gives_map, (law_quake c _ _ H).
  - split; [discriminate|]. intros ph fl rest _ _. eexists. split; [reflexivity|]. apply flat_gives, gives_map, (law_screenfx c _ _ H).
  - split; [discriminate|]. intros ph fl rest _ _. eexists. split; [reflexivity|]. apply flat_gives, gives_map, (law_talent c _ _ H).
  - split; [discriminate|]. intros ph fl rest _ Hl. eexists. split; [reflexivity|]. apply flat_gives, gives_map, (law_npc c _ _ _ H); intros r Hr; apply Hl, in_somes, Hr.
  - split; [discriminate|]. intros ph fl rest _ _. eexists. split; [reflexivity|]. apply flat_gives, gives_map, (law_message c _ _ H).
  - split; [discriminate|]. intros ph fl rest _ _. eexists. split; [reflexivity|]. apply flat_gives, gives_map, (law_atomic c _ _ H).
  - split; [repeat destruct Ht as [<- | Ht]; try destruct Ht; discriminate|]. intros ph fl rest _ _.
    repeat destruct Ht as [<- | Ht]; try destruct Ht; (eexists; split; [reflexivity|]; apply flat_gives, gives_map, (law_cblock c _ _ H)).
  - split; [discriminate|]. intros ph fl rest _ Hl. eexists. split; [reflexivity|]. apply flat_gives, gives_map, (law_cslib c _ _ _ H); intros r Hr; apply Hl, in_somes, Hr.
  - split; [discriminate|]. intros ph fl rest _ _. eexists. split; [reflexivity|]. apply flat_gives, gives_map, (law_csprops c _ _ H).
  - split; [discriminate|]. intros ph fl rest _ _. eexists. split; [reflexivity|]. apply flat_gives, gives_map, (law_cscontext c _ _ H).
  - split; [discriminate|]. intros ph fl rest _ _. eexists. split; [reflexivity|]. apply flat_gives, gives_map, (law_savemeta c _ _ H).
  - split; [discriminate|]. intros ph fl rest _ _. eexists. split; [reflexivity|]. apply flat_gives, gives_map, (law_poolitem c _ _ H).
  - split; [discriminate|]. intros ph fl rest _ _. eexists. split; [reflexivity|]. apply flat_gives, gives_map, (law_csmanager c _ _ H).
  - split; [discriminate|]. intros ph fl rest _ _. eexists. split; [reflexivity|]. apply flat_gives, gives_map, (law_csplayer c _ _ H).
  - split; [discriminate|]. intros ph fl rest _ _. eexists. split; [reflexivity|]. apply flat_gives, gives_map, (law_sky c _ _ H).
  - split; [discriminate|]. intros ph fl rest _ _. eexists. split; [reflexivity|]. apply flat_gives, gives_map, (law_material c _ _ H).
  - split; [discriminate|]. intros ph fl rest _ _. eexists. split; [reflexivity|]. apply flat_gives, gives_map, (law_waypoint c _ _ H).
  - split; [discriminate|]. intros ph fl rest Hi _. eexists. split; [reflexivity|]. apply flat_gives, gives_map, (law_waynet c _ _ H); exact Hi.
  - split; [discriminate|]. intros ph fl rest _ _. eexists. split; [reflexivity|]. apply flat_gives, gives_map, (law_world c _ _ H).
Qed.
Lemma library_graph_ok c G f : library_graph c G -> graph_ok (library c) G f.
Proof. intros H r x E. destruct (H r x E) as [H1 H2]. split; [apply library_obeys, H1 | exact H2]. Qed.
