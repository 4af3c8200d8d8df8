(** What holds of every loaded mesh, morph mesh and animation; animations are read safely. *)

From Coq Require Import Lia ZifyN ZifyBool ZifyNat.
From Verif Require Import MBase MStream SStream MBoxes SBoxes MTexture MText MClasses MArchive SArchive MVob MMaterial MMesh SMesh
  MModel SFormat MBsp SBsp MMrm SMrm SMorph.
From Verif Require Import LBase LStream LBoxes LFormat LModel LTexture LBsp LEnds LMesh.
Local Open Scope N_scope.

(** ** Multi-resolution meshes *)
Section Runs.
  Context {St Ob : Type} (P : prims St) (fl : Ob -> Z) (rec : M (rg (St := St) (Ob := Ob)) (option oid)).
  Lemma runp_bind_inv {A B} (p : prog oid A) (k : A -> prog oid B) : forall g b g', runp P fl rec (pbind p k) g = Ret (b, g') ->
    exists a g1, runp P fl rec p g = Ret (a, g1) /\ runp P fl rec (k a) g1 = Ret (b, g').
  Proof.
    induction p as [a|e| | |kd c IH|c IH|c IH|c IH|b0 p IH]; intros g b g' E; cbn [pbind runp] in *; try discriminate E.
    - exists a, g. split; [reflexivity | exact E].
    - unfold bind in *. destruct (rgl _ g) as [[v g1]| | |]; try discriminate E. apply IH, E.
    - unfold bind in *. destruct (rec g) as [[v g1]| | |]; try discriminate E. apply IH, E.
    - unfold bind in *. destruct (rgl _ g) as [[v g1]| | |]; try discriminate E. apply IH, E.
    - unfold bind in *. destruct (rgl _ g) as [[v g1]| | |]; try discriminate E. apply IH, E.
    - unfold bind in *. destruct (rgl _ g) as [[v g1]| | |]; try discriminate E. apply IH, E.
  Qed.
  Lemma p_rep_length {A} (p : prog oid A) : forall n g l g', runp P fl rec (p_rep n p) g = Ret (l, g') -> length l = n.
  Proof.
    induction n as [|n IH]; intros g l g' E; cbn [p_rep] in E.
    - injection E as <- _. reflexivity.
    - apply runp_bind_inv in E. destruct E as (a & g1 & _ & E). apply runp_bind_inv in E. destruct E as (l1 & g2 & E1 & E).
      injection E as <- _. cbn [length]. f_equal. eapply IH, E1.
  Qed.
End Runs.

Lemma mrm_mats_length n s l s' : mrm_mats_load n s = Ret (l, s') -> length l = N.to_nat n.
Proof.
  intros E. unfold mrm_mats_load in E. peel E h s1 E1. cbv beta in E.
  match type of E with match ?x with _ => _ end = _ => destruct x as [[l1 g]| | |] eqn:E2 end; try discriminate E.
  injection E as <- _. eapply p_rep_length, E2.
Qed.
Lemma subs_consistent l s r s' : subs_load l s = Ret (r, s') -> map sm_mat r = map snd l.
Proof.
  intros E. unfold subs_load in E.
  assert (F : Forall2 (fun x y => sm_mat y = snd x) l r).
  { eapply mapM_Forall2; [|exact E]. cbv beta. intros [m mt] t y t' Ey. unfold sub_load in Ey. cbn [fst snd] in *.
    do 9 (let x := fresh in let t1 := fresh in let H := fresh in peel Ey x t1 H). injection Ey as <- _. reflexivity. }
  clear E. induction F as [|x y l r Hx F IH]; [reflexivity|]. cbn [map]. congruence.
Qed.
Lemma combine_snd {A B} : forall (a : list A) (b : list B), length a = length b -> map snd (combine a b) = b.
Proof. induction a as [|x a IH]; intros [|y b] H; cbn in *; try discriminate; [reflexivity|]. f_equal. apply IH. congruence. Qed.
Lemma mrm_section_consistent m s r s' : mrm_section_load m s = Ret (r, s') -> mrm_consistent r.
Proof.
  intros E. unfold mrm_section_load in E.
  peel E version s1 E1. peel E size s2 E2. peel E off s3 E3. peel E u1 s4 E4. peel E n s5 E5. peel E vs s6 E6. peel E ns s7 E7.
  peel E maps s8 E8. peel E mats s9 E9. peel E alpha s10 E10. peel E bb s11 E11. peel E ob s12 E12. peel E u2 s13 E13.
  peel E fin s14 E14. peel E ps s15 E15. peel E nos s16 E16. peel E subs s17 E17. peel E u3 s18 E18. injection E as <- _.
  unfold mrm_consistent. cbn [mr_subs mr_materials].
  rewrite (subs_consistent _ _ _ _ E17). apply combine_snd.
  rewrite (mrm_mats_length _ _ _ _ E9).
  destruct (repM_Forall (map_load off) (fun _ => True) (fun _ _ _ _ => I) _ _ _ _ E8) as [-> _]. reflexivity.
Qed.
Lemma mrm_loaded s m s' : mrm_load mrm_new s = Ret (m, s') -> mrm_consistent m.
Proof.
  unfold mrm_load. apply read_chunked_inv; [|reflexivity]. clear. intros ty a s b a' s' Ha E. unfold mrm_chunk in E.
  destruct (ty =? R_MESH). { peel E x s1 E1. injection E as _ <- _. eapply mrm_section_consistent, E1. }
  destruct (ty =? R_END); injection E as _ <- _; exact Ha.
Qed.

(** ** Soft-skin meshes and model meshes *)
Lemma len_length {A} (l : list A) : len l = N.of_nat (length l).
Proof. reflexivity. Qed.
Lemma skin_loaded_from k s k' s' : skin_consistent k -> skin_load k s = Ret (k', s') -> skin_consistent k'.
Proof.
  intros Hk. unfold skin_load. apply read_chunked_inv; [|exact Hk]. clear. intros ty a s b a' s' [Ha Hb] E. unfold skin_chunk in E.
  destruct (ty =? S_HEADER). { peel E x s1 E1. injection E as _ <- _. split; assumption. }
  destruct (ty =? S_PROTO).
  { peel E x s1 E1. injection E as _ <- _. split; [eapply mrm_section_consistent, E1 | exact Hb]. }
  destruct (ty =? S_NODES).
  { peel E x s1 E1. injection E as _ <- _. unfold skin_nodes_load in E1.
    peel E1 size t1 F1. peel E1 here t2 F2. cbv zeta in E1. peel E1 ws t3 F3. peel E1 at_ t4 F4. peel E1 u t5 F5. peel E1 n t6 F6.
    peel E1 ns t7 F7. peel E1 kk t8 F8. peel E1 nodes t9 F9. peel E1 boxes t10 F10. injection E1 as <- _.
    split; cbn [sk_mesh sk_bboxes sk_nodes]; [exact Ha|].
    destruct (repM_Forall obb_load (fun _ => True) (fun _ _ _ _ => I) _ _ _ _ F10) as [L _]. unfold len. congruence. }
  destruct (ty =? S_END); injection E as _ <- _; split; assumption.
Qed.
Lemma skin_loaded s k s' : skin_load skin_new s = Ret (k, s') -> skin_consistent k.
Proof. apply skin_loaded_from. split; reflexivity. Qed.

Lemma read_chunked_t_inv {A} (cb : N -> N -> A -> rd (bool * N * A)) (P : A -> Prop) :
  (forall ty fin a s b a' s', P a -> cb ty fin a s = Ret ((b, a'), s') -> P a') ->
  forall fuel a s a' s', P a -> read_chunked_t fuel cb a s = Ret (a', s') -> P a'.
Proof.
  intros H. induction fuel as [|fuel IH]; intros a s a' s' Ha E; [discriminate|]. cbn [read_chunked_t] in E.
  peel E ty s1 E1. peel E sz s2 E2. peel E here s3 E3. peel E r s4 E4. destruct r as [[b fin] a1].
  assert (Ha1 : P a1) by (eapply H; [exact Ha | exact E4]).
  peel E u s5 E5. destruct b; [injection E as <- _; exact Ha1|].
  peel E e s6 E6. destruct e; [injection E as <- _; exact Ha1|]. eapply IH; [exact Ha1 | exact E].
Qed.
Lemma set_attachment_keys name x : forall l, NoDup (map fst l) ->
  NoDup (map fst (set_attachment name x l)) /\ (forall k, In k (map fst (set_attachment name x l)) -> k = name \/ In k (map fst l)).
Proof.
  induction l as [|[k v] l IH]; intros H; cbn [set_attachment map fst].
  - split; [repeat constructor; intros [] | intros k [<-|[]]; left; reflexivity].
  - inversion H as [|y l0 Hk Hn]; subst. destruct (IH Hn) as [N1 N2]. destruct (bytes_eqb k name) eqn:E.
    + split; [exact H|]. intros k' Hk'. right. exact Hk'.
    + cbn [map fst]. split.
      * constructor; [|exact N1]. intros Hi. destruct (N2 _ Hi) as [->|Hi2]; [|exact (Hk Hi2)].
        rewrite bytes_eqb_refl in E. discriminate E.
      * intros k' [<-|Hk']; [right; left; reflexivity|]. destruct (N2 _ Hk') as [->|Hi]; [left; reflexivity | right; right; exact Hi].
Qed.
Lemma set_attachment_Forall (Q : bytes * mrm -> Prop) name x : (forall k, Q (k, x)) -> forall l, Forall Q l -> Forall Q (set_attachment name x l).
Proof.
  intros Hx. induction l as [|[k v] l IH]; intros H; cbn [set_attachment]; [repeat constructor; apply Hx|].
  inversion H; subst. destruct (bytes_eqb k name); constructor; auto.
Qed.
Lemma mapM_inv {A B} (f : A -> rd B) (P : A -> Prop) (Q : B -> Prop) : (forall a s b s', P a -> f a s = Ret (b, s') -> Q b) ->
  forall l s r s', Forall P l -> mapM f l s = Ret (r, s') -> Forall Q r.
Proof.
  intros H. induction l as [|a l IH]; intros s r s' HP E; cbn [mapM] in E.
  - injection E as <- _. constructor.
  - inversion HP; subst. peel E b s1 E1. peel E r1 s2 E2. injection E as <- _. constructor; [eapply H; eassumption | eapply IH; eassumption].
Qed.
Lemma resize_Forall {A} (Q : A -> Prop) n l x : Forall Q l -> Q x -> Forall Q (resize n l x).
Proof.
  intros H Hx. unfold resize. apply Forall_app. split.
  - unfold take. match goal with |- Forall _ (firstn ?k _) => generalize k end. intros k. revert k. clear Hx. induction H as [|y l Hy H IH]; intros [|k]; cbn [firstn]; constructor; auto.
  - apply Forall_forall. intros y Hy. apply repeat_spec in Hy. subst. exact Hx.
Qed.
Lemma mm_loaded s m s' : mm_load mm_new s = Ret (m, s') -> mm_consistent m.
Proof.
  unfold mm_load. intros E. peel E r s1 E1. injection E as <- _. revert E1. destruct r as [names m]. cbn [snd].
  set (P := fun st : list bytes * modelmesh => mm_consistent (snd st)).
  change (mm_consistent m) with (P (names, m)).
  apply read_chunked_t_inv; [|repeat split; constructor]. clear. unfold P.
  intros ty fin [names m] s b a' s' (Hs & Ha & Hn) E. cbn [snd] in *. unfold mm_chunk in E.
  destruct (ty =? O_HEADER). { peel E x s1 E1. injection E as _ <- _. repeat split; assumption. }
  destruct (ty =? O_SOURCE). { peel E x s1 E1. peel E y s2 E2. injection E as _ <- _. repeat split; assumption. }
  destruct (ty =? O_NODES). { peel E x s1 E1. peel E y s2 E2. injection E as _ <- _. repeat split; assumption. }
  destruct (ty =? O_PROTO).
  { destruct (nth_N names (len (mm_attachments m))) as [name|]; [|discriminate E]. peel E x s1 E1. injection E as _ <- _.
    cbn [snd]. unfold mm_consistent. cbn [mm_skins mm_attachments]. split; [exact Hs|]. split.
    - apply set_attachment_Forall; [|exact Ha]. intros k. cbn [snd]. eapply mrm_section_consistent, E1.
    - apply set_attachment_keys, Hn. }
  destruct (ty =? O_SOFTSKINS).
  { peel E x s1 E1. peel E y s2 E2. peel E l s3 E3. peel E z s4 E4. injection E as _ <- _. cbn [snd].
    unfold mm_consistent. cbn [mm_skins mm_attachments]. split; [|split; assumption].
    assert (Hnew : skin_consistent skin_new) by (split; reflexivity).
    eapply mapM_inv; [|apply resize_Forall; [exact Hs | exact Hnew] | exact E3].
    intros k t k' t' Hk. apply skin_loaded_from, Hk. }
  destruct (ty =? O_END); injection E as _ <- _; repeat split; assumption.
Qed.

(** ** Morph meshes *)
Lemma manim_consistent_loaded s a s' : manim_load s = Ret (a, s') -> manim_consistent a.
Proof.
  intros E. unfold manim_load in E. do 7 (let x := fresh in let t1 := fresh in let H := fresh in peel E x t1 H).
  peel E nv s8 E8. peel E nf s9 E9. peel E vs s10 E10. peel E ss s11 E11. injection E as <- _.
  unfold manim_consistent. cbn [an_samples an_vertices an_frames].
  destruct (repM_Forall read_uint (fun _ => True) (fun _ _ _ _ => I) _ _ _ _ E10) as [L1 _].
  destruct (repM_Forall read_vec3 (fun _ => True) (fun _ _ _ _ => I) _ _ _ _ E11) as [L2 _].
  unfold len. rewrite L1, L2, !N2Nat.id. reflexivity.
Qed.
Lemma len_resize {A} n (l : list A) x : len (resize n l x) = n.
Proof. unfold resize. rewrite len_app, len_take. unfold len at 2. rewrite repeat_length. lia. Qed.
Lemma morph_loaded s m s' : morph_load morph_new s = Ret (m, s') -> morph_consistent m.
Proof.
  unfold morph_load. apply read_chunked_inv; [|repeat split; constructor].
  clear. intros ty a s b a' s' (Hm & Hp & Ha) E. unfold morph_chunk in E.
  destruct (ty =? H_SOURCES). { peel E x s1 E1. peel E y s2 E2. injection E as _ <- _. repeat split; assumption. }
  destruct (ty =? H_HEADER). { peel E x s1 E1. peel E y s2 E2. injection E as _ <- _. repeat split; assumption. }
  destruct (ty =? H_PROTO).
  { peel E x s1 E1. injection E as _ <- _. split; [eapply mrm_section_consistent, E1|]. split; [|exact Ha].
    cbn [mo_positions mo_mesh]. apply len_resize. }
  destruct (ty =? H_MORPH).
  { peel E l s1 E1. injection E as _ <- _. split; [exact Hm|]. split; [|exact Ha]. cbn [mo_positions mo_mesh].
    destruct (repM_Forall read_vec3 (fun _ => True) (fun _ _ _ _ => I) _ _ _ _ E1) as [L1 _]. rewrite <- Hp. unfold len. congruence. }
  destruct (ty =? H_ANIMATIONS).
  { peel E n s1 E1. peel E l s2 E2. injection E as _ <- _. split; [exact Hm|]. split; [exact Hp|]. cbn [mo_anims].
    apply Forall_app. split; [exact Ha|].
    destruct (repM_Forall manim_load manim_consistent manim_consistent_loaded _ _ _ _ E2) as [_ F]. exact F. }
  injection E as _ <- _. repeat split; assumption.
Qed.

(** ** Animations *)
Lemma fw_sample p r sc mi : forward (sample_load p r sc mi).
Proof. unfold sample_load. fsteps. Qed.
Lemma fw_aevent : forward aevent_load.
Proof. unfold aevent_load. fsteps. Qed.
Global Hint Resolve fw_sample fw_aevent : forward.
Lemma ani_forward p r a : forward (ani_load p r a).
Proof.
  unfold ani_load. apply fw_chunked. clear. intros ty a. unfold ani_chunk.
  destruct (ty =? A_SOURCE); [fsteps|]. destruct (ty =? A_HEADER); [fsteps|]. destruct (ty =? A_EVENTS); [fsteps|].
  destruct (ty =? A_SAMPLES); fsteps.
Qed.
