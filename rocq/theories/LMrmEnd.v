(** How loading model meshes ends. *)

From Coq Require Import String Lia ZifyN ZifyBool ZifyNat.
From Verif Require Import MBase MStream SStream LBase LStream LStreamHist MZipped MBoxes MTexture MText MClasses MArchive SArchive SFormat LFormat LTexture.
From Verif Require Import MVob MVobs MNpc MCutscene MMaterial MWorld MLib SArchEnd LArchEnd LArchEndX MMesh MModel MMrm LModel LMeshIO LMeshEnd.
Local Open Scope N_scope.
Local Open Scope m_scope.

Section Reads.
Variable D : bytes.
Hypothesis HS : len D < 2 ^ 32.
Variable u : bool.
Hypothesis Ht : told u D.
Let HD : len D < 2 ^ 62.
Proof using HS. pows. lia. Qed.

Lemma rep_ok {A} (P : A -> Prop) n m (r : rd A) : fwd D u m P r -> fwd D u m (Forall P) (repM n r).
Proof using HD.
  intros H. induction n as [|n IH]; cbn [repM]; [apply fwd_ret; [exact HD | constructor]|].
  eapply fwd_bind; [exact HD|exact H|]. intros a Ha. eapply fwd_bind; [exact HD|exact IH|]. intros l Hl.
  apply fwd_ret; [exact HD|]. constructor; assumption.
Qed.
Lemma tell_fwd m : fwd D u m (fun k => m <= k <= len D) rd_tell.
Proof using HD. intros p Hp. rewrite tell_at by exact HD. split; [exact Hp|]. exists p. split; [reflexivity | exact Hp]. Qed.
Lemma beg_fwd m k : m <= k < 2 ^ 63 -> fwd D u m any (rd_seek (sint 64 k) BEG).
Proof using HD. intros H. apply (fwd_back D HD u m k); lia. Qed.
Definition sec_ok (m : N) (s : msection) : Prop := m <= fst s < 2 ^ 63.
Lemma section_fwd m off : m <= off <= len D -> fwd D u m (sec_ok m) (section_load off).
Proof using HD HS.
  intros Ho. unfold section_load. eapply fwd_bind; [exact HD|apply fwd_uint, HD|]. intros o Hu. cbv beta in Hu.
  eapply fwd_ignore; [exact HD|apply fwd_uint, HD|]. intros n. apply fwd_ret; [exact HD|]. unfold sec_ok. cbn [fst].
  unfold u64. rewrite N.mod_small by (clear -Ho Hu HS; pows; lia). clear -Ho Hu HS. pows. lia.
Qed.
Definition map_ok (m : N) (x : submap) : Prop :=
  sec_ok m (ma_triangles x) /\ sec_ok m (ma_wedges x) /\ sec_ok m (ma_colors x) /\ sec_ok m (ma_plane_indices x) /\
  sec_ok m (ma_planes x) /\ sec_ok m (ma_wedge_map x) /\ sec_ok m (ma_updates x) /\ sec_ok m (ma_triangle_edges x) /\
  sec_ok m (ma_edges x) /\ sec_ok m (ma_scores x).
Lemma map_fwd m off : m <= off <= len D -> fwd D u m (map_ok m) (map_load off).
Proof using HD HS.
  intros Ho. unfold map_load.
  do 10 (eapply fwd_bind; [exact HD|apply section_fwd, Ho|]; intros ? ?). apply fwd_ret; [exact HD|].
  unfold map_ok. cbn [ma_triangles ma_wedges ma_colors ma_plane_indices ma_planes ma_wedge_map ma_updates ma_triangle_edges ma_edges ma_scores].
  auto 20.
Qed.
Lemma at_fwd {A} m s (r : rd A) : sec_ok m s -> fwd D u m any r -> fwd D u m any (at_section s r).
Proof using HD.
  intros Hs Hr. unfold at_section. apply fwd_seq; [exact HD|apply beg_fwd, Hs|]. intros _. apply repM_fwd; assumption.
Qed.
Lemma sub_fwd m x mat : map_ok m x -> fwd D u m any (sub_load x mat).
Proof using HD.
  intros (H1 & H2 & H3 & H4 & H5 & H6 & _ & H8 & H9 & H10). unfold sub_load.
  repeat match goal with
  | |- fwd _ _ _ _ (bind (at_section _ _) _) => apply fwd_seq; [exact HD|apply at_fwd; [assumption|]|intros ?]
  end.
  all: apply fwd_of; [exact HD|]; unfold short3_load, short2_load, wedge_load, mplane_load; fsteps.
Qed.
Lemma subs_fwd m : forall maps mats, Forall (map_ok m) maps -> fwd D u m any (subs_load (combine maps mats)).
Proof using HD.
  intros maps mats H. revert mats. unfold subs_load. induction H as [|x l Hx Hl IH]; intros mats; cbn [combine mapM].
  { apply fwd_ret; [exact HD | exact I]. }
  destruct mats as [|y mats]; cbn [mapM]; [apply fwd_ret; [exact HD | exact I]|]. cbn [fst snd].
  apply fwd_seq; [exact HD|apply sub_fwd, Hx|]. intros ?. apply fwd_seq; [exact HD|apply IH|]. intros ?. apply fwd_ret; [exact HD | exact I].
Qed.
Lemma mrm_mats_fwd m n : fwd D u m any (mrm_mats_load n).
Proof using HD Ht.
  unfold mrm_mats_load. eapply fwd_bind; [exact HD|apply (open_fwd D HD u Ht)|]. intros h Hh. apply run_mats_fwd; assumption.
Qed.
Lemma mrm_section_fwd x m : fwd D u m any (mrm_section_load x).
Proof using HD HS Ht.
  unfold mrm_section_load.
  eapply fwd_ignore; [exact HD|apply fwd_ushort, HD|]. intros version.
  eapply fwd_bind; [exact HD|apply fwd_uint, HD|]. intros size Hsize. cbv beta in Hsize.
  eapply fwd_bind; [exact HD|apply tell_fwd|]. intros off Hoff. cbv beta in Hoff.
  apply fwd_seq; [exact HD|apply fwd_seek; [exact HD|clear -Hsize; pows; lia]|]. intros _.
  eapply fwd_ignore; [exact HD|apply fwd_ubyte, HD|]. intros n.
  eapply fwd_bind; [exact HD|apply section_fwd, Hoff|]. intros vs Hvs.
  eapply fwd_bind; [exact HD|apply section_fwd, Hoff|]. intros ns Hns.
  eapply fwd_bind; [exact HD|apply rep_ok, map_fwd, Hoff|]. intros maps Hmaps.
  apply fwd_seq; [exact HD|apply mrm_mats_fwd|]. intros mats.
  apply fwd_seq; [exact HD|apply fwd_of; [exact HD|destruct (_ || _)%bool; fsteps]|]. intros alpha.
  apply fwd_seq; [exact HD|apply fwd_of; [exact HD|apply fw_aabb]|]. intros bb.
  apply fwd_seq; [exact HD|apply obb_fwd; exact HD|]. intros ob.
  apply fwd_seq; [exact HD|apply (fwd_seek D HD u m 16); pows; lia|]. intros _.
  eapply fwd_bind; [exact HD|apply tell_fwd|]. intros fin Hfin. cbv beta in Hfin.
  apply fwd_seq; [exact HD|apply at_fwd; [exact Hvs|apply fwd_of; [exact HD|apply fw_vec3]]|]. intros ps.
  apply fwd_seq; [exact HD|apply at_fwd; [exact Hns|apply fwd_of; [exact HD|apply fw_vec3]]|]. intros nos.
  apply fwd_seq; [exact HD|apply subs_fwd, Hmaps|]. intros subs.
  apply fwd_seq; [exact HD| |intros _; apply fwd_ret; [exact HD | exact I]].
  assert (E : u32 fin = fin) by (unfold u32; apply N.mod_small; lia). rewrite E.
  rewrite <- (sint_small 64 fin) by (clear -Hfin HS; pows; lia). apply beg_fwd. clear -Hfin HS. pows. lia.
Qed.
Lemma mrm_fwd x m : fwd D u m any (mrm_load x).
Proof using HD HS Ht.
  unfold mrm_load. apply all_chunks_fwd; [exact HD|]. intros ty a p. unfold mrm_chunk.
  apply fwd_if; [exact HD| |apply fwd_of; [exact HD|fsteps]].
  apply fwd_seq; [exact HD|apply mrm_section_fwd|]. intros ?. apply fwd_ret; [exact HD | exact I].
Qed.
Lemma skin_nodes_fwd x m : fwd D u m any (skin_nodes_load x).
Proof using HD HS.
  unfold skin_nodes_load.
  eapply fwd_bind; [exact HD|apply fwd_uint, HD|]. intros size Hsize. cbv beta in Hsize.
  eapply fwd_bind; [exact HD|apply tell_fwd|]. intros here Hh. cbv beta in Hh. cbv zeta.
  assert (E : u64 (here + size) = here + size) by (unfold u64; apply N.mod_small; clear -Hh Hsize HS; pows; lia). rewrite E.
  apply fwd_seq; [exact HD|apply repM_fwd; [exact HD|apply fwd_of; [exact HD|unfold weights_load, weight_load; fsteps]]|]. intros ws.
  eapply fwd_ignore; [exact HD|apply tell_fwd|]. intros at_.
  apply fwd_seq; [exact HD|apply fwd_if; [exact HD|apply fwd_ret; [exact HD | exact I]|apply beg_fwd; clear -Hh Hsize HS; pows; lia]|]. intros _.
  apply fwd_seq; [exact HD|apply fwd_of; [exact HD|fsteps]|]. intros n.
  apply fwd_seq; [exact HD|apply fwd_of; [exact HD|unfold wnormal_load; fsteps]|]. intros ns.
  apply fwd_seq; [exact HD|apply fwd_of; [exact HD|fsteps]|]. intros k.
  apply fwd_seq; [exact HD|apply fwd_of; [exact HD|fsteps]|]. intros nodes.
  apply fwd_seq; [exact HD|apply repM_fwd; [exact HD|apply obb_fwd, HD]|]. intros boxes. apply fwd_ret; [exact HD | exact I].
Qed.
Lemma skin_fwd x m : fwd D u m any (skin_load x).
Proof using HD HS Ht.
  unfold skin_load. apply all_chunks_fwd; [exact HD|]. intros ty a p. unfold skin_chunk.
  apply fwd_if; [exact HD|apply fwd_of; [exact HD|fsteps]|].
  apply fwd_if; [exact HD|apply fwd_seq; [exact HD|apply mrm_section_fwd|intros ?; apply fwd_ret; [exact HD | exact I]]|].
  apply fwd_if; [exact HD|apply fwd_seq; [exact HD|apply skin_nodes_fwd|intros ?; apply fwd_ret; [exact HD | exact I]]|].
  apply fwd_of; [exact HD|fsteps].
Qed.
Lemma morph_fwd x m : fwd D u m any (morph_load x).
Proof using HD HS Ht.
  unfold morph_load. apply all_chunks_fwd; [exact HD|]. intros ty a p. unfold morph_chunk.
  apply fwd_if; [exact HD|apply fwd_of; [exact HD|unfold msource_load; fsteps]|].
  apply fwd_if; [exact HD|apply fwd_of; [exact HD|fsteps]|].
  apply fwd_if; [exact HD|apply fwd_seq; [exact HD|apply mrm_section_fwd|intros ?; apply fwd_ret; [exact HD | exact I]]|].
  apply fwd_if; [exact HD|apply fwd_of; [exact HD|fsteps]|].
  apply fwd_if; [exact HD|apply fwd_of; [exact HD|unfold manim_load; fsteps]|].
  apply fwd_of; [exact HD|fsteps].
Qed.
Lemma mm_fwd x m : u = true -> fwd D u m any (mm_load x).
Proof using HD HS Ht.
  intros Eu. unfold mm_load. intros p Hp.
  match goal with |- match bind (read_chunked_t ?n ?cb ?a) _ _ with _ => _ end => pose proof (all_chunks_t_fwd D HD u cb m a) as R end.
  match type of R with ?P -> _ => assert (HP : P) end.
  2:{ specialize (R HP p Hp). cbn [rdata rpos] in *. unfold bind. destruct (read_chunked_t _ _ _ _) as [[a s]| | |]; auto. }
  clear R. intros ty fin [names y] q _ Hq Hfin. apply at_of; [exact Hq|]. unfold mm_chunk.
  assert (Ret0 : forall {A} d (a : A), fwd D u q (fun r => q <= snd (fst r) < 2 ^ 63) (ret (d : bool, fin, a))).
  { intros A d a. apply fwd_ret; [exact HD|]. exact Hfin. }
  apply fwd_if; [exact HD|apply fwd_seq; [exact HD|apply fwd_of; [exact HD|fsteps]|intros ?; apply Ret0]|].
  apply fwd_if; [exact HD|apply fwd_seq; [exact HD|apply fwd_of; [exact HD|fsteps]|intros ?;
     apply fwd_seq; [exact HD|apply fwd_of; [exact HD|fsteps]|intros ?; apply Ret0]]|].
  apply fwd_if; [exact HD|apply fwd_seq; [exact HD|apply fwd_of; [exact HD|fsteps]|intros ?;
     apply fwd_seq; [exact HD|apply fwd_of; [exact HD|fsteps]|intros ?; apply Ret0]]|].
  apply fwd_if; [exact HD| |].
  { destruct (nth_N names _) as [name|]; [|rewrite Eu; apply fwd_undef, HD].
    apply fwd_seq; [exact HD|apply mrm_section_fwd|intros ?; apply Ret0]. }
  apply fwd_if; [exact HD| |apply fwd_if; [exact HD|apply Ret0|apply Ret0]].
  apply fwd_seq; [exact HD|apply fwd_of; [exact HD|fsteps]|intros c].
  apply fwd_seq; [exact HD|apply fwd_of; [exact HD|fsteps]|intros n].
  apply fwd_seq; [exact HD| |intros l].
  { generalize (resize n (mm_skins y) skin_new). intros sk. induction sk as [|s sk IH]; cbn [mapM]; [apply fwd_ret; [exact HD | exact I]|].
    apply fwd_seq; [exact HD|apply skin_fwd|intros ?]. apply fwd_seq; [exact HD|exact IH|intros ?]. apply fwd_ret; [exact HD | exact I]. }
  eapply fwd_bind; [exact HD|apply tell_fwd|]. intros here Hh. cbv beta in Hh. apply fwd_ret; [exact HD|]. cbn [fst snd]. clear -Hh HS. pows. lia.
Qed.
Lemma model_fwd h x m : u = true -> fwd D u m any (model_load h x).
Proof using HD HS Ht.
  intros Eu. unfold model_load. apply fwd_seq; [exact HD|apply fwd_of; [exact HD|apply hier_forward]|intros h'].
  apply fwd_seq; [exact HD|apply mm_fwd, Eu|intros ?]. apply fwd_ret; [exact HD | exact I].
Qed.
End Reads.
