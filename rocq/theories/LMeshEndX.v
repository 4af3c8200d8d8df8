(** Meshes that are read for ever. *)

From Coq Require Import String Lia ZifyN ZifyBool ZifyNat.
From Verif Require Import MBase MStream SStream LBase LStream LStreamHist MBoxes MTexture MText MClasses MArchive SArchive SFormat LFormat.
From Verif Require Import MVob MVobs MNpc MCutscene MMaterial MWorld MLib SArchEnd LArchEnd LArchEndX MMesh MModel MMrm LModel LMeshIO SMeshEnd LMeshEnd LMrmEnd.
Local Open Scope N_scope.
Local Open Scope m_scope.

Definition line (s : string) : bytes := lit s ++ nl.
Definition text_material : bytes :=
  line "m=string:M" ++ line "[% zCMaterial 17408 0]" ++
  line "name=string:M" ++ line "matGroup=enum:0" ++ line "color=color:1 2 3 4" ++ line "smoothAngle=float:0" ++
  line "texture=string:T" ++ line "texScale=string:1 1" ++ line "texAniFPS=float:0" ++ line "texAniMapMode=enum:0" ++
  line "texAniMapDir=string:0 0" ++ line "noCollDet=bool:0" ++ line "noLightmap=bool:0" ++ line "lodDontCollapse=bool:0" ++
  line "detailObject=string:" ++ line "defaultMapping=rawFloat:0 0 ".
Definition text_mesh : bytes :=
  le_enc 2 M_MATERIAL ++ le_enc 4 0 ++ top_lines "ASCII" ++ count_lines ++ le_enc 4 1 ++ text_material.
Definition text_mrm : bytes :=
  le_enc 2 R_MESH ++ le_enc 4 0 ++ le_enc 2 773 ++ le_enc 4 0 ++ le_enc 1 1 ++ zeros 16 ++ zeros 80 ++
  top_lines "ASCII" ++ count_lines ++ text_material.
Lemma stuck (D : bytes) : 
  ar_begin AAscii (mkRar (mkR D (len D)) []) = Ret (@None ohead, mkRar (mkR D (len D)) []) ->
  ar_end AAscii (mkRar (mkR D (len D)) []) = Ret (false, mkRar (mkR D (len D)) []) ->
  ar_skip_entry AAscii (mkRar (mkR D (len D)) []) = Ret (tt, mkRar (mkR D (len D)) []) ->
  forall n, skip_loop n AAscii 1 (mkRar (mkR D (len D)) []) = Fuel.
Proof.
  intros E1 E2 E3. induction n as [|n IH]; [reflexivity|]. cbn [skip_loop]. unfold bind at 1. rewrite E1.
  unfold bind at 1. unfold bind at 1. rewrite E2. unfold bind at 1. rewrite E3. exact IH.
Qed.
Lemma text_mesh_loops : exists b, len b < 600 /\
  (forall m wide, mesh_load m wide (mkR b 0) = Fuel) /\
  (forall n, skip_loop n AAscii 1 (mkRar (mkR b (len b)) []) = Fuel).
Proof.
  exists text_mesh. split; [vm_compute; reflexivity|]. split; [intros m wide; vm_compute; reflexivity|].
  apply stuck; vm_compute; reflexivity.
Qed.
Lemma text_mrm_loops : exists b, len b < 600 /\
  (forall m, mrm_load m (mkR b 0) = Fuel) /\
  (forall n, skip_loop n AAscii 1 (mkRar (mkR b (len b)) []) = Fuel).
Proof.
  exists text_mrm. split; [vm_compute; reflexivity|]. split; [intros m; vm_compute; reflexivity|].
  apply stuck; vm_compute; reflexivity.
Qed.
(** The same material with its end is loaded. *)
Definition whole_text_mesh : bytes := text_mesh ++ line "[]".

(** ** Whether bytes occur *)
Fixpoint occurs (pat b : bytes) : bool :=
  bytes_eqb (take (len pat) b) pat || match b with [] => false | _ :: b' => occurs pat b' end.
Lemma occurs_lacks pat : forall b, occurs pat b = false -> lacks pat b.
Proof.
  induction b as [|x b IH]; intros H i; cbn [occurs] in H; apply Bool.orb_false_iff in H as [H1 H2].
  - rewrite drop_nil. intros E. apply bytes_eqb_spec in E. congruence.
  - intros E. destruct (N.eq_dec i 0) as [->|Hi].
    + rewrite drop_0 in E. apply bytes_eqb_spec in E. congruence.
    + apply (IH H2 (i - 1)). transitivity (take (len pat) (drop i (x :: b))); [|exact E]. f_equal. rewrite !drop_skipn. replace (N.to_nat i) with (S (N.to_nat (i - 1))) by lia. reflexivity.
Qed.
(** ** The theorems *)
Lemma not_fuel {A} D p ok (r : rd A) : fwd D true 0 ok r -> p <= len D -> r (mkR D p) <> Fuel.
Proof. intros H Hp E. specialize (H p ltac:(lia)). rewrite E in H. exact H. Qed.
Lemma fwd_answers {A} D p ok (r : rd A) : fwd D false 0 ok r -> p <= len D -> answers (r (mkR D p)).
Proof.
  intros H Hp. specialize (H p ltac:(lia)). destruct (r (mkR D p)) as [x|e| |]; [left; eauto|right; eauto|discriminate|contradiction].
Qed.
Lemma mesh_ends b p m wide : len b < 2 ^ 62 -> p <= len b -> lacks (lit "ASCII") b -> mesh_load m wide (mkR b p) <> Fuel.
Proof.
  intros Hl Hp Ha. apply (not_fuel b p any); [|exact Hp]. apply mesh_fwd; [exact Hl|split; [exact Ha|discriminate]|discriminate].
Qed.
Lemma mesh_safe b p m wide : len b < 2 ^ 62 -> p <= len b -> lacks (lit "ASCII") b -> lacks (lit "BIN_SAFE") b ->
  ~ wrong_lightmap b -> answers (mesh_load m wide (mkR b p)).
Proof.
  intros Hl Hp Ha Hb Hc. apply (fwd_answers b p any); [|exact Hp]. apply mesh_fwd; [exact Hl|split; [exact Ha|intros _; exact Hb]|intros _; exact Hc].
Qed.
Lemma model_ends b p : len b < 2 ^ 32 -> p <= len b -> lacks (lit "ASCII") b ->
  (forall m, mrm_load m (mkR b p) <> Fuel) /\ (forall k, skin_load k (mkR b p) <> Fuel) /\
  (forall m, morph_load m (mkR b p) <> Fuel) /\ (forall m, mm_load m (mkR b p) <> Fuel) /\
  (forall h m, model_load h m (mkR b p) <> Fuel).
Proof.
  intros Hl Hp Ha. assert (T : told true b) by (split; [exact Ha|discriminate]).
  repeat split; intros; apply (not_fuel b p any); try exact Hp;
    [apply mrm_fwd | apply skin_fwd | apply morph_fwd | apply mm_fwd | apply model_fwd]; try assumption; reflexivity.
Qed.
Lemma model_safe b p : len b < 2 ^ 32 -> p <= len b -> lacks (lit "ASCII") b -> lacks (lit "BIN_SAFE") b ->
  (forall m, answers (mrm_load m (mkR b p))) /\ (forall k, answers (skin_load k (mkR b p))) /\
  (forall m, answers (morph_load m (mkR b p))).
Proof.
  intros Hl Hp Ha Hb. assert (T : told false b) by (split; [exact Ha|intros _; exact Hb]).
  repeat split; intros; apply (fwd_answers b p any); try exact Hp; [apply mrm_fwd | apply skin_fwd | apply morph_fwd]; assumption.
Qed.
(** ** Deciding whether a lightmap is wrong *)
Fixpoint places (pat b : bytes) (i : N) : list N :=
  (if bytes_eqb (take (len pat) b) pat then [i] else []) ++ match b with [] => [] | _ :: b' => places pat b' (i + 1) end.
Lemma places_in pat : pat <> [] -> forall b i p, take (len pat) (drop p b) = pat -> In (i + p) (places pat b i).
Proof.
  intros Hn. induction b as [|x b IH]; intros i p E; cbn [places].
  - rewrite drop_nil, take_nil in E. congruence.
  - apply in_or_app. destruct (N.eq_dec p 0) as [->|Hp].
    + left. rewrite drop_0 in E. apply bytes_eqb_spec in E. rewrite E. left. lia.
    + right. replace (i + p) with (i + 1 + (p - 1)) by lia. apply IH.
      transitivity (take (len pat) (drop p (x :: b))); [|exact E]. f_equal. rewrite !drop_skipn.
      replace (N.to_nat p) with (S (N.to_nat (p - 1))) by lia. reflexivity.
Qed.
Definition right_at (b : bytes) (p : N) : bool :=
  match read_uint (mkR b (N.min (p + 6) (len b))) with
  | Ret (n, s1) =>
      match repM (N.to_nat n) (tex_load tex_new) s1 with
      | Ret (_, s2) =>
          match read_uint s2 with
          | Ret (k, s3) =>
              forallb (fun j => match read_uint (mkR b (N.min (rpos s3 + 40 * N.of_nat j + 36) (len b))) with
                                | Ret (i, _) => i <? n | _ => true end) (seq 0 (N.to_nat k))
          | _ => true
          end
      | _ => true
      end
  | _ => true
  end.
Lemma right_lightmaps b : forallb (right_at b) (places (le_enc 2 45094) b 0) = true -> ~ wrong_lightmap b.
Proof.
  intros H (q & n & s1 & ts & s2 & k & s3 & j & i & s4 & (p & Hp & ->) & E1 & E2 & E3 & Hj & E4 & Hi).
  rewrite forallb_forall in H. specialize (H p). rewrite <- (N.add_0_l p) in H at 1.
  assert (Hr : right_at b p = true).
  { apply H. apply places_in; [discriminate|]. exact Hp. }
  clear H. unfold right_at in Hr. rewrite E1, E2, E3 in Hr. rewrite forallb_forall in Hr. specialize (Hr (N.to_nat j)).
  rewrite N2Nat.id, E4 in Hr. assert (HL : i <? n = true) by (apply Hr; apply in_seq; lia). apply N.ltb_lt in HL. lia.
Qed.
