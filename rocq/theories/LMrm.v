(** Multi-resolution meshes: the loader reads every file laid out as the format says. *)

From Coq Require Import Lia ZifyN ZifyBool ZifyNat.
From Verif Require Import MBase MStream SStream MBoxes SBoxes MTexture STexture MText MClasses MArchive SArchive MVob
  MMaterial MModel SFormat SBsp MMesh SMesh MMrm SMrm LBase LStream LStreamHist LBoxes LFormat LModel LTexture LText LArchW LArchH LBsp LEnds LMesh LMeshMat LMeshIO.
Local Open Scope N_scope.
Local Open Scope m_scope.

(* ------------------------------------------------------------------ *)
(** * Steps on fixed data *)

Lemma run_bind {A B} (P : bytes -> Prop) (m : rd A) (k : A -> rd B) bs a pre post D :
  reads_if P m bs a -> P post -> D = pre ++ bs ++ post -> len D < max_size ->
  bind m k (mkR D (len pre)) = k a (mkR D (len (pre ++ bs))).
Proof. intros H HP -> Hl. unfold bind. rewrite (H pre post HP Hl). rewrite len_app. reflexivity. Qed.

(** Readers that give the same value wherever they start. *)
Definition any_start {A} (D : bytes) (r : rd A) (a : A) : Prop :=
  forall p, p <= len D -> exists q, r (mkR D p) = Ret (a, mkR D q) /\ q <= len D.
Lemma any_bind {A B} D (m : rd A) (k : A -> rd B) a b : any_start D m a -> any_start D (k a) b -> any_start D (bind m k) b.
Proof.
  intros Hm Hk p Hp. destruct (Hm p Hp) as (q & E & Hq). unfold bind. rewrite E. apply Hk, Hq.
Qed.
Lemma any_ret {A} D (a : A) : any_start D (ret a) a.
Proof. intros p Hp. exists p. split; [reflexivity | exact Hp]. Qed.

Lemma rd_seek_skip D p n : p + n <= len D -> len D < max_size -> rd_seek (Z.of_N n) CUR (mkR D p) = Ret (tt, mkR D (p + n)).
Proof.
  intros H1 H2. unfold rd_seek, seek_internal. cbn [rdata rpos].
  rewrite sint_small by (pows; lia). rewrite ssize_add_ok by (pows; lia). cbn [obind].
  rewrite uint_small by (pows; lia).
  replace (Z.to_N (Z.of_N p + Z.of_N n)) with (p + n) by lia.
  destruct (N.ltb_spec (len D) (p + n)); [lia|]. reflexivity.
Qed.
Lemma reads_skip bs n : n = len bs -> reads (rd_seek (Z.of_N n) CUR) bs tt.
Proof.
  intros -> pre post _ Hl. apply rd_seek_skip; [rewrite !len_app; lia | exact Hl].
Qed.

(** ** Lists of the content *)
Definition reads_all {A} (r : rd A) (enc : A -> bytes) (ok : A -> Prop) : Prop := forall x, ok x -> reads r (enc x) x.

Lemma at_section_any {A} (r : rd A) enc ok P content Q s l : reads_all r enc ok -> Forall ok l -> lists enc content s l ->
  len (P ++ content ++ Q) < max_size ->
  any_start (P ++ content ++ Q) (at_section (u64 (fst s + len P), snd s) r) l.
Proof.
  intros Hr Hl (H1 & H2 & H3 & a & b & Hc & Ha) HD p Hp. unfold at_section. cbn [fst snd].
  rewrite !len_app in HD. assert (Hab : len content = len a + len (flat_map enc l) + len b) by (rewrite Hc, !len_app; lia).
  rewrite u64_small by (pows; lia). rewrite sint_small by (pows; lia).
  unfold bind at 1. rewrite rd_seek_beg by (rewrite ?len_app; lia).
  set (D := P ++ content ++ Q).
  assert (ED : D = (P ++ a) ++ flat_map enc l ++ (b ++ Q)) by (unfold D; rewrite Hc, <- !app_assoc; reflexivity).
  assert (Ep : fst s + len P = len (P ++ a)) by (rewrite len_app; lia). rewrite Ep, ED.
  pose proof (reads_count r enc l (snd s) H3) as R.
  assert (Rr : reads (repM (N.to_nat (snd s)) r) (flat_map enc l) l).
  { apply R. intros x Hx. apply Hr. rewrite Forall_forall in Hl. apply Hl, Hx. }
  eexists. split; [apply Rr; [exact I | rewrite <- ED; unfold D; rewrite !len_app; lia]|].
  rewrite !len_app. lia.
Qed.

(** ** The elements *)
Lemma v3_reads : reads_all read_vec3 v3_bytes vec3_ok.
Proof. intros v H. apply vec3_reads, H. Qed.
Lemma word_reads : reads_all read_float word_bytes f32.
Proof. intros v H. apply reads_float, H. Qed.
Lemma short_reads : reads_all read_ushort short_bytes (fun n => n < 2 ^ 16).
Proof. intros v H. apply reads_ushort, H. Qed.
Lemma short3_reads : reads_all short3_load short3_bytes short3_ok.
Proof. intros [a b c] (Ha & Hb & Hc). unfold short3_load, short3_bytes. cbn [s3a s3b s3c] in *. rsteps. Qed.
Lemma short2_reads : reads_all short2_load short2_bytes short2_ok.
Proof. intros [a b] (Ha & Hb). unfold short2_load, short2_bytes. cbn [s2a s2b] in *. rsteps. Qed.
Lemma mplane_reads : reads_all mplane_load mplane_bytes mplane_ok.
Proof.
  intros [d n] (Ha & Hb). unfold mplane_load, mplane_bytes. cbn [mp_distance mp_normal] in *.
  eapply reads_bind; [apply reads_float, Ha|]. eapply reads_if_last; [apply vec3_reads, Hb|]. apply reads_ret.
Qed.
Lemma wedge_reads w p : wedge_ok w -> p < 2 ^ 16 -> reads wedge_load (wedge_bytes (w, p)) w.
Proof.
  destruct w as [n t i]. intros (Ha & Hb & Hc) Hp. unfold wedge_load, wedge_bytes. cbn [fst snd we_normal we_texture we_index] in *.
  eapply reads_bind; [apply vec3_reads, Ha|]. eapply reads_bind; [apply vec2_reads, Hb|].
  eapply reads_bind; [apply reads_ushort, Hc|]. eapply reads_if_last; [apply reads_ushort, Hp|]. apply reads_ret.
Qed.
Lemma wedges_reads : forall l pads, Forall wedge_ok l -> Forall (fun p => p < 2 ^ 16) pads -> len pads = len l ->
  reads (repM (length l) wedge_load) (flat_map wedge_bytes (combine l pads)) l.
Proof.
  induction l as [|w l IH]; intros [|p pads] Hl Hp Hn; rewrite ?len_cons, ?len_nil in Hn; try lia; cbn [combine flat_map length repM].
  - apply reads_ret.
  - pose proof (Forall_inv Hl). pose proof (Forall_inv_tail Hl). pose proof (Forall_inv Hp). pose proof (Forall_inv_tail Hp).
    eapply reads_bind; [apply wedge_reads; assumption|]. eapply reads_if_last; [apply IH; [assumption..| lia]|]. apply reads_ret.
Qed.
Lemma box_bytes_eq b : box_bytes b = aabb_enc b.
Proof. reflexivity. Qed.
Lemma tree_bytes_eq : forall o, tree_bytes o = obb_enc o.
Proof. reflexivity. Qed.

(** ** Sub-meshes *)
Definition shifted (off : N) (s : msection) : msection := (u64 (fst s + off), snd s).
Definition shift_map (off : N) (m : submap) : submap :=
  mkMap (shifted off (ma_triangles m)) (shifted off (ma_wedges m)) (shifted off (ma_colors m)) (shifted off (ma_plane_indices m))
    (shifted off (ma_planes m)) (shifted off (ma_wedge_map m)) (shifted off (ma_updates m)) (shifted off (ma_triangle_edges m))
    (shifted off (ma_edges m)) (shifted off (ma_scores m)).
Lemma section_load_reads off s : fst s < 2 ^ 32 -> snd s < 2 ^ 32 -> reads (section_load off) (entry_bytes s) (shifted off s).
Proof. intros H1 H2. unfold section_load, entry_bytes. rsteps. Qed.
Lemma map_load_reads content off m s : sub_at content m s -> reads (map_load off) (map_bytes m) (shift_map off m).
Proof.
  intros ((A1 & A2 & _) & (pads & _ & _ & B1 & B2 & _) & (C1 & C2 & _) & (D1 & D2 & _) & (E1 & E2 & _) & (F1 & F2 & _) &
    (G1 & G2 & _) & (H1 & H2 & _) & (I1 & I2 & _) & J1 & J2).
  unfold map_load, map_bytes. cbn [flat_map]. 
  repeat (eapply reads_bind; [apply section_load_reads; assumption|]).
  eapply reads_cast; [apply reads_ret | reflexivity | reflexivity].
Qed.
Lemma maps_load_reads content off maps subs : Forall2 (sub_at content) maps subs ->
  reads (repM (length subs) (map_load off)) (flat_map map_bytes maps) (map (shift_map off) maps).
Proof.
  induction 1 as [|m s maps subs Hs Hr IH]; cbn [length repM flat_map map]; [apply reads_ret|].
  eapply reads_bind; [eapply map_load_reads, Hs|]. eapply reads_if_last; [apply IH|]. apply reads_ret.
Qed.

Lemma sub_load_any P content Q m s : sub_ok s -> sub_at content m s -> len (P ++ content ++ Q) < max_size ->
  any_start (P ++ content ++ Q) (sub_load (shift_map (len P) m) (sm_mat s)) s.
Proof.
  intros (K1 & K2 & K3 & K4 & K5 & K6 & K7 & K8 & K9) (A & (pads & Hp & Hn & B) & C & D & E & F & G & H & I & _) HD.
  unfold sub_load. cbn [shift_map ma_triangles ma_wedges ma_colors ma_plane_indices ma_planes ma_wedge_map ma_triangle_edges ma_edges ma_scores].
  eapply any_bind; [eapply at_section_any; [apply short3_reads | exact K1 | exact A | exact HD]|].
  eapply any_bind with (a := sm_wedges s).
  { destruct B as (B1 & B2 & B3 & a & b & Bc & Ba). intros p Hp'. unfold at_section, shifted. cbn [fst snd].
    rewrite !len_app in HD. assert (Hab : len content = len a + len (flat_map wedge_bytes (combine (sm_wedges s) pads)) + len b) by (rewrite Bc, !len_app; lia).
    rewrite u64_small by (pows; lia). rewrite sint_small by (pows; lia).
    unfold bind at 1. rewrite rd_seek_beg by (rewrite ?len_app; lia).
    set (DD := P ++ content ++ Q).
    assert (ED : DD = (P ++ a) ++ flat_map wedge_bytes (combine (sm_wedges s) pads) ++ (b ++ Q)) by (unfold DD; rewrite Bc, <- !app_assoc; reflexivity).
    assert (Ep : fst (ma_wedges m) + len P = len (P ++ a)) by (rewrite len_app; lia). rewrite Ep, ED.
    assert (Es : N.to_nat (snd (ma_wedges m)) = length (sm_wedges s)).
    { rewrite B3. unfold len in *. rewrite combine_length. lia. }
    rewrite Es. eexists. split; [apply wedges_reads; [exact K2 | exact Hp | exact Hn | exact Logic.I | rewrite <- ED; unfold DD; rewrite !len_app; lia]|].
    rewrite !len_app. lia. }
  eapply any_bind; [eapply at_section_any; [apply word_reads | exact K3 | exact C | exact HD]|].
  eapply any_bind; [eapply at_section_any; [apply short_reads | exact K4 | exact D | exact HD]|].
  eapply any_bind; [eapply at_section_any; [apply mplane_reads | exact K5 | exact E | exact HD]|].
  eapply any_bind; [eapply at_section_any; [apply short3_reads | exact K6 | exact F | exact HD]|].
  eapply any_bind; [eapply at_section_any; [apply short2_reads | exact K7 | exact G | exact HD]|].
  eapply any_bind; [eapply at_section_any; [apply word_reads | exact K8 | exact H | exact HD]|].
  eapply any_bind; [eapply at_section_any; [apply short_reads | exact K9 | exact I | exact HD]|].
  destruct s. apply any_ret.
Qed.
Lemma subs_load_any P content Q maps subs : Forall2 (sub_at content) maps subs -> Forall sub_ok subs ->
  len (P ++ content ++ Q) < max_size ->
  any_start (P ++ content ++ Q) (subs_load (combine (map (shift_map (len P)) maps) (map sm_mat subs))) subs.
Proof.
  intros H Hk HD. unfold subs_load. induction H as [|m s maps subs Hs Hr IH]; cbn [map combine mapM]; [apply any_ret|].
  cbn [fst snd]. eapply any_bind; [apply sub_load_any; [apply (Forall_inv Hk) | exact Hs | exact HD]|].
  eapply any_bind; [apply IH, (Forall_inv_tail Hk)|]. apply any_ret.
Qed.

(** ** The materials *)
Lemma mrm_mats_reads g e k l : env_ok e -> Forall (mat_ok g) l -> k < 1000000000 -> len l < 2 ^ 31 ->
  len (mats_archive g e k l) < 2 ^ 32 ->
  reads_if (fun post => match l with [] => count_ok post | _ => True end) (mrm_mats_load (len l)) (mats_archive g e k l) l.
Proof.
  intros He Hf Hk Hn Hs. unfold mrm_mats_load, mats_archive. rewrite app_assoc.
  eapply reads_if_bind with (P1 := count_ok); [apply ar_open_reads; [exact He | exact Hk] | cbv beta |].
  2:{ intros post HP. destruct l as [|x l]; [exact HP|]. cbn [mats_bytes]. unfold mat_bytes.
      pose proof (Forall_inv Hf) as Hx. destruct Hx as [Hx _]. unfold save_material in Hx. cbn [entries_of flat_map app wS forallb] in Hx.
      apply andb_prop in Hx as [Hx _]. cbn [entry_ok] in Hx.
      destruct (material_name x) as [|c nm] eqn:En; cbn [app].
      - assert (E : exists c h, mat_head g 0 (mat_size g x) = c :: h) by (eexists _, _; reflexivity).
        destruct E as (c & h & ->). cbn [app count_ok]. discriminate.
      - assert (c <> x0a).
        { intros ->. cbn in Hx. discriminate. }
        destruct nm as [|c2 nm]; cbn [app count_ok]; assumption. }
  cbn [read_head ah_format].
  intros pre post _ Hl. unfold mats_archive in Hs. rewrite !len_app in Hs.
  replace (N.to_nat (len l)) with (length l) by (unfold len; lia).
  pose proof (mats_rep_reads g l 0 Hf) as H. rewrite N.add_0_l in H.
  specialize (H ltac:(pows; lia) ltac:(lia) pre post [] Hl). unfold prun in H. rewrite H. reflexivity.
Qed.

(** ** A section *)
Lemma reads_alpha version b m : has_alpha version = true ->
  reads (if has_alpha version then let* x := read_byte in ret (if (x =? 0)%Z then 0 else 1) else ret m) [b]
        (if beq b x00 then 0 else 1).
Proof.
  intros ->. eapply reads_if_last with (a := sint 8 (b2n b)).
  - unfold read_byte. eapply reads_if_last with (a := b2n b); [|apply reads_ret].
    assert (E : [b] = le_enc 1 (b2n b)) by (unfold le_enc; rewrite n2b_b2n; reflexivity).
    rewrite E. apply reads_ubyte. apply b2n_bound.
  - eapply reads_cast; [apply reads_ret | reflexivity|]. destruct b; reflexivity.
Qed.

Lemma mrm_section_any g m0 m bs : mrm_ok g m -> mrm_section g (mr_alpha m0) m bs ->
  reads_part (mrm_section_load m0) bs m.
Proof.
  intros (K1 & K2 & K3 & K4 & K5 & K6 & K7 & K8)
    (version & content & vs & ns & maps & e & k & alpha & unused & Hv & Hc & He & Hk & Hu & Har & Hvs & Hns & Hsubs & Ha & Hlf & ->)
    pre post Hl.
  assert (Lm : len (mr_materials m) = len (mr_subs m)) by (rewrite <- K5; unfold len; rewrite map_length; reflexivity).
  set (arch := mats_archive g e k (mr_materials m)) in *.
  match type of Hl with len ?d < _ => set (D := d) in * end.
  unfold mrm_section_load.
  rewrite (run_bind (fun _ => True) _ _ (le_enc 2 version) version _
    (le_enc 4 (len content) ++ content ++ le_enc 1 (len (mr_subs m)) ++ entry_bytes vs ++ entry_bytes ns ++ flat_map map_bytes maps ++
     arch ++ alpha ++ box_bytes (mr_bbox m) ++ tree_bytes (mr_obb m) ++ unused ++ post));
    [|apply reads_ushort, Hv | exact I | unfold D; rewrite <- !app_assoc; reflexivity | exact Hl].
  rewrite (run_bind (fun _ => True) _ _ (le_enc 4 (len content)) (len content) _
    (content ++ le_enc 1 (len (mr_subs m)) ++ entry_bytes vs ++ entry_bytes ns ++ flat_map map_bytes maps ++
     arch ++ alpha ++ box_bytes (mr_bbox m) ++ tree_bytes (mr_obb m) ++ unused ++ post));
    [|apply reads_uint, Hc | exact I | unfold D; rewrite <- !app_assoc; reflexivity | exact Hl].
  set (P := (pre ++ le_enc 2 version) ++ le_enc 4 (len content)).
  unfold bind at 1. unfold rd_tell at 1. cbn [rpos].
  rewrite (run_bind (fun _ => True) _ _ content tt _
    (le_enc 1 (len (mr_subs m)) ++ entry_bytes vs ++ entry_bytes ns ++ flat_map map_bytes maps ++
     arch ++ alpha ++ box_bytes (mr_bbox m) ++ tree_bytes (mr_obb m) ++ unused ++ post));
    [|apply reads_skip; reflexivity | exact I | unfold D, P; rewrite <- !app_assoc; reflexivity | exact Hl].
  rewrite (run_bind (fun _ => True) _ _ (le_enc 1 (len (mr_subs m))) (len (mr_subs m)) _
    (entry_bytes vs ++ entry_bytes ns ++ flat_map map_bytes maps ++
     arch ++ alpha ++ box_bytes (mr_bbox m) ++ tree_bytes (mr_obb m) ++ unused ++ post));
    [|apply reads_ubyte, K6 | exact I | unfold D, P; rewrite <- !app_assoc; reflexivity | exact Hl].
  rewrite (run_bind (fun _ => True) _ _ (entry_bytes vs) (shifted (len P) vs) _
    (entry_bytes ns ++ flat_map map_bytes maps ++
     arch ++ alpha ++ box_bytes (mr_bbox m) ++ tree_bytes (mr_obb m) ++ unused ++ post));
    [|apply section_load_reads; apply Hvs | exact I | unfold D, P; rewrite <- !app_assoc; reflexivity | exact Hl].
  rewrite (run_bind (fun _ => True) _ _ (entry_bytes ns) (shifted (len P) ns) _
    (flat_map map_bytes maps ++
     arch ++ alpha ++ box_bytes (mr_bbox m) ++ tree_bytes (mr_obb m) ++ unused ++ post));
    [|apply section_load_reads; apply Hns | exact I | unfold D, P; rewrite <- !app_assoc; reflexivity | exact Hl].
  replace (N.to_nat (len (mr_subs m))) with (length (mr_subs m)) by (unfold len; lia).
  rewrite (run_bind (fun _ => True) _ _ (flat_map map_bytes maps) (map (shift_map (len P)) maps) _
    (arch ++ alpha ++ box_bytes (mr_bbox m) ++ tree_bytes (mr_obb m) ++ unused ++ post));
    [|apply maps_load_reads with (content := content); exact Hsubs | exact I | unfold D, P; rewrite <- !app_assoc; reflexivity | exact Hl].
  rewrite (run_bind (fun post => match mr_materials m with [] => count_ok post | _ => True end) _ _ arch (mr_materials m) _
    (alpha ++ box_bytes (mr_bbox m) ++ tree_bytes (mr_obb m) ++ unused ++ post));
    [|rewrite <- Lm; apply mrm_mats_reads; [exact He | exact K4 | exact Hk | rewrite Lm; revert K6; pows; lia | exact Har]
     | | unfold D, P; rewrite <- !app_assoc; reflexivity | exact Hl].
  2:{ destruct (mr_materials m); [|exact I]. specialize (Hlf eq_refl). revert Hlf. rewrite box_bytes_eq.
      assert (Eb : exists c1 c2 r, aabb_enc (mr_bbox m) = c1 :: c2 :: r) by (eexists _, _, _; reflexivity).
      destruct Eb as (c1 & c2 & r & ->). destruct alpha as [|a1 [|a2 al]]; cbn [app hd count_ok]; auto. }
  fold (has_alpha version).
  assert (EA : exists P2 post2, D = P2 ++ (box_bytes (mr_bbox m) ++ tree_bytes (mr_obb m) ++ unused) ++ post2 /\
    forall B (f : N -> rd B), bind (if has_alpha version then let* x := read_byte in ret (if (x =? 0)%Z then 0 else 1) else ret (mr_alpha m0)) f
      (mkR D (len (((((((P ++ content) ++ le_enc 1 (len (mr_subs m))) ++ entry_bytes vs) ++ entry_bytes ns) ++ flat_map map_bytes maps) ++ arch)))) =
      f (mr_alpha m) (mkR D (len P2))).
  { destruct (has_alpha version) eqn:Eh.
    - destruct Ha as (b & -> & ->).
      exists ((((((((P ++ content) ++ le_enc 1 (len (mr_subs m))) ++ entry_bytes vs) ++ entry_bytes ns) ++ flat_map map_bytes maps) ++ arch)) ++ [b]), post.
      split; [unfold D, P; rewrite <- !app_assoc; reflexivity|]. intros B f.
      pose proof (reads_alpha version b (mr_alpha m0) Eh) as R. rewrite Eh in R.
      eapply run_bind; [exact R | exact I | unfold D, P; rewrite <- !app_assoc; reflexivity | exact Hl].
    - destruct Ha as (-> & ->). eexists _, post. split; [|intros B f; reflexivity].
      unfold D, P; rewrite <- !app_assoc; reflexivity. }
  destruct EA as (P2 & post2 & ED & EA). rewrite EA. clear EA.
  rewrite (run_bind (fun _ => True) _ _ (box_bytes (mr_bbox m)) (mr_bbox m) _ (tree_bytes (mr_obb m) ++ unused ++ post2));
    [|apply aabb_reads, K7 | exact I | rewrite ED, <- !app_assoc; reflexivity | exact Hl].
  rewrite (run_bind (fun _ => True) _ _ (tree_bytes (mr_obb m)) (mr_obb m) _ (unused ++ post2));
    [|apply obb_reads, K8 | exact I | rewrite ED, <- !app_assoc; reflexivity | exact Hl].
  change 16%Z with (Z.of_N 16).
  rewrite (run_bind (fun _ => True) _ _ unused tt _ post2);
    [|apply reads_skip; symmetry; exact Hu | exact I | rewrite ED, <- !app_assoc; reflexivity | exact Hl].
  set (p := len (((P2 ++ box_bytes (mr_bbox m)) ++ tree_bytes (mr_obb m)) ++ unused)).
  assert (Hp : p <= len D) by (unfold p; rewrite ED, !len_app; lia). clearbody p.
  unfold bind at 1. unfold rd_tell at 1. cbn [rpos].
  assert (HD : D = P ++ content ++ (le_enc 1 (len (mr_subs m)) ++ entry_bytes vs ++ entry_bytes ns ++ flat_map map_bytes maps ++
     arch ++ alpha ++ box_bytes (mr_bbox m) ++ tree_bytes (mr_obb m) ++ unused ++ post)) by (unfold D, P; rewrite <- !app_assoc; reflexivity).
  match type of HD with _ = P ++ content ++ ?q => set (Q := q) in * end.
  clear ED. clearbody D. subst D.
  enough (X : any_start (P ++ content ++ Q)
    (let* ps := at_section (shifted (len P) vs) read_vec3 in
     let* nos := at_section (shifted (len P) ns) read_vec3 in
     let* subs := subs_load (combine (map (shift_map (len P)) maps) (mr_materials m)) in
     rd_seek (Z.of_N (u32 p)) BEG ;;
     ret (mkMrm ps nos subs (mr_materials m) (mr_alpha m) (mr_bbox m) (mr_obb m))) m) by exact (X p Hp).
  eapply any_bind; [eapply at_section_any; [apply v3_reads | exact K1 | exact Hvs | exact Hl]|].
  eapply any_bind; [eapply at_section_any; [apply v3_reads | exact K2 | exact Hns | exact Hl]|].
  eapply any_bind; [rewrite <- K5; apply subs_load_any; [exact Hsubs | exact K3 | exact Hl]|].
  intros q Hq. exists (u32 p). assert (Hup : u32 p <= len (P ++ content ++ Q)).
  { assert (u32 p <= p) by (apply N.mod_le; discriminate). lia. }
  split; [|exact Hup]. unfold bind at 1. rewrite rd_seek_beg by assumption. unfold ret. destruct m; reflexivity.
Qed.

(** ** A file *)
Lemma mrm_file_loads g m0 m f : mrm_ok g m -> mrm_file g (mr_alpha m0) m f -> len f < max_size ->
  of_file (mrm_load m0) f = Ret m.
Proof.
  intros Hk (sec & rest & Hs & Hl & ->) Hm.
  assert (R : reads (mrm_load m0) (flat_map chunk_bytes [(45312, sec); (45567, [])]) m).
  { unfold mrm_load. apply read_chunked_run_left.
    apply run_more with (a1 := m); [split; [reflexivity | exact Hl] | | apply run_last; [split; reflexivity|]].
    - cbn [fst snd]. change (mrm_chunk 45312 m0) with (let* m' := mrm_section_load m0 in ret (false, m')).
      intros pre post Hp. destruct (mrm_section_any g m0 m sec Hk Hs pre post Hp) as (q & E & Hq).
      exists q. unfold bind. rewrite E. split; [reflexivity | exact Hq].
    - change (mrm_chunk (fst (45567, [])) m) with (@ret rstate (bool * mrm) (true, m)). apply reads_part_ret. }
  cbn [flat_map] in R. rewrite app_nil_r in R. unfold of_file.
  specialize (R [] rest I). cbn [app] in R. rewrite <- app_assoc in R. change (len (@nil byte)) with 0 in R.
  rewrite R by exact Hm. reflexivity.
Qed.

(* ------------------------------------------------------------------ *)
(** * Soft-skin meshes *)

Lemma part_bind {A B} (P : bytes -> Prop) (m : rd A) (k : A -> rd B) bs1 bs2 a b :
  reads_if P m bs1 a -> (forall post, P (bs2 ++ post)) -> reads_part (k a) bs2 b -> reads_part (bind m k) (bs1 ++ bs2) b.
Proof.
  intros H HP Hk pre post Hl. rewrite <- app_assoc in *.
  rewrite (run_bind P m k bs1 a pre (bs2 ++ post)); [|exact H | apply HP | reflexivity | exact Hl].
  destruct (Hk (pre ++ bs1) post) as (q & E & Hq); [rewrite <- app_assoc; exact Hl|].
  rewrite <- app_assoc in E, Hq. exists q. split; assumption.
Qed.
Lemma part_map {A B} (m : rd A) (k : A -> rd B) bs a b : reads_part m bs a -> (forall s, k a s = Ret (b, s)) -> reads_part (bind m k) bs b.
Proof.
  intros H Hk pre post Hl. destruct (H pre post Hl) as (q & E & Hq). exists q. split; [|exact Hq].
  unfold bind. rewrite E. apply Hk.
Qed.

(** Readers that return on every input. *)
Definition calm {A} (r : rd A) : Prop := forall s, r_ok s -> exists a q, r s = Ret (a, mkR (rdata s) q) /\ q <= len (rdata s).
Lemma calm_bind {A B} (m : rd A) (k : A -> rd B) : calm m -> (forall a, calm (k a)) -> calm (bind m k).
Proof.
  intros Hm Hk s Hs. destruct (Hm s Hs) as (a & q & E & Hq). unfold bind. rewrite E.
  apply (Hk a (mkR (rdata s) q)). destruct Hs. split; [exact Hq | assumption].
Qed.
Lemma calm_ret {A} (a : A) : calm (ret a).
Proof. intros [d p] [H1 H2]. exists a, p. split; [reflexivity | exact H1]. Qed.
Lemma calm_fixed n : n <= 2 ^ 63 -> calm (rd_fixed n).
Proof. intros Hn s Hs. destruct (rd_fixed_safe n s Hs Hn) as [b E]. eexists _, _. split; [exact E | lia]. Qed.
Lemma calm_uint : calm read_uint.
Proof. apply calm_bind; [apply calm_fixed; discriminate | intros; apply calm_ret]. Qed.
Lemma calm_ushort : calm read_ushort.
Proof. apply calm_bind; [apply calm_fixed; discriminate | intros; apply calm_ret]. Qed.
Lemma calm_date : calm date_load.
Proof. unfold date_load. repeat (apply calm_bind; [first [apply calm_uint | apply calm_ushort]|]; intros). apply calm_ret. Qed.
Lemma calm_line b : calm (read_line b).
Proof.
  intros s Hs. pose proof (fw_line b s Hs) as F. unfold read_line in *.
  destruct (read_line_then_ignore (if b then ws_chars else []) s) as [[a s1]|e| |] eqn:E; try contradiction.
  - destruct F as (D & Hok & _). destruct s1 as [d1 p1]. cbn [rdata rpos] in *. subst d1. exists a, p1. split; [reflexivity | apply Hok].
  - exfalso. revert E. unfold read_line_then_ignore. set (fuel := S (N.to_nat (len (rdata s) - rpos s))). unfold bind at 1.
    destruct (read_until_eol_fw fuel s Hs) as (l & c & p & E & Hp); [unfold fuel; lia|]. rewrite E.
    unfold bind at 1. rewrite r_eof_at. cbn [fst snd].
    destruct ((match (if b then ws_chars else []) with [] => true | _ => false end) || beq c x00 || (len (rdata s) <=? p)) eqn:C; [discriminate|].
    unfold bind at 1.
    destruct (skip_run_fw fuel (if b then ws_chars else []) (mkR (rdata s) p)) as (c2 & q & E2 & Hq).
    { destruct Hs. split; cbn [rdata rpos]; lia. }
    { cbn [rdata rpos]. unfold fuel. lia. }
    cbn [rdata rpos] in *. rewrite E2. unfold bind at 1. rewrite r_eof_at.
    destruct ((len (rdata s) <=? q) && beq c2 x00) eqn:C2; [discriminate|].
    destruct Hq as [Hq | (-> & ->)].
    + unfold bind. rewrite rd_seek_back by (destruct Hs; lia). discriminate.
    + rewrite N.leb_refl in C2. discriminate.
Qed.
Lemma calm_part {A B} (m : rd A) (b : B) bs : calm m -> reads_part (let* _ := m in ret b) bs b.
Proof.
  intros Hm pre post Hl. destruct (Hm (mkR (pre ++ bs ++ post) (len pre))) as (a & q & E & Hq).
  { split; cbn [rdata rpos]; [rewrite !len_app; lia | exact Hl]. }
  cbn [rdata rpos] in *. exists q. unfold bind. rewrite E. split; [reflexivity | exact Hq].
Qed.

Lemma weight_reads : reads_all weight_load weight_bytes weight_ok.
Proof.
  intros [w p n] (H1 & H2 & H3). unfold weight_load, weight_bytes. cbn [wg_weight wg_position wg_node] in *.
  eapply reads_bind; [apply reads_float, H1|]. eapply reads_bind; [apply vec3_reads, H2|].
  eapply reads_if_last; [apply reads_ubyte, H3|]. apply reads_ret.
Qed.
Lemma weights_reads : reads_all weights_load weights_bytes (fun l => len l < 2 ^ 32 /\ Forall weight_ok l).
Proof.
  intros l (H1 & H2). unfold weights_load, weights_bytes. eapply reads_bind; [apply reads_uint, H1|].
  apply reads_count; [reflexivity|]. intros x Hx. apply weight_reads. rewrite Forall_forall in H2. apply H2, Hx.
Qed.
Lemma wnormal_reads : reads_all wnormal_load wnormal_bytes wnormal_ok.
Proof.
  intros [n i] (H1 & H2). unfold wnormal_load, wnormal_bytes. cbn [wn_normal wn_index] in *.
  eapply reads_bind; [apply vec3_reads, H1|]. eapply reads_if_last; [apply reads_uint, H2|]. apply reads_ret.
Qed.
Lemma all_reads {A} (r : rd A) enc ok l n : reads_all r enc ok -> Forall ok l -> n = len l ->
  reads (repM (N.to_nat n) r) (flat_map enc l) l.
Proof. intros H Hl Hn. apply reads_count; [exact Hn|]. intros x Hx. apply H. rewrite Forall_forall in Hl. apply Hl, Hx. Qed.

Lemma skin_nodes_reads g k slack : skin_ok g k -> len (skin_part k slack) < 2 ^ 32 ->
  reads (skin_nodes_load (sk_mesh k)) (skin_part k slack) k.
Proof.
  intros (_ & Hw & Hws & Hn & Hns & Hk & Hks & Hb & Hbs) Hs pre post _ Hl. revert Hs Hl. unfold skin_part. cbv zeta.
  set (W := flat_map weights_bytes (sk_weights k)).
  set (R := le_enc 4 (len (sk_normals k)) ++ flat_map wnormal_bytes (sk_normals k) ++
    le_enc 2 (len (sk_nodes k)) ++ flat_map int_bytes (sk_nodes k) ++ flat_map tree_bytes (sk_bboxes k)).
  intros Hs Hl.
  assert (HW : len (W ++ slack) < 2 ^ 32) by (revert Hs; rewrite !len_app; pows; lia).
  match type of Hl with len ?d < _ => set (D := d) in * end.
  unfold skin_nodes_load.
  rewrite (run_bind (fun _ => True) _ _ (le_enc 4 (len (W ++ slack))) (len (W ++ slack)) _ (W ++ slack ++ R ++ post));
    [|apply reads_uint, HW | exact I | unfold D; rewrite <- !app_assoc; reflexivity | exact Hl].
  set (P := pre ++ le_enc 4 (len (W ++ slack))).
  unfold bind at 1. unfold rd_tell at 1. cbn [rpos]. cbv zeta.
  replace (length (mr_positions (sk_mesh k))) with (N.to_nat (len (sk_weights k))) by (rewrite Hw; unfold len; lia).
  rewrite (run_bind (fun _ => True) _ _ W (sk_weights k) _ (slack ++ R ++ post));
    [|apply (all_reads _ _ _ _ _ weights_reads Hws eq_refl) | exact I | unfold D, P; rewrite <- !app_assoc; reflexivity | exact Hl].
  unfold bind at 1. unfold rd_tell at 1. cbn [rpos].
  assert (HD : len D = len P + len (W ++ slack) + len R + len post) by (unfold D, P; rewrite !len_app; lia).
  rewrite u64_small by (pows; lia).
  assert (E1 : (if len (P ++ W) =? len P + len (W ++ slack) then ret tt else rd_seek (sint 64 (len P + len (W ++ slack))) BEG)
    (mkR D (len (P ++ W))) = Ret (tt, mkR D (len (P ++ W ++ slack)))).
  { destruct (N.eqb_spec (len (P ++ W)) (len P + len (W ++ slack))) as [E|E].
    - unfold ret. do 3 f_equal. rewrite E, (len_app P (W ++ slack)). reflexivity.
    - rewrite sint_small by (pows; lia). rewrite rd_seek_beg by (pows; lia). rewrite (len_app P (W ++ slack)). reflexivity. }
  unfold bind at 1. rewrite E1. clear E1.
  assert (ED : D = (P ++ W ++ slack) ++ R ++ post) by (unfold D, P; rewrite <- !app_assoc; reflexivity).
  assert (G : reads (let* n := read_uint in let* ns := repM (N.to_nat n) wnormal_load in let* c := read_ushort in
     let* nodes := repM (N.to_nat c) read_int in let* boxes := repM (length nodes) obb_load in
     ret (mkSkin (sk_mesh k) boxes ns (sk_weights k) nodes)) R k).
  { unfold R. eapply reads_bind; [apply reads_uint, Hn|].
    eapply reads_bind; [apply (all_reads _ _ _ _ _ wnormal_reads Hns eq_refl)|].
    eapply reads_bind; [apply reads_ushort, Hk|].
    eapply reads_bind; [apply (all_reads read_int int_bytes (fun z => - 2 ^ 31 <= z < 2 ^ 31)%Z); [intros z Hz; apply reads_int, Hz | exact Hks | reflexivity]|].
    eapply reads_if_last with (a := sk_bboxes k); [|apply reads_ret_eq; clear; destruct k; reflexivity].
    replace (length (sk_nodes k)) with (N.to_nat (len (sk_bboxes k))) by (rewrite Hb; unfold len; lia).
    apply (all_reads obb_load tree_bytes obb_ok); [intros o Ho; apply obb_reads, Ho | exact Hbs | reflexivity]. }
  specialize (G (P ++ W ++ slack) post I). rewrite <- ED in G. rewrite (G Hl). do 3 f_equal.
  unfold P, R. rewrite !len_app. lia.
Qed.

Definition skin_chunks (k : skin) (head sec slack : bytes) : list chunk :=
  [(57600, head); (45312, sec); (45567, skin_part k slack); (57616, [])].
Lemma skin_loads g k0 k f : skin_ok g k -> skin_file g (mr_alpha (sk_mesh k0)) k f ->
  reads (skin_load k0) f k.
Proof.
  intros Hk (head & sec & slack & Hs & Hh & Hsec & Hp & ->). unfold skin_load.
  replace (chunk_bytes (57600, head) ++ chunk_bytes (45312, sec) ++ chunk_bytes (45567, skin_part k slack) ++ chunk_bytes (57616, []))
    with (flat_map chunk_bytes (skin_chunks k head sec slack)) by (cbn [skin_chunks flat_map]; rewrite app_nil_r; reflexivity).
  apply read_chunked_run_left. unfold skin_chunks.
  apply run_more with (a1 := k0); [split; [reflexivity | apply Hh]| |].
  { cbn [fst snd]. change (skin_chunk 57600 k0) with (let* _ := read_uint in ret (false, k0)). apply calm_part, calm_uint. }
  apply run_more with (a1 := mkSkin (sk_mesh k) (sk_bboxes k0) (sk_normals k0) (sk_weights k0) (sk_nodes k0)); [split; [reflexivity | exact Hsec]| |].
  { cbn [fst snd]. change (skin_chunk 45312 k0) with (let* m := mrm_section_load (sk_mesh k0) in
      ret (false, mkSkin m (sk_bboxes k0) (sk_normals k0) (sk_weights k0) (sk_nodes k0))).
    eapply part_map; [eapply mrm_section_any; [apply Hk | exact Hs] | reflexivity]. }
  apply run_more with (a1 := k); [split; [reflexivity | exact Hp]| |].
  { cbn [fst snd]. match goal with |- reads_part (skin_chunk 45567 ?x) _ _ => change (skin_chunk 45567 x) with
      (let* k' := skin_nodes_load (sk_mesh k) in ret (false, k')) end.
    eapply part_map; [eapply reads_part_of, skin_nodes_reads; [apply Hk | exact Hp] | reflexivity]. }
  apply run_last; [split; reflexivity|]. change (skin_chunk (fst (57616, @nil byte)) k) with (@ret rstate (bool * skin) (true, k)).
  apply reads_part_ret.
Qed.
