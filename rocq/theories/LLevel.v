(** Lemmas: worlds with their mesh and BSP tree. *)

From Coq Require Import String Lia Sorted.
From Verif Require Import MBase MStream SStream MBoxes SBoxes MText MClasses MArchive SArchive MVob SVob MWorld MLib SLib SFormat MTexture MMaterial MMesh SMesh MBsp MLevel SLevel.
From Verif Require Import LBase LStream LBoxes LText LGraph LArchW LArchR LArchH LArchP LVob LVobC LVobF LLib LFormat LMrmSave LMesh LMeshIO.
From Verif Require SBsp LBsp LMrm LSave.
Local Open Scope N_scope.
Local Open Scope m_scope.

(** ** The bytes of the mesh and the BSP tree *)
Definition raw_of (g : game) (body : bytes) : bytes := le_enc 4 (SBsp.game_version g) ++ le_enc 4 (len body) ++ body.

Lemma raw_of_ok g body : raw_ok (raw_of g body) = true.
Proof. destruct g; reflexivity. Qed.

Lemma save_raw order m1 m2 g m t mb tb : writes (mesh_save order m1 m2 g m) mb -> writes (bsp_save g t) tb ->
  forall buf, len buf + len (raw_of g (mb ++ tb)) < 2 ^ 31 ->
  save_mesh_bsp order m1 m2 g m t (mkW buf (len buf)) =
  Ret (tt, mkW (buf ++ raw_of g (mb ++ tb)) (len buf + len (raw_of g (mb ++ tb)))).
Proof.
  intros Hm Ht buf Hl.
  assert (Hl2 : len buf + 8 + len mb + len tb < 2 ^ 31) by (unfold raw_of in Hl; rewrite !len_app, !len_le_enc in Hl; lia).
  clear Hl. unfold save_mesh_bsp.
  set (v := match g with G1 => bsp_version_g1 | G2 => bsp_version_g2 end).
  assert (Ev : v = SBsp.game_version g) by (destruct g; reflexivity).
  assert (Hb : len buf + 4 < 2 ^ 31) by lia. pose proof (small_max _ Hb) as _.
  unfold bind at 1. rewrite (writes_uint v (mkW buf (len buf)) eq_refl) by (cbn [wbuf]; rewrite len_le_enc; apply small_max; lia).
  cbn [wbuf]. unfold bind at 1, wr_tell at 1. cbn [wpos]. rewrite len_le_enc.
  set (b1 := buf ++ le_enc 4 v). assert (L1 : len b1 = len buf + N.of_nat 4) by (unfold b1; rewrite len_app, len_le_enc; reflexivity).
  rewrite <- L1. unfold bind at 1. rewrite (writes_uint 0 (mkW b1 (len b1)) eq_refl) by (cbn [wbuf]; rewrite len_le_enc; apply small_max; lia).
  cbn [wbuf]. set (b2 := b1 ++ le_enc 4 0). assert (L2 : len b2 = len b1 + N.of_nat 4) by (unfold b2; rewrite len_app, len_le_enc; reflexivity).
  rewrite len_le_enc, <- L2. unfold bind at 1. rewrite (Hm (mkW b2 (len b2)) eq_refl) by (cbn [wbuf]; apply small_max; lia). cbn [wbuf].
  replace (len b2 + len mb) with (len (b2 ++ mb)) by apply len_app.
  unfold bind at 1. rewrite (Ht (mkW (b2 ++ mb) (len (b2 ++ mb))) eq_refl) by (cbn [wbuf]; rewrite len_app; apply small_max; lia). cbn [wbuf].
  unfold bind at 1, wr_tell at 1. cbn [wpos].
  rewrite (u32_small (len b1)) by (pows; lia).
  set (size := len (mb ++ tb)).
  replace (u32 (len (b2 ++ mb) + len tb - len b1 - 4)) with size.
  2:{ unfold size. rewrite u32_small by (rewrite !len_app; pows; lia). rewrite !len_app. lia. }
  assert (Hs : size = len mb + len tb) by (unfold size; apply len_app).
  unfold bind at 1. rewrite wr_seek_beg by lia.
  unfold bind at 1, write_uint at 1.
  replace ((b2 ++ mb) ++ tb) with (b1 ++ le_enc 4 0 ++ mb ++ tb) by (unfold b2; rewrite <- !app_assoc; reflexivity).
  rewrite (emits_raw (le_enc 4 size) b1 (le_enc 4 0 ++ mb ++ tb)) by (rewrite len_le_enc; apply small_max; lia).
  rewrite len_le_enc. rewrite (drop_app_exact (N.of_nat 4)) by (rewrite len_le_enc; reflexivity).
  assert (Hmx : len b1 + 4 + size < 9223372036854775808) by (pows; lia).
  unfold wr_seek, seek_internal. cbn [wpos wbuf].
  rewrite sint_small by (pows; lia). rewrite ssize_add_ok by (pows; lia). cbn [obind].
  rewrite uint_small by (pows; lia).
  unfold raw_of. rewrite <- Ev. fold size.
  apply ret_w.
  - unfold b1. rewrite <- !app_assoc. reflexivity.
  - rewrite !len_app, !len_le_enc. fold size. rewrite L1. unfold size. rewrite !len_app. lia.
Qed.

(** ** Writing *)
Lemma W_raw f hd old hp sv (body : wr unit) raw w :
  (forall buf, len buf + len raw < 2 ^ 31 -> body (mkW buf (len buf)) = Ret (tt, mkW (buf ++ raw) (len buf + len raw))) ->
  len old <= len (penc f w) -> wfits f hd (nw_put (NRaw raw) (nw_keys w) w) ->
  wrl body (Wst f hd old hp sv w) = Ret (tt, Wst f hd old hp sv (nw_put (NRaw raw) (nw_keys w) w)).
Proof.
  intros Hb Ho (_ & _ & F3 & _). rewrite penc_put in F3. cbn [encode] in F3. rewrite len_app in F3.
  unfold wrl, Wst. cbn [wa_w wa_index wa_keys wa_indent wa_starts wa_head wa_save].
  rewrite penc_put. cbn [nw_put nw_open nw_idx nw_keys encode]. unfold wat.
  rewrite !drop_all by (rewrite ?len_app; lia). rewrite !app_nil_r.
  replace (len hd + len (penc f w)) with (len (hd ++ penc f w)) by apply len_app.
  rewrite Hb by (rewrite len_app; lia). cbn [wa_w wa_index wa_keys wa_indent wa_starts wa_head wa_save].
  rewrite <- app_assoc, !len_app, N.add_assoc. reflexivity.
Qed.

Section WLevel.
  Variable f : fmt.
  Variables hd old : bytes.
  Hypothesis Hold : len old <= 4.
  Variable sv : bool.
  Variable graph : oid -> option (otype * N * list (wop oid)).
  Variable body : wr unit.
  Variable raw : bytes.
  Hypothesis Hbody : forall buf, len buf + len raw < 2 ^ 31 -> body (mkW buf (len buf)) = Ret (tt, mkW (buf ++ raw) (len buf + len raw)).
  Notation wst := (Wst f hd old 0 sv).
  Lemma opening_4 d sz h : 4 <= len (opening f d sz h).
  Proof.
    destruct f; cbn [opening].
    - rewrite !len_app, !len_le_enc. lia.
    - unfold safe_line. rewrite !len_app, !len_le_enc. unfold head_text. rewrite !len_app. change (len [x5b]) with 1. lia.
    - unfold head_text. rewrite !len_app. change (len [x5b]) with 1. change (len [x20]) with 1. change (len [x5d]) with 1. lia.
  Qed.
  Lemma W_level n x w wc :
    write_level nwprims graph (n_raw raw) n x (mkWg nw_empty []) = Ret (tt, mkWg w wc) -> wfits f hd w ->
    write_level (fmt_wprims f) graph (wrl body) n x (mkWg (wst nw_empty) []) = Ret (tt, mkWg (wst w) wc).
  Proof.
    unfold write_level. intros H Hf.
    apply bind_Ret in H as (i & [w1 wc1] & H1 & H). unfold wgl in H1. cbn [wg_s wg_cache nwprims wp_begin] in H1.
    destruct (nw_begin (lit "%") (lit "oCWorld:zCWorld") 64513 nw_empty) as [[i1 v1]| | |] eqn:E1; try discriminate. injection H1 as <- <- <-.
    apply bind_Ret in H as (i2 & [w2 wc2] & H1 & H). unfold wgl in H1. cbn [wg_s wg_cache nwprims wp_begin] in H1.
    destruct (nw_begin (lit "MeshAndBsp") [] 0 v1) as [[i3 v2]| | |] eqn:E2; try discriminate. injection H1 as <- <- <-.
    apply bind_Ret in H as ([] & [w3 wc3] & H1 & H). unfold wgl, n_raw in H1. cbn [wg_s wg_cache] in H1. injection H1 as <- <-.
    apply bind_Ret in H as ([] & [w4 wc4] & H1 & H). unfold wgl in H1. cbn [wg_s wg_cache nwprims wp_end] in H1.
    destruct (nw_end (nw_put (NRaw raw) (nw_keys v2) v2)) as [[[] v4]| | |] eqn:E4; try discriminate. injection H1 as <- <-.
    apply bind_Ret in H as ([] & [w5 wc5] & H5 & H). unfold wgl in H. cbn [wg_s wg_cache nwprims wp_end] in H.
    destruct (nw_end w5) as [[[] v6]| | |] eqn:E6; try discriminate. injection H as <- <-.
    pose proof (back_end f hd 0 graph _ _ E6 Hf) as F5.
    destruct (W_ops f hd old 0 sv graph n (W_obj f hd old 0 sv graph n) _ _ _ _ _ H5 F5) as [F4 R5].
    pose proof (back_end f hd 0 graph _ _ E4 F4) as F3.
    pose proof (back_put f hd 0 graph _ _ _ (N.le_refl _) F3) as F2.
    pose proof (back_begin f hd graph _ _ _ _ _ _ E2 F2) as F1.
    unfold bind, wgl. cbn [wg_s wg_cache].
    rewrite (W_begin _ _ _ _ _ _ _ _ _ _ _ E1 F1). cbn [wg_s wg_cache].
    rewrite (W_begin _ _ _ _ _ _ _ _ _ _ _ E2 F2). cbn [wg_s wg_cache].
    rewrite (W_raw f hd old 0 sv body raw v2 Hbody) by (exact F3 ||
      (injection E2 as _ <-; injection E1 as _ <-; unfold penc; cbn [nw_open nw_cur popen]; rewrite !len_app;
       match goal with |- context [opening f ?d ?s ?h] => pose proof (opening_4 d s h) end; lia)).
    cbn [wg_s wg_cache].
    rewrite (W_end _ _ _ _ _ _ _ E4 F4). cbn [wg_s wg_cache]. rewrite R5. cbn [wg_s wg_cache].
    rewrite (W_end _ _ _ _ _ _ _ E6 Hf). reflexivity.
  Qed.
End WLevel.

(** ** Reading the mesh and the tree *)
Lemma skip_reads cs p : Forall chunk_ok cs -> Forall (fun c => fst c <> M_END) cs -> len p < 2 ^ 32 ->
  forall fuel, (length cs < fuel)%nat -> reads (skip_chunks fuel) (flat_map chunk_bytes cs ++ chunk_bytes (M_END, p)) tt.
Proof.
  intros H1 H2 Hp. induction cs as [|[ty q] cs IH]; intros fuel Hf; (destruct fuel as [|fuel]; [cbn in Hf; lia|]);
    cbn [flat_map skip_chunks app]; unfold chunk_bytes at 1; cbn [fst snd].
  - eapply reads_bind; [apply reads_ushort; reflexivity|]. eapply reads_bind; [apply reads_uint; exact Hp|].
    eapply reads_if_last; [apply reads_seek; reflexivity|]. rewrite N.eqb_refl. apply reads_ret.
  - inversion H1 as [|? ? [A1 A2] A3]; subst. inversion H2 as [|? ? B1 B2]; subst. cbn [fst snd] in *.
    rewrite <- !app_assoc. eapply reads_bind; [apply reads_ushort; exact A1|].
    eapply reads_bind; [apply reads_uint; exact A2|]. eapply reads_bind; [apply reads_seek; reflexivity|].
    replace (ty =? M_END) with false by (symmetry; apply N.eqb_neq; exact B1).
    apply IH; [exact A3 | exact B2 | cbn [length] in Hf; lia].
Qed.

Section Raw.
  Variables (order : list N -> list N) (m1 m2 : wenv) (g : game) (m : mesh) (t : bsp) (xzen : bool) (mode : N).
  Hypothesis Ho : some_order order.
  Hypothesis He : env_ok m2.
  Hypothesis Hd : len (we_date m1) = len (we_date m2).
  Hypothesis Hu : len (we_user m1) = len (we_user m2).
  Hypothesis Hm : mesh_ok g m.
  Hypothesis Hv : len (me_vindices m) < 2 ^ 32.
  Hypothesis Ht : SBsp.bsp_ok g t.
  Hypothesis Hx : g = G1 -> xzen = false.
  Let ks := order (images_used (me_lightmaps m)).
  Definition raw_mesh : mesh :=
    with_tris (listed_triangles (leaf_triangles m (bt_leaf_polygons t))) (loaded order m mesh_new).
  Lemma raw_exists : exists raw,
    raw_ok raw = true /\
    (forall buf, len buf + len raw < 2 ^ 31 ->
       save_mesh_bsp order m1 m2 g m t (mkW buf (len buf)) = Ret (tt, mkW (buf ++ raw) (len buf + len raw))) /\
    (len raw < 2 ^ 31 -> reads (load_mesh_bsp xzen mesh_new (bsp_new mode)) raw (raw_mesh, t) /\
                         exists r, raw = le_enc 4 (SBsp.game_version g) ++ r).
  Proof.
    pose proof Ht as (_ & _ & _ & (sh & Hp & En & Ev) & _).
    pose proof (LBsp.bsp_writes g t sh Hp En Ev Ht) as Wt.
    assert (Wm : writes (mesh_save order m1 m2 g m) (flat_map chunk_bytes (mesh_chunks ks m2 g m))) by (apply mesh_writes; assumption).
    set (mb := flat_map chunk_bytes (mesh_chunks ks m2 g m)) in *. set (tb := flat_map chunk_bytes (LBsp.bsp_chunks g t sh)) in *.
    exists (raw_of g (mb ++ tb)). split; [apply raw_of_ok|]. split; [apply save_raw; assumption|].
    intros Hl. split; [|eexists; reflexivity].
    assert (Hl2 : len mb + len tb + 8 < 2 ^ 31) by (unfold raw_of in Hl; rewrite !len_app, !len_le_enc in Hl; lia). clear Hl.
    assert (Hmb : len mb < 2 ^ 32) by (pows; lia).
    assert (Rm : reads (mesh_load mesh_new xzen) mb (loaded order m mesh_new)) by (eapply mesh_reads; try eassumption; repeat split; reflexivity).
    pose proof (LBsp.bsp_reads g t sh Hp En Ev Ht mode) as Rt. fold tb in Rt.
    unfold raw_of. unfold load_mesh_bsp.
    eapply reads_bind; [apply reads_uint; destruct g; reflexivity|].
    eapply reads_bind; [apply reads_uint; rewrite len_app; pows; lia|].
    intros pre post HP Hlen. unfold bind at 1, rd_tell at 1. cbn [rpos].
    assert (Rs : reads (fun s => skip_chunks (S (N.to_nat (len (rdata s) - rpos s))) s) mb tt).
    { intros pre' post' HP' Hlen'. cbn [rdata rpos].
      assert (Em : mb = flat_map chunk_bytes (removelast (mesh_chunks ks m2 g m)) ++ chunk_bytes (M_END, [])).
      { unfold mb, mesh_chunks. cbn [removelast flat_map]. rewrite <- !app_assoc. reflexivity. }
      rewrite Em in Hlen' |- *. apply skip_reads; try assumption.
      - apply Forall_forall. intros c Hc. split.
        + unfold mesh_chunks in Hc. cbn [removelast In] in Hc. repeat destruct Hc as [<-|Hc]; try reflexivity. contradiction.
        + assert (Hc2 : In c (mesh_chunks ks m2 g m)).
          { unfold mesh_chunks in Hc |- *. cbn [removelast In] in Hc |- *. tauto. }
          apply (chunk_len order m1 m2 g m xzen) in Hc2; try assumption. change (len (snd c) <= len mb) in Hc2. pows. lia.
      - apply Forall_forall. intros c Hc. unfold mesh_chunks in Hc. cbn [removelast In] in Hc.
        repeat destruct Hc as [<-|Hc]; try discriminate. contradiction.
      - reflexivity.
      - change (length (removelast (mesh_chunks ks m2 g m))) with 7%nat.
        assert (G : 7 <= len (flat_map chunk_bytes (removelast (mesh_chunks ks m2 g m)))).
        { etransitivity; [|apply (len_flat_ge chunk_bytes)]; [apply N.le_refl|]. intros c. unfold chunk_bytes. rewrite !len_app, !len_le_enc. lia. }
        rewrite !len_app. lia. }
    assert (Ea : pre ++ (mb ++ tb) ++ post = pre ++ mb ++ tb ++ post) by (rewrite <- app_assoc; reflexivity).
    rewrite Ea in Hlen |- *.
    pose proof (Rs pre (tb ++ post) I Hlen) as Es. pose proof (Rm pre (tb ++ post) I Hlen) as Em.
    assert (Et : bsp_load (bsp_new mode) (SBsp.game_version g) (mkR (pre ++ mb ++ tb ++ post) (len pre + len mb)) =
                 Ret (t, mkR (pre ++ mb ++ tb ++ post) (len pre + len mb + len tb))).
    { pose proof (Rt (pre ++ mb) post I) as E. rewrite <- app_assoc, (len_app pre mb) in E. exact (E Hlen). }
    assert (Hb : len pre + len mb + len tb <= len (pre ++ mb ++ tb ++ post)) by (rewrite !len_app; lia).
    clear Rs Rm Rt Ea Wm Wt. rewrite !len_app. set (D := pre ++ mb ++ tb ++ post) in *. clearbody D.
    unfold bind at 1. rewrite Es. unfold bind at 1. rewrite Et. unfold bind at 1, rd_tell at 1. cbn [rpos].
    unfold bind at 1. rewrite rd_seek_beg by (exact Hlen || lia).
    unfold bind at 1.
    assert (Hs : Sorted N.le (bt_leaf_polygons t)) by (destruct Ht as (_ & _ & _ & _ & _ & _ & _ & HS & _); exact HS).
    rewrite (mesh_leaves_ok xzen _ _ _ _ Hs Em) by exact Hv.
    unfold bind at 1. rewrite rd_seek_beg by (exact Hlen || lia).
    unfold ret. rewrite N.add_assoc. reflexivity.
  Qed.
  Lemma raw_mesh_same : same_mesh m raw_mesh /\
    me_tris raw_mesh = listed_triangles (leaf_triangles m (bt_leaf_polygons t)).
  Proof. split; [|reflexivity]. exact (loaded_same order g m Ho Hm mesh_new). Qed.
End Raw.

(** ** The archive reader at bytes of something else *)
Section ReadRaw.
  Variable f : fmt.
  Variables D tail : bytes.
  Hypothesis HD : len D < 2 ^ 31.
  Hypothesis Htail : after_ok f tail.
  Notation rst := (rst f D tail).
  Notation good := (good f D tail).
  Lemma raw_place raw l0 st : good ([NRaw raw] :: l0 :: st) ->
    let X := closing f (length st) ++ senc f (l0 :: st) ++ tail in
    rst ([NRaw raw] :: l0 :: st) = mkRar (pos D (raw ++ X)) (match f with ABinary => bends D tail ([NRaw raw] :: l0 :: st) | _ => [] end) /\
    suf D (raw ++ X) /\ all_ok f (l0 :: st).
  Proof.
    intros (_ & Ha & Hs) X. apply all_ok_cons in Ha as [Hr Ha]. cbn [forallb] in Hr. rewrite andb_true_r in Hr.
    assert (Ex : senc f ([NRaw raw] :: l0 :: st) ++ tail = raw ++ X).
    { rewrite senc_cons, senc_nil. cbn [encode]. rewrite <- !app_assoc. reflexivity. }
    assert (Er : strip f (raw ++ X) = raw ++ X).
    { destruct f; try reflexivity. apply strip_raw. exact Hr. }
    unfold LArchR.rst, rat. rewrite Ex in *. rewrite Er in *. split; [reflexivity|]. split; [exact Hs | exact Ha].
  Qed.
  Lemma R_raw {A} (m : rd A) raw a l0 st : reads m raw a -> good ([NRaw raw] :: l0 :: st) ->
    exists r, rdl m (rst ([NRaw raw] :: l0 :: st)) = Ret (a, r) /\ ar_end f r = Ret (true, rst (l0 :: st)) /\ good (l0 :: st).
  Proof.
    intros Hm Hg. destruct (raw_place raw l0 st Hg) as (E & Hs & Ha). rewrite E. clear E.
    set (X := closing f (length st) ++ senc f (l0 :: st) ++ tail) in *.
    unfold rdl. cbn [ra_r ra_ends]. rewrite (at_reads D HD m raw a X Hm Hs).
    eexists. split; [reflexivity|]. apply suf_app in Hs.
    pose proof (senc_after f tail Htail _ Ha) as HA.
    assert (S2 : suf D (senc f (l0 :: st) ++ tail)) by (eapply suf_app; exact Hs).
    split; [|split; [discriminate|]; split; [exact Ha | apply suf_strip; exact S2]].
    unfold LArchR.rst, rat. subst X. destruct f.
    - cbn [closing app strip]. cbn [ar_end]. unfold bin_end, bind at 1, rdl at 1. cbn [ra_r ra_ends].
      rewrite LArchR.at_tell. unfold bind, top_end. cbn [ra_r ra_ends bends]. rewrite N.eqb_refl. reflexivity.
    - destruct (S_end ABinsafe D HD (length st) _ [] ltac:(discriminate) HA Hs) as (_ & R & _). exact R.
    - cbn [ar_end]. unfold rdl. cbn [ra_r ra_ends]. cbn [closing] in *.
      replace ((tabs (length st) ++ lit "[]" ++ [x0a]) ++ senc AAscii (l0 :: st) ++ tail)
        with ((tabs (length st) ++ lit "[]") ++ x0a :: senc AAscii (l0 :: st) ++ tail) in * by (rewrite <- !app_assoc; reflexivity).
      rewrite (as_end_at D HD); [|apply Forall_app; split; [|repeat constructor; discriminate]|exact HA|exact Hs].
      + rewrite drop_tabs. reflexivity.
      + apply Forall_forall. intros c Hc. apply repeat_spec in Hc. subst c. repeat split; discriminate.
  Qed.
  Lemma R_raw_first v r l0 st : v < 2 ^ 32 -> good ([NRaw (le_enc 4 v ++ r)] :: l0 :: st) ->
    exists r', rdl read_uint (rst ([NRaw (le_enc 4 v ++ r)] :: l0 :: st)) = Ret (v, r') /\ rdata (ra_r r') = D.
  Proof.
    intros Hv Hg. destruct (raw_place _ l0 st Hg) as (E & Hs & _). rewrite E. clear E.
    unfold rdl. cbn [ra_r ra_ends]. rewrite <- !app_assoc in *.
    rewrite (at_reads D HD read_uint _ v _ (reads_uint v Hv) Hs). eexists. split; reflexivity.
  Qed.
End ReadRaw.

(** ** Sections without the mesh *)
Lemma sections_same {S Ob} (P : prims S) (fl : Ob -> Z) rec raw c k : forall m t s g s' g',
  runp P fl rec (p_sections c k s) g = Ret (s', g') ->
  level_sections P fl rec raw c k m t s g = Ret ((m, t, s'), g').
Proof.
  induction k as [|k IH]; intros m t s g s' g' H; [discriminate|].
  cbn [p_sections runp] in H. cbn [level_sections].
  unfold bind at 1 in H. unfold bind at 1. destruct (rgl (p_end P) g) as [[e g1]| | |]; try discriminate.
  destruct e; [injection H as <- <-; reflexivity|].
  cbn [runp] in H. unfold bind at 1 in H. unfold bind at 1. destruct (rgl (p_begin P) g1) as [[h g2]| | |]; try discriminate.
  destruct h as [h|]; [|discriminate].
  destruct (bytes_eqb (oh_name h) (lit "EndMarker")).
  - cbn [runp] in H. unfold bind at 1 in H. unfold bind at 1. destruct (rgl (p_end P) g2) as [[e g3]| | |]; try discriminate.
    injection H as <- <-. reflexivity.
  - rewrite LSave.runp_pbind in H. unfold bind at 1.
    destruct (bytes_eqb (oh_name h) (lit "MeshAndBsp")) eqn:En.
    { apply bytes_eqb_spec in En. rewrite En in H. discriminate. }
    unfold bind at 1. destruct (runp P fl rec (p_section c (oh_name h) s) g2) as [[s1 g3]| | |]; try discriminate.
    unfold ret. cbn [fst snd]. cbn [runp] in H. unfold bind at 1 in H. unfold bind at 1.
    destruct (rgl (p_end P) g3) as [[e g4]| | |]; try discriminate. unfold bind at 1.
    destruct e; [apply IH; exact H|].
    cbn [runp] in H. unfold bind at 1 in H. destruct (rgl (p_skip P true) g4) as [[[] g5]| | |]; try discriminate.
    apply IH; exact H.
Qed.

(** ** The content of the archive *)
Definition h_root : ohead := mkH (lit "%") (lit "oCWorld:zCWorld") 64513 0.
Definition h_mesh : ohead := mkH (lit "MeshAndBsp") [] 0 0.
Definition w_mesh (raw : bytes) : nw := mkNw [NObj h_mesh [NRaw raw]] [(h_root, [])] 1 [].
Lemma level_start {St} (P : wprims St) graph raw n x : write_level P graph raw n x =
  (wgl (wp_begin P (lit "%") (lit "oCWorld:zCWorld") 64513) ;; wgl (wp_begin P (lit "MeshAndBsp") [] 0) ;; wgl raw ;; wgl (wp_end P) ;;
   run_wops P (write_obj P graph n) (level_ops x) ;; wgl (wp_end P)).
Proof. reflexivity. Qed.
Lemma level_nw graph raw n x :
  write_level nwprims graph (n_raw raw) n x (mkWg nw_empty []) =
  (run_wops nwprims (write_obj nwprims graph n) (level_ops x) ;; wgl (wp_end nwprims)) (mkWg (w_mesh raw) []).
Proof.
  rewrite level_start. set (m := (run_wops nwprims (write_obj nwprims graph n) (level_ops x) ;; wgl (wp_end nwprims))).
  clearbody m. reflexivity.
Qed.
Section Content.
  Variables (c : cfg) (G : oid -> option object) (f : fmt).
  Hypothesis HG : graph_ok (library c) G f.
  Lemma level_shape n raw x nd w wc : level_content c G n raw x = Some (nd, w, wc) ->
    exists nds w5,
      write_level nwprims (g_graph (library c) G) (n_raw raw) n x (mkWg nw_empty []) = Ret (tt, mkWg w wc) /\
      nd = NObj h_root (NObj h_mesh [NRaw raw] :: nds) /\ nw_cur w = [nd] /\ nw_open w = [] /\
      trace (library c) G f n (fun _ => True) [] (level_ops x) nds wc /\
      NoDup (map fst wc) /\ NoDup (map snd wc) /\ (forall r, In r (map fst wc) -> G r <> None) /\
      run_wops nwprims (write_obj nwprims (g_graph (library c) G) n) (level_ops x) (mkWg (w_mesh raw) []) = Ret (tt, mkWg w5 wc).
  Proof.
    unfold level_content. rewrite level_nw. intros H.
    destruct ((run_wops nwprims (write_obj nwprims (g_graph (library c) G) n) (level_ops x) ;; wgl (wp_end nwprims)) (mkWg (w_mesh raw) []))
      as [[[] [w6 wc6]]| | |] eqn:E; try discriminate.
    cbn [wg_s wg_cache] in H. destruct (nw_cur w6) as [|n1 [|]] eqn:Ec; try discriminate. injection H as -> -> ->.
    apply bind_Ret in E as ([] & [w5 wc5] & E1 & E2).
    assert (H0 : cache_ok (library c) G (w_mesh raw) []) by (split; [constructor|]; split; constructor).
    destruct (written_ops (library c) G f n (written (library c) G f HG n) (fun _ => True) (level_ops x) _ [] w5 wc5 E1 H0)
      as (nds & A1 & A2 & A3 & _ & A5 & A6); [intros; exact I|].
    unfold wgl in E2. cbn [wg_s wg_cache nwprims wp_end] in E2. unfold nw_end in E2. rewrite A2 in E2. cbn [w_mesh nw_open] in E2.
    injection E2 as <- <-. cbn [nw_cur] in Ec. rewrite A1 in Ec. cbn [w_mesh nw_cur app] in Ec. injection Ec as <-.
    destruct A5 as (C1 & C2 & C3).
    exists nds, w5. split.
    { unfold wgl. cbn [wg_s wg_cache nwprims wp_end]. rewrite A1. reflexivity. }
    split; [reflexivity|]. cbn [nw_cur nw_open]. rewrite A1. split; [reflexivity|]. split; [reflexivity|].
    split; [exact A6|]. split; [exact C1|]. split; [exact C2|]. split; [|exact E1].
    intros r Hr. apply in_map_iff in Hr as [e [<- He]]. rewrite Forall_forall in C3. apply (C3 e He).
  Qed.
  Lemma flat_level ty ph fl x k : len (world_vobs x) < 2 ^ 31 -> Forall (ok_tree ty (cf_depth c)) (world_vobs x) ->
    refers_to ty (world_way_net x) zCWayNet ->
    flat f ph ty fl (p_sections c (S (S (S k))) (mkSects [] None None None)) [level_ops x] =
    Some (mkSects (map (map_tree ph) (world_vobs x)) (option_map ph (world_way_net x)) None None, [[]]).
  Proof.
    destruct x as [vobs way player sky npcs spawns en flags]. cbn [world_vobs world_way_net]. intros Hv Hts Hw.
    unfold level_ops. cbn [world_vobs world_way_net].
    assert (Hlist : gives f ph ty fl (p_section c (lit "VobTree") (mkSects [] None None None))
            (wCount "childs0" vobs :: flat_map (fun t => fst (save_tree t 0)) vobs) (mkSects (map (map_tree ph) vobs) None None None)).
    { change (p_section c (lit "VobTree") (mkSects [] None None None)) with
        (do n <- p_upto ; do l <- p_rep n (p_tree (cf_depth c)) ;
         PRet (mkSects ([] ++ flat_map (fun o => match o with Some t => [t] | None => [] end) l) None None None))%p.
      eapply gives_cons; [apply gives_upto; exact Hv|]. cbn beta. eapply gives_last.
      - apply (gives_rep f ph ty fl (p_tree (cf_depth c)) (fun t => fst (save_tree t 0)) (fun t => Some (map_tree ph t))).
        intros t Ht. apply gives_tree. rewrite Forall_forall in Hts. apply Hts, Ht.
      - apply gives_ret. cbn [app]. rewrite trees_back. reflexivity. }
    assert (Hway : forall s, gives f ph ty fl (p_section c (lit "WayNet") s) [wO "%" way] (mkSects (ss_vobs s) (option_map ph way) (ss_player s) (ss_sky s))).
    { intros s. change (p_section c (lit "WayNet") s) with (do r <- p_obj zCWayNet ; PRet (mkSects (ss_vobs s) r (ss_player s) (ss_sky s)))%p. repeat g_step. }
    rewrite (flat_section c f ph ty fl "VobTree" _ _ _ _ _ _ eq_refl Hlist).
    rewrite (flat_section c f ph ty fl "WayNet" _ _ _ _ _ _ eq_refl (Hway _)). apply flat_marker.
  Qed.
End Content.

Lemma tree_refs : forall t n, flat_map wop_refs (fst (save_tree t n)) = tree_objects t.
Proof.
  fix IH 1. intros [r l] n. rewrite save_tree_eq. cbn [fst]. unfold wO. cbn [flat_map wop_refs app tree_objects]. f_equal.
  generalize (n + 1). induction l as [|t l IHl]; intros k; [reflexivity|]. cbn [save_trees flat_map].
  specialize (IH t k). destruct (save_tree t k) as [a n1]. specialize (IHl n1). destruct (save_trees l n1) as [b n2].
  cbn [fst] in *. rewrite flat_map_app, IH, IHl. reflexivity.
Qed.
Lemma level_refs x : flat_map wop_refs (level_ops x) = world_objects x.
Proof.
  unfold level_ops, world_objects, section, wCount, wI, wO. cbn [flat_map wop_refs app]. rewrite !app_nil_r. f_equal.
  induction (world_vobs x) as [|t l IH]; [reflexivity|]. cbn [flat_map]. rewrite flat_map_app, tree_refs, IH. reflexivity.
Qed.

(** ** Loading *)
Section Loading.
  Notation place' := SArchive.place.
  Variables (c : cfg) (G : oid -> option object) (f : fmt).
  Hypothesis HG : graph_ok (library c) G f.
  Variables (D tail : bytes).
  Hypothesis HD : len D < 2 ^ 31.
  Hypothesis Htail : after_ok f tail.
  Variables (n : nat) (raw : bytes) (nds : list node) (wc : list (oid * N)) (x : world).
  Hypothesis Ht : trace (library c) G f n (fun _ => True) [] (level_ops x) nds wc.
  Hypothesis H1 : NoDup (map fst wc).
  Hypothesis H2 : NoDup (map snd wc).
  Hypothesis Hv : len (world_vobs x) < 2 ^ 31.
  Hypothesis Hts : Forall (ok_tree (g_type (library c) G) (cf_depth c)) (world_vobs x).
  Hypothesis Hw : refers_to (g_type (library c) G) (world_way_net x) zCWayNet.
  Hypothesis Hdepth : (4 <= cf_depth c)%nat.
  Hypothesis Hsave : cf_save c = false.
  Notation nd := (NObj h_root (NObj h_mesh [NRaw raw] :: nds)).
  Hypothesis Hgood : good f D tail [[nd]].
  Variables (body : mesh -> bsp -> rd (mesh * bsp)) (m m' : mesh) (t t' : bsp).
  Hypothesis Hraw : reads (body m t) raw (m', t').
  Notation rec := (read_obj (fmt_prims f) (c_load (library c)) (c_flags (library c)) n).
  Let x0 := mk_world [] None None None [] [] false 0%Z.
  Lemma load_root_ok :
    load_root (fmt_prims f) (c_flags (library c)) rec (fun m t => rdl (body m t)) c (mkLevel x0 m t) (mkRg (rst f D tail [[nd]]) [] []) =
    Ret (mkLevel (mk_world (map (map_tree (place' wc)) (world_vobs x)) (option_map (place' wc) (world_way_net x)) None None [] [] false 0%Z) m' t',
         mkRg (rst f D tail [[]]) (rc_of wc) (heap_of (library c) G (place' wc) [] wc)).
  Proof.
    unfold load_root, load_into. unfold bind at 1, rgl at 1. cbn [rg_s rg_cache rg_heap fmt_prims p_begin].
    destruct (R_begin f D tail HD Htail _ [[nd]] _ eq_refl Hgood) as [E G1]. rewrite E. clear E. cbv beta iota.
    replace (bytes_eqb _ (lit "oCWorld:zCWorld")) with true by (destruct f; reflexivity). cbn [negb]. cbv iota.
    destruct (cf_depth c) as [|[|[|[|k]]]] eqn:Ed; try lia.
    unfold bind at 1. unfold bind at 1. cbn [lv_world lv_mesh lv_bsp x0 world_vobs world_way_net world_player world_sky].
    assert (Es : level_sections (fmt_prims f) (c_flags (library c)) rec (fun m t => rdl (body m t)) c (S (S (S (S k)))) m t
              (mkSects [] None None None) (mkRg (rst f D tail [NObj h_mesh [NRaw raw] :: nds; []]) [] []) =
            Ret ((m', t', mkSects (map (map_tree (place' wc)) (world_vobs x)) (option_map (place' wc) (world_way_net x)) None None),
                 mkRg (rst f D tail [[]; []]) (rc_of wc) (heap_of (library c) G (place' wc) [] wc)) /\ good f D tail [[]; []]).
    { rewrite <- Ed in Hts.
      cbn [level_sections]. unfold bind at 1, rgl at 1. cbn [rg_s rg_cache rg_heap fmt_prims p_end].
      destruct (R_end f D tail HD Htail _ [NObj h_mesh [NRaw raw] :: nds; []] _ eq_refl G1) as [E G2]. rewrite E. clear E.
      unfold bind at 1, rgl at 1. cbn [rg_s rg_cache rg_heap fmt_prims p_begin].
      destruct (R_begin f D tail HD Htail _ [NObj h_mesh [NRaw raw] :: nds; []] _ eq_refl G2) as [E G3]. rewrite E. clear E. cbv beta iota.
      cbn [oh_name h_mesh]. change (bytes_eqb (lit "MeshAndBsp") (lit "EndMarker")) with false.
      change (bytes_eqb (lit "MeshAndBsp") (lit "MeshAndBsp")) with true. cbv iota.
      destruct (R_raw f D tail HD Htail _ raw _ nds [[]] Hraw G3) as (r & E1 & E2 & G4).
      unfold bind at 1. unfold bind at 1. unfold rgl at 1. cbn [rg_s rg_cache rg_heap]. rewrite E1. cbn [fst snd ret]. unfold ret at 1.
      unfold bind at 1, rgl at 1. cbn [rg_s rg_cache rg_heap fmt_prims p_end]. rewrite E2. unfold bind at 1. cbn [fst snd]. unfold ret at 1.
      pose proof (flat_level c f (g_type (library c) G) (place' wc) (flags_now (library c) G []) x k Hv Hts Hw) as Hf.
      destruct (runp_flat (library c) G f HG n (fun _ => True) wc [] [] [] _ [] [level_ops x] [nds] wc [] _ _ eq_refl H1 H2
                 (incl_nil_l _) (fun _ _ => Forall_nil _) (ST_cons _ _ _ _ _ _ _ _ _ _ _ _ Ht (ST_nil _ _ _ _ _ _)) Hf)
        as (nst' & wc1 & A1 & _ & A3).
      inversion A1 as [|? ? ? ? ? ? ? B1 B2]; subst. inversion B1; subst. inversion B2; subst.
      cbn [app] in A3. cbn [rc_of] in A3. change (heap_of (library c) G (place' wc) [] []) with (@nil (hobj object)) in A3.
      pose proof (agrees_runp f D tail HD Htail (c_flags (library c)) _ _ (p_sections c (S (S (S k))) (mkSects [] None None None))
                  (agrees_read_obj f D tail HD Htail (c_load (library c)) (c_flags (library c)) n) (mkRg [nds; []] [] [])) as Ha.
      match type of A3 with ?l = _ => match type of Ha with _ -> match ?q with _ => _ end => change q with l in Ha end end.
      rewrite A3 in Ha. destruct Ha as [Ha G5]; [exact G4|].
      split; [|exact G5]. unfold up in Ha. cbn [rg_s rg_cache rg_heap] in Ha.
      exact (sections_same _ _ _ _ _ _ _ _ _ _ _ _ Ha). }
    destruct Es as [Es G6].
    match type of Es with ?l = _ => match goal with |- context [level_sections ?a1 ?a2 ?a3 ?a4 ?a5 ?a6 ?a7 ?a8 ?a9 ?a10] =>
      change (level_sections a1 a2 a3 a4 a5 a6 a7 a8 a9 a10) with l end end.
    rewrite Es. clear Es. rewrite Hsave. unfold bind at 1. unfold ret at 1 2. cbn [fst snd ss_vobs ss_way ss_player ss_sky x0 world_npcs world_spawns world_spawn_enabled world_spawn_flags].
    unfold bind at 1, rgl at 1. cbn [rg_s rg_cache rg_heap fmt_prims p_end].
    destruct (R_end f D tail HD Htail _ [[]; []] _ eq_refl G6) as [E _]. rewrite E. reflexivity.
  Qed.
End Loading.

(** ** Together *)
Lemma game_read g : (if SBsp.game_version g =? bsp_version_g2 then G2 else G1) = g.
Proof. destruct g; reflexivity. Qed.
Lemma level_parts c G n raw x (dom : list oid) f :
  graph_ok (library c) G f -> (forall r, G r <> None -> In r dom) -> (forall a b, refers (library c) G a b -> G b <> None) ->
  (forall r, In r (world_objects x) -> G r <> None) -> n = S (length dom) ->
  len (world_vobs x) < 2 ^ 31 -> Forall (ok_tree (g_type (library c) G) (cf_depth c)) (world_vobs x) ->
  refers_to (g_type (library c) G) (world_way_net x) zCWayNet ->
  exists nd w wc, level_content c G n raw x = Some (nd, w, wc).
Proof.
  intros HG Hdom Hcl Hrefs -> Hv Hts Hw.
  assert (Hops : forall r x, G r = Some x ->
    class_of_type (c_type (library c) x) <> None /\ forallb wgood (g_ops (library c) G x) = true).
  { intros r y Hx. destruct (HG r y Hx) as [(_ & Hc & Ho) _]. split; [exact Hc|].
    destruct (Ho (fun r => r) (g_flags (library c) G) [] (fun _ _ _ _ H => H) (fun _ _ => eq_refl)) as (p & _ & Hf).
    apply flat_good in Hf; [|constructor; [reflexivity | constructor]]. inversion Hf; assumption. }
  destruct (ops_fine (library c) G dom Hdom Hcl Hops (S (length dom)) (all_fine (library c) G dom Hdom Hcl Hops (S (length dom)))
             (level_ops x) (w_mesh raw) []) as (w' & wc' & A & _ & _ & A2).
  - split; [constructor | intros z []].
  - cbn [length]. lia.
  - pose proof (flat_level c f (g_type (library c) G) (fun r => r) (g_flags (library c) G) x 0 Hv Hts Hw) as Hf.
    apply flat_good in Hf; [|constructor; [reflexivity | constructor]]. inversion Hf; assumption.
  - intros r Hr. rewrite level_refs in Hr. apply Hrefs, Hr.
  - unfold level_content. rewrite level_nw. unfold bind at 1. rewrite A. unfold wgl. cbn [wg_s wg_cache nwprims wp_end].
    unfold nw_end. rewrite A2. cbn [w_mesh nw_open nw_cur wg_s app]. do 3 eexists. reflexivity.
Qed.

Lemma level_comes_back : forall c G f (dom : list oid) e1 e2 m1 m2 order x mode,
  library_graph c G -> (forall r, G r <> None -> In r dom) ->
  (forall a b, refers (library c) G a b -> G b <> None) ->
  (forall r, In r (world_objects (lv_world x)) -> G r <> None) ->
  level_ok c (g_type (library c) G) x ->
  some_order order -> env_ok e2 -> env_ok m2 ->
  len (we_date e1) = len (we_date e2) -> len (we_user e1) = len (we_user e2) ->
  len (we_date m1) = len (we_date m2) -> len (we_user m1) = len (we_user m2) ->
  (cf_game c = G1 -> we_user e2 <> lit "XZEN") ->
  exists raw, let n := S (length dom) in
    (len raw < 2 ^ 31 -> file_of (save_mesh_bsp order m1 m2 (cf_game c) (lv_mesh x) (lv_bsp x)) = Ret raw) /\
    exists nd w wc, level_content c G n raw (lv_world x) = Some (nd, w, wc) /\
    (archive_fits f e2 nd (nw_idx w) (nw_keys w) ->
     exists b h ph y,
       save_level f e1 e2 m1 m2 order c G n x = Ret b /\
       of_file (load_level c n (lv_new mode) []) b = Ret (y, h) /\
       same_level ph x y /\
       isomorphic_all (library c) G (world_objects (lv_world x)) ph h /\
       of_file (load_any (cf_pack c) (cf_depth c) n (lv_new mode) []) b = Ret (cf_game c, (y, h))).
Proof.
  intros c G f dom e1 e2 m1 m2 order x mode HL Hdom Hcl Hrefs (Hsv & Hdp & Hv & Hts & Hw & Hm & Hvi & Hb) Ho He Hme Hd Hu Hmd Hmu Hx.
  pose proof (library_graph_ok c G f HL) as HG.
  set (xzen := bytes_eqb (we_user e2) (lit "XZEN")).
  assert (Hxz : cf_game c = G1 -> xzen = false).
  { intros E. unfold xzen. destruct (bytes_eqb (we_user e2) (lit "XZEN")) eqn:Eq; [|reflexivity].
    apply bytes_eqb_spec in Eq. contradiction (Hx E Eq). }
  destruct (raw_exists order m1 m2 (cf_game c) (lv_mesh x) (lv_bsp x) xzen mode Ho Hme Hmd Hmu Hm Hvi Hb Hxz) as (raw & R1 & R2 & R3).
  exists raw. set (n := S (length dom)). cbv zeta. split.
  { intros Hl. unfold file_of, w_empty. pose proof (R2 [] Hl) as E. change (len (@nil byte)) with 0 in E. rewrite E. reflexivity. }
  destruct (level_parts c G n raw (lv_world x) dom f HG Hdom Hcl Hrefs eq_refl Hv Hts Hw) as (nd & w & wc & Hc).
  exists nd, w, wc. split; [exact Hc|]. intros Hf.
  destruct (level_shape c G f HG n raw (lv_world x) nd w wc Hc) as (nds & w5 & A1 & A2 & A3 & A4 & A5 & A6 & A7 & A8 & A9).
  assert (Hn : exists hh l, nd = NObj hh l) by (rewrite A2; eauto).
  set (D := archive_bytes f e2 false nd (nw_idx w) (nw_keys w)).
  assert (HD : len D < 2 ^ 31).
  { destruct Hf as (_ & Hi & _ & _ & Hl & _). unfold D. revert Hl. unfold archive_bytes, archive_head. rewrite !len_app.
    rewrite (len_header_text f e2 e2 true false) by reflexivity. destruct f; rewrite ?len_app, ?len_le_enc; exact (fun H => H). }
  assert (Hrl : len raw < 2 ^ 31).
  { eapply N.le_lt_trans; [|exact HD]. unfold D, archive_bytes. rewrite !len_app. rewrite A2. cbn [encode encodes flat_map].
    rewrite !len_app. lia. }
  destruct (R3 Hrl) as [R4 [rest R5]].
  assert (Hsave : save_level f e1 e2 m1 m2 order c G n x = Ret D).
  { unfold save_level. apply (save_any f e1 e2 false Hd Hu (g_graph (library c) G) _ nd w wc); try assumption.
    intros hd old Hold Hfit. apply (W_level f hd old Hold false _ _ raw); assumption. }
  assert (Htail : after_ok f (archive_tail f (nw_keys w))) by (destruct f; [exact I | exact I | cbn; discriminate]).
  destruct (open_at D HD f e2 false nd (nw_idx w) (nw_keys w) eq_refl He Hn Hf) as [Hop Hsuf].
  assert (Hg : good f D (archive_tail f (nw_keys w)) [[nd]]).
  { split; [discriminate|]. destruct Hf as (Hok & _). split.
    - constructor; [|constructor]. cbn [forallb]. rewrite Hok. reflexivity.
    - cbn [senc length encodes flat_map]. rewrite !app_nil_r. exact Hsuf. }
  assert (Er : mkRar (pos D (strip f (encode f 0 nd ++ archive_tail f (nw_keys w)))) [] = rst f D (archive_tail f (nw_keys w)) [[nd]]).
  { unfold rst, rat. cbn [senc length encodes flat_map]. rewrite !app_nil_r. destruct f; reflexivity. }
  clearbody D. set (tail := archive_tail f (nw_keys w)) in *.
  assert (Ec : mkCfg (cf_game c) false (cf_pack c) (cf_depth c) = c) by (destruct c; cbn in *; congruence).
  rewrite A2 in Hg, Er.
  set (y := mkLevel (mk_world (map (map_tree (SArchive.place wc)) (world_vobs (lv_world x)))
                              (option_map (SArchive.place wc) (world_way_net (lv_world x))) None None [] [] false 0%Z)
                    (raw_mesh order (lv_mesh x) (lv_bsp x)) (lv_bsp x)).
  set (h := heap_of (library c) G (SArchive.place wc) [] wc).
  assert (Hload : exists r, load_level c n (lv_new mode) [] (mkR D 0) = Ret ((y, h), r)).
  { unfold load_level. rewrite Hop. cbn [read_head ah_format ah_save ah_user]. rewrite Ec. fold xzen. rewrite A2, Er.
    pose proof (load_root_ok c G f HG D tail HD Htail n raw nds wc (lv_world x) A5 A6 A7 Hv Hts Hw Hdp Hsv Hg
                  (load_mesh_bsp xzen) mesh_new _ (bsp_new mode) _ R4) as E.
    match type of E with ?l = _ => match goal with |- context [load_root ?a1 ?a2 ?a3 ?a4 ?a5 ?a6 ?a7] =>
      change (load_root a1 a2 a3 a4 a5 a6 a7) with l end end.
    rewrite E. eexists. reflexivity. }
  destruct Hload as [r Hload].
  exists D, h, (SArchive.place wc), y. split; [exact Hsave|]. split; [unfold of_file; rewrite Hload; reflexivity|]. split; [|split].
  - split; [reflexivity|]. split; [reflexivity|]. exact (raw_mesh_same order (cf_game c) (lv_mesh x) (lv_bsp x) Ho Hm).
  - assert (Hin : forall r, from_any (library c) G (world_objects (lv_world x)) r <-> In r (map fst wc)).
    { intros q. destruct (closed_ops (library c) G nwprims n (closed_obj (library c) G nwprims n) (level_ops (lv_world x)) _ _ _ _ A9) as [(ext & E & Hcl') Hops'].
      rewrite app_nil_r in E. subst ext. rewrite level_refs in Hops'. split.
      - intros (a & Ha & Hq). specialize (Hops' a Ha).
        clear - Hq Hops' Hcl'. induction Hq as [a | a b d Hab IH Hbc]; [exact Hops'|]. eapply Hcl'; [apply IH; exact Hops' | exact Hbc].
      - intros Hq. destruct (from_ops (library c) G nwprims n (from_obj (library c) G nwprims n) (level_ops (lv_world x)) _ [] w5 wc A9) as (ext & E & Hx').
        rewrite app_nil_r in E. subst ext. destruct (Hx' q Hq) as (a & Ia & Ra). rewrite level_refs in Ia. exists a. split; [exact Ia | exact Ra]. }
    split; [|split].
    + intros q Hq. apply Hin in Hq. destruct (nth_heap_of (library c) G (SArchive.place wc) [] wc q Hq) as [i Hi].
      specialize (A8 q Hq). destruct (G q) as [z|] eqn:Ez; [|contradiction]. exists z, i. split; [reflexivity|].
      unfold h. rewrite Hi. unfold hentry. cbn [fst snd inb existsb]. unfold g_type. rewrite Ez. reflexivity.
    + intros q q' Hq Hq'. apply Hin in Hq. apply Hin in Hq'. apply LArchP.place_inj; assumption.
    + exists (map fst wc). split; [exact A6|]. split; [exact Hin|]. unfold h. rewrite len_heap_of. unfold len. rewrite map_length. reflexivity.
  - unfold of_file, load_any. unfold bind at 1, rd_tell at 1. cbn [rpos].
    assert (Hdet : exists p, determine_version n (mkR D 0) = Ret (cf_game c, mkR D p)).
    { unfold determine_version. rewrite Hop. cbn [read_head ah_format ah_save]. rewrite A2, Er.
      unfold bind at 1.
      destruct (R_begin f D tail HD Htail _ [[NObj h_root (NObj h_mesh [NRaw raw] :: nds)]] _ eq_refl Hg) as [E P1]. rewrite E. clear E. cbv beta iota.
      unfold n. cbn [find_version].
      unfold bind at 1. destruct (R_end f D tail HD Htail _ [NObj h_mesh [NRaw raw] :: nds; []] _ eq_refl P1) as [E P2]. rewrite E. clear E. cbv iota.
      unfold bind at 1. destruct (R_begin f D tail HD Htail _ [NObj h_mesh [NRaw raw] :: nds; []] _ eq_refl P2) as [E P3]. rewrite E. clear E. cbv iota.
      cbn [oh_name h_mesh]. change (bytes_eqb (lit "MeshAndBsp") (lit "MeshAndBsp")) with true. cbv iota.
      rewrite R5 in P3 |- *.
      destruct (R_raw_first f D tail HD Htail (SBsp.game_version (cf_game c)) rest nds [[]]) as (r' & E & Ed); [destruct (cf_game c); reflexivity | exact P3 |].
      unfold bind at 1. rewrite E. rewrite game_read. unfold ret. destruct r' as [[dd pp] ends]. cbn [ra_r rdata] in Ed |- *. subst dd.
      eexists. reflexivity. }
    destruct Hdet as [p Hdet]. unfold bind at 1. rewrite Hdet. unfold bind at 1.
    rewrite rd_seek_beg by (try (apply small_max; exact HD); lia). rewrite Ec. unfold bind at 1. rewrite Hload. reflexivity.
Qed.

(** ** Archives that are not worlds *)
Section Refused.
  Variables (f : fmt) (e : wenv) (save : bool) (h : ohead) (l : list node) (idx : N) (keys : list bytes).
  Hypothesis He : env_ok e.
  Hypothesis Hf : archive_fits f e (NObj h l) idx keys.
  Notation D := (archive_bytes f e save (NObj h l) idx keys).
  Lemma refused_small : len D < 2 ^ 31.
  Proof.
    destruct Hf as (_ & Hi & _ & _ & Hl & _). revert Hl. unfold archive_bytes, archive_head. rewrite !len_app.
    rewrite (len_header_text f e e true save) by reflexivity. destruct f; rewrite ?len_app, ?len_le_enc; exact (fun H => H).
  Qed.
  Lemma refused_save pack depth n x h0 : save = true -> of_file (load_any pack depth n x h0) D = Throw ParserError.
  Proof.
    intros Hs. destruct (open_at D refused_small f e save (NObj h l) idx keys eq_refl He (ex_intro _ h (ex_intro _ l eq_refl)) Hf) as [Ho _].
    unfold of_file, load_any, bind, rd_tell. cbn [rpos]. unfold determine_version. rewrite Ho. cbn [read_head ah_save]. rewrite Hs. reflexivity.
  Qed.
  Lemma refused_other c n x h0 : shown_class f (oh_class h) <> lit "oCWorld:zCWorld" ->
    of_file (load_level c n x h0) D = Throw ParserError.
  Proof.
    intros Hc. destruct (open_at D refused_small f e save (NObj h l) idx keys eq_refl He (ex_intro _ h (ex_intro _ l eq_refl)) Hf) as [Ho Hsuf].
    set (tail := archive_tail f keys) in *.
    assert (Htail : after_ok f tail) by (unfold tail; destruct f; cbn; try exact I; try discriminate).
    assert (Hg : good f D tail [[NObj h l]]).
    { split; [discriminate|]. destruct Hf as (Hok & _). split.
      - constructor; [|constructor]. cbn [forallb]. rewrite Hok. reflexivity.
      - cbn [senc length encodes flat_map]. rewrite !app_nil_r. exact Hsuf. }
    assert (Er : mkRar (pos D (strip f (encode f 0 (NObj h l) ++ tail))) [] = rst f D tail [[NObj h l]]).
    { unfold rst, rat. cbn [senc length encodes flat_map]. rewrite !app_nil_r. destruct f; reflexivity. }
    destruct (R_begin f D tail refused_small Htail _ [[NObj h l]] _ eq_refl Hg) as [E _].
    unfold of_file, load_level. rewrite Ho. cbn [read_head ah_format]. rewrite Er. unfold load_root. unfold bind at 1, rgl at 1.
    cbn [rg_s fmt_prims p_begin]. rewrite E. cbn [oh_class].
    destruct (bytes_eqb (shown_class f (oh_class h)) (lit "oCWorld:zCWorld")) eqn:Eq; [apply bytes_eqb_spec in Eq; contradiction|]. reflexivity.
  Qed.
End Refused.

(** ** Detecting the game behind other sections *)
Lemma finds_version f D tail (HD : len D < 2 ^ 31) (Htail : after_ok f tail) hm v rest post s0 st0 : oh_name hm = lit "MeshAndBsp" -> v < 2 ^ 32 ->
  forall pre n name, (List.length pre < n)%nat -> Forall (other_section f) pre ->
  good f D tail ((pre ++ NObj hm [NRaw (le_enc 4 v ++ rest)] :: post) :: s0 :: st0) ->
  exists r, find_version f n name (rst f D tail ((pre ++ NObj hm [NRaw (le_enc 4 v ++ rest)] :: post) :: s0 :: st0)) =
    Ret (game_of v, r) /\ rdata (ra_r r) = D.
Proof.
  intros Hm Hv. induction pre as [|x pre IH]; intros n name Hn Hp Hg; (destruct n as [|n]; [cbn in Hn; lia|]).
  - cbn [app] in *. cbn [find_version].
    unfold bind at 1. destruct (R_end f D tail HD Htail _ ((NObj _ _ :: _) :: s0 :: st0) _ eq_refl Hg) as [E P2]. rewrite E. clear E. cbv iota.
    unfold bind at 1. destruct (R_begin f D tail HD Htail _ ((NObj _ _ :: _) :: s0 :: st0) _ eq_refl P2) as [E P3]. rewrite E. clear E. cbv iota.
    cbn [oh_name]. rewrite Hm. change (bytes_eqb (lit "MeshAndBsp") (lit "MeshAndBsp")) with true. cbv iota.
    destruct (R_raw_first f D tail HD Htail v rest post (s0 :: st0) Hv P3) as (r' & E & Ed).
    unfold bind at 1. rewrite E. eexists. split; [reflexivity | exact Ed].
  - inversion Hp as [|? ? (h & l & -> & Hne & Hsk) Hp']; subst. cbn [app] in *. cbn [find_version].
    unfold bind at 1. destruct (R_end f D tail HD Htail _ ((NObj _ _ :: _) :: s0 :: st0) _ eq_refl Hg) as [E P2]. rewrite E. clear E. cbv iota.
    unfold bind at 1. destruct (R_begin f D tail HD Htail _ ((NObj _ _ :: _) :: s0 :: st0) _ eq_refl P2) as [E P3]. rewrite E. clear E. cbv iota.
    cbn [oh_name]. replace (bytes_eqb (oh_name h) (lit "MeshAndBsp")) with false
      by (symmetry; apply bytes_eqb_false; exact Hne).
    cbv iota. unfold bind at 1.
    assert (Hs : n_skip f true (l :: (pre ++ NObj hm [NRaw (le_enc 4 v ++ rest)] :: post) :: s0 :: st0) = Ret (tt, (pre ++ NObj hm [NRaw (le_enc 4 v ++ rest)] :: post) :: s0 :: st0)).
    { cbn [n_skip]. rewrite Hsk. reflexivity. }
    destruct (R_skip f D tail HD Htail _ _ _ Hs P3) as [E P4]. rewrite E. clear E. cbv iota.
    cbn [List.length] in Hn. apply IH; [lia | exact Hp' | exact P4].
Qed.
Lemma detects : forall f e h pre hm v rest post idx keys n,
  env_ok e -> oh_name hm = lit "MeshAndBsp" -> v < 2 ^ 32 -> (List.length pre < n)%nat -> Forall (other_section f) pre ->
  archive_fits f e (NObj h (pre ++ NObj hm [NRaw (le_enc 4 v ++ rest)] :: post)) idx keys ->
  forall pack depth x h0, let b := archive_bytes f e false (NObj h (pre ++ NObj hm [NRaw (le_enc 4 v ++ rest)] :: post)) idx keys in
  of_file (load_any pack depth n x h0) b =
  match of_file (load_level (mkCfg (game_of v) false pack depth) n x h0) b with
  | Ret y => Ret (game_of v, y) | Throw e => Throw e | Undef => Undef | Fuel => Fuel
  end.
Proof.
  intros f e h pre hm v rest post idx keys n He Hm Hv Hn Hp Hf pack depth x h0.
  set (l := pre ++ NObj hm [NRaw (le_enc 4 v ++ rest)] :: post) in *. cbv zeta. set (D := archive_bytes f e false (NObj h l) idx keys).
  pose proof (refused_small f e false h l idx keys Hf) as HD. fold D in HD.
  destruct (open_at D HD f e false (NObj h l) idx keys eq_refl He (ex_intro _ h (ex_intro _ l eq_refl)) Hf) as [Ho Hsuf].
  set (tail := archive_tail f keys) in *.
  assert (Htail : after_ok f tail) by (unfold tail; destruct f; cbn; try exact I; try discriminate).
  assert (Hg : good f D tail [[NObj h l]]).
  { split; [discriminate|]. destruct Hf as (Hok & _). split.
    - constructor; [|constructor]. cbn [forallb]. rewrite Hok. reflexivity.
    - cbn [senc length encodes flat_map]. rewrite !app_nil_r. exact Hsuf. }
  assert (Er : mkRar (pos D (strip f (encode f 0 (NObj h l) ++ tail))) [] = rst f D tail [[NObj h l]]).
  { unfold rst, rat. cbn [senc length encodes flat_map]. rewrite !app_nil_r. destruct f; reflexivity. }
  assert (Hdet : exists p, determine_version n (mkR D 0) = Ret (game_of v, mkR D p)).
  { unfold determine_version. rewrite Ho. cbn [read_head ah_format ah_save]. rewrite Er. unfold bind at 1.
    destruct (R_begin f D tail HD Htail _ [[NObj h l]] _ eq_refl Hg) as [E P1]. rewrite E. clear E. cbv beta iota.
    destruct (finds_version f D tail HD Htail hm v rest post [] [] Hm Hv pre n (oh_name (mkH (oh_name h) (shown_class f (oh_class h)) (oh_ver h) (oh_idx h))) Hn Hp P1) as (r & E & Ed).
    unfold l. rewrite E. destruct r as [[dd pp] ends]. cbn [ra_r rdata] in Ed |- *. subst dd. eexists. reflexivity. }
  destruct Hdet as [p Hdet]. unfold of_file, load_any. unfold bind at 1, rd_tell at 1. cbn [rpos].
  unfold bind at 1. rewrite Hdet. unfold bind at 1.
  rewrite rd_seek_beg by (try (apply small_max; exact HD); lia). unfold bind at 1.
  destruct (load_level (mkCfg (game_of v) false pack depth) n x h0 (mkR D 0)) as [[y r]| | |]; reflexivity.
Qed.

(** ** Loading adds trees *)
Lemma section_adds {S Ob} (P : prims S) (fl : Ob -> Z) rec c name s g s' g' :
  runp P fl rec (p_section c name s) g = Ret (s', g') -> exists l, ss_vobs s' = ss_vobs s ++ l.
Proof.
  unfold p_section. intros H.
  destruct (bytes_eqb name (lit "MeshAndBsp")); [discriminate|].
  destruct (bytes_eqb name (lit "VobTree")).
  { rewrite LSave.runp_pbind in H. destruct (runp P fl rec p_upto g) as [[k g1]| | |]; try discriminate.
    rewrite LSave.runp_pbind in H. destruct (runp P fl rec (p_rep k (p_tree (cf_depth c))) g1) as [[q g2]| | |]; try discriminate.
    injection H as <- <-. eexists. reflexivity. }
  repeat match type of H with context [if ?b then _ else _] => destruct b end;
    first [ rewrite LSave.runp_pbind in H; match type of H with context [match ?m with _ => _ end] => destruct m as [[r g1]| | |]; try discriminate end;
            injection H as <- <-; exists []; rewrite app_nil_r; reflexivity
          | injection H as <- <-; exists []; rewrite app_nil_r; reflexivity ].
Qed.
Lemma sections_add {S Ob} (P : prims S) (fl : Ob -> Z) rec raw c k : forall m t s g m' t' s' g',
  level_sections P fl rec raw c k m t s g = Ret ((m', t', s'), g') -> exists l, ss_vobs s' = ss_vobs s ++ l.
Proof.
  induction k as [|k IH]; intros m t s g m' t' s' g' H; [discriminate|]. cbn [level_sections] in H.
  apply bind_Ret in H as (e & g1 & _ & H). destruct e.
  { injection H as _ _ <- _. exists []. rewrite app_nil_r. reflexivity. }
  apply bind_Ret in H as (o & g2 & _ & H). destruct o as [o|]; [|discriminate].
  destruct (bytes_eqb (oh_name o) (lit "EndMarker")).
  { apply bind_Ret in H as (e & g3 & _ & H). injection H as _ _ <- _. exists []. rewrite app_nil_r. reflexivity. }
  apply bind_Ret in H as ([[m1 t1] s1] & g3 & H1 & H). apply bind_Ret in H as (e & g4 & _ & H). apply bind_Ret in H as ([] & g5 & _ & H).
  cbn [fst snd] in H. destruct (IH _ _ _ _ _ _ _ _ H) as [l2 E2]. rewrite E2. clear IH H.
  destruct (bytes_eqb (oh_name o) (lit "MeshAndBsp")).
  - apply bind_Ret in H1 as (mt & g6 & _ & H1). injection H1 as _ _ <- _. eauto.
  - apply bind_Ret in H1 as (s2 & g6 & H1 & H2). injection H2 as _ _ <- _.
    destruct (section_adds _ _ _ _ _ _ _ _ _ H1) as [l1 ->]. rewrite <- app_assoc. eauto.
Qed.
Lemma loading_adds : forall c n x h0 b y h, of_file (load_level c n x h0) b = Ret (y, h) ->
  exists l, world_vobs (lv_world y) = world_vobs (lv_world x) ++ l.
Proof.
  intros c n x h0 b y h H. unfold of_file, load_level in H.
  destruct (ar_open (mkR b 0)) as [[hd r]| | |]; try discriminate.
  match type of H with context [load_root ?P ?fl ?rec ?raw ?c' x ?g] => destruct (load_root P fl rec raw c' x g) as [[y' g']| | |] eqn:E; try discriminate end.
  injection H as -> _. unfold load_root in E.
  apply bind_Ret in E as (o & g1 & _ & E). destruct o as [o|]; [|discriminate].
  destruct (negb (bytes_eqb (oh_class o) (lit "oCWorld:zCWorld"))); [discriminate|].
  apply bind_Ret in E as (y' & g2 & E1 & E). apply bind_Ret in E as (e & g3 & _ & E). apply bind_Ret in E as ([] & g4 & _ & E).
  injection E as -> _. unfold load_into in E1.
  apply bind_Ret in E1 as ([[m1 t1] s1] & g5 & H1 & E1). apply bind_Ret in E1 as ([[[a1 a2] a3] a4] & g6 & _ & E1).
  injection E1 as <- _. cbn [lv_world world_vobs snd]. apply sections_add in H1. exact H1.
Qed.

(** ** The end of the chunks *)
Lemma at_end_reads D k : k <= 2 ^ 63 -> len D < max_size -> rd_fixed k (mkR D (len D)) = Ret (zeros k, mkR D (len D)).
Proof.
  intros Hk Hl. unfold rd_fixed, bind. rewrite rd_read_spec by (first [exact Hk | split; cbn [rdata rpos]; [lia | exact Hl]]).
  cbn [rdata rpos]. rewrite N.sub_diag, N.min_0_r, N.add_0_r. rewrite take_0. unfold ret, pad_to. cbn [app]. rewrite len_nil, N.sub_0_r. reflexivity.
Qed.
Lemma skip_stuck : forall n D, len D < max_size -> skip_chunks n (mkR D (len D)) = Fuel.
Proof.
  induction n as [|n IH]; intros D Hl; [reflexivity|]. cbn [skip_chunks]. unfold read_ushort, read_uint, bind.
  rewrite !at_end_reads by (try exact Hl; discriminate). unfold ret. rewrite at_end_reads by (try exact Hl; discriminate).
  change (le_dec (zeros 4)) with 0. change (le_dec (zeros 2)) with 0. unfold rd_seek, seek_internal. cbn [rdata rpos].
  change (Z.of_N 0) with 0%Z. rewrite sint_small by (pows; lia). rewrite ssize_add_ok by (pows; lia). cbn [obind].
  rewrite Z.add_0_r, uint_small by (pows; lia). rewrite N2Z.id, N.ltb_irrefl. change (0 =? M_END) with false. apply IH. exact Hl.
Qed.

Lemma skip_step s : r_ok s -> len (rdata s) < 2 ^ 62 -> rpos s < len (rdata s) -> exists ty s', rdata s' = rdata s /\ r_ok s' /\ rpos s < rpos s' /\
  forall n, skip_chunks (S n) s = if ty =? M_END then Ret (tt, s') else skip_chunks n s'.
Proof.
  intros H H62 Hlt. destruct s as [D p]. cbn [rdata rpos] in *. pose proof H as [_ Hl]. cbn [rdata] in Hl.
  set (p1 := p + N.min 2 (len D - p)). assert (H1 : r_ok (mkR D p1)) by (split; cbn [rdata rpos]; [unfold p1; lia | exact Hl]).
  set (p2 := p1 + N.min 4 (len D - p1)). assert (H2 : r_ok (mkR D p2)) by (split; cbn [rdata rpos]; [unfold p2, p1; lia | exact Hl]).
  set (ty := le_dec (pad_to 2 (take (N.min 2 (len D - p)) (drop p D)))).
  set (bs := pad_to 4 (take (N.min 4 (len D - p1)) (drop p1 D))).
  assert (Hb : le_dec bs < 2 ^ 32).
  { pose proof (le_dec_bound bs) as Q. replace (len bs) with 4 in Q; [exact Q|]. unfold bs, pad_to. rewrite len_app, len_zeros, len_take, len_drop. lia. }
  assert (Hp1 : p < p1) by (unfold p1; lia). assert (Hp2 : p1 <= p2) by (unfold p2; lia).
  assert (Hp2l : p2 <= len D) by (destruct H2; assumption).
  exists ty, (if len D <? p2 + le_dec bs then mkR D p2 else mkR D (p2 + le_dec bs)).
  split; [destruct (len D <? p2 + le_dec bs); reflexivity|].
  split; [destruct (N.ltb_spec (len D) (p2 + le_dec bs)); [exact H2 | split; cbn [rdata rpos]; [lia | exact Hl]]|].
  split; [destruct (len D <? p2 + le_dec bs); cbn [rpos]; lia|].
  intros n. cbn [skip_chunks]. unfold read_ushort, read_uint, rd_fixed, bind.
  rewrite rd_read_spec by (first [exact H | pows; lia]). cbn [rdata rpos]. unfold ret.
  fold p1. rewrite rd_read_spec by (first [exact H1 | pows; lia]). cbn [rdata rpos]. fold p2. fold bs. fold ty.
  unfold rd_seek, seek_internal. cbn [rdata rpos].
  rewrite sint_small by (clear -Hl Hp2l; pows; lia). rewrite ssize_add_ok by (clear -H62 Hb Hp2l; pows; lia). cbn [obind].
  rewrite uint_small by (clear -H62 Hb Hp2l; pows; lia). rewrite <- N2Z.inj_add, N2Z.id.
  destruct (len D <? p2 + le_dec bs); destruct (ty =? M_END); reflexivity.
Qed.
Lemma skip_enough_aux : forall k s n m, N.to_nat (len (rdata s) - rpos s) = k -> r_ok s -> len (rdata s) < 2 ^ 62 -> skip_chunks n s <> Fuel -> (k < m)%nat ->
  skip_chunks m s = skip_chunks n s.
Proof.
  induction k as [k IH] using (well_founded_induction Wf_nat.lt_wf). intros s n m Ek H H62 Hn Hm.
  destruct n as [|n]; [exfalso; apply Hn; reflexivity|]. destruct m as [|m]; [lia|].
  destruct (N.eq_dec (rpos s) (len (rdata s))) as [Ep|Ep].
  { exfalso. apply Hn. destruct s as [D p]. cbn [rdata rpos] in *. subst p. apply skip_stuck. apply H. }
  destruct (skip_step s H H62) as (ty & s' & Ed & H' & Hp & Q); [destruct H; lia|]. rewrite !Q in *.
  destruct (ty =? M_END); [reflexivity|].
  assert (Hd' : rpos s' <= len (rdata s')) by apply H'. rewrite Ed in Hd'.
  apply (IH (N.to_nat (len (rdata s') - rpos s'))); [|reflexivity|exact H'| |exact Hn|]; rewrite Ed; first [exact H62 | lia].
Qed.
Lemma skip_enough n s : r_ok s -> len (rdata s) < 2 ^ 62 -> skip_chunks n s <> Fuel -> skip_chunks (S (N.to_nat (len (rdata s) - rpos s))) s = skip_chunks n s.
Proof. intros H H62 Hn. apply (skip_enough_aux _ s n _ eq_refl H H62 Hn). lia. Qed.

Lemma worlds_come_back : forall c G f (dom : list oid) e1 e2 m1 m2 order x mode,
  library_graph c G -> (forall r, G r <> None -> In r dom) ->
  (forall a b, refers (library c) G a b -> G b <> None) ->
  (forall r, In r (world_objects (lv_world x)) -> G r <> None) ->
  level_ok c (g_type (library c) G) x ->
  some_order order -> env_ok e2 -> env_ok m2 ->
  len (we_date e1) = len (we_date e2) -> len (we_user e1) = len (we_user e2) ->
  len (we_date m1) = len (we_date m2) -> len (we_user m1) = len (we_user m2) ->
  (cf_game c = G1 -> we_user e2 <> lit "XZEN") ->
  exists raw, let n := S (length dom) in
    (len raw < 2 ^ 31 -> file_of (save_mesh_bsp order m1 m2 (cf_game c) (lv_mesh x) (lv_bsp x)) = Ret raw) /\
    exists nd w wc, level_content c G n raw (lv_world x) = Some (nd, w, wc) /\
    (archive_fits f e2 nd (nw_idx w) (nw_keys w) ->
     exists b h ph y,
       save_level f e1 e2 m1 m2 order c G n x = Ret b /\
       of_file (load_level c n (lv_new mode) []) b = Ret (y, h) /\
       same_level ph x y /\
       isomorphic_all (library c) G (world_objects (lv_world x)) ph h).
Proof.
  intros c G f dom e1 e2 m1 m2 order x mode A1 A2 A3 A4 A5 A6 A7 A8 A9 A10 A11 A12 A13.
  destruct (level_comes_back c G f dom e1 e2 m1 m2 order x mode A1 A2 A3 A4 A5 A6 A7 A8 A9 A10 A11 A12 A13) as (raw & Hr & nd & w & wc & Hc & Hb).
  exists raw. split; [exact Hr|]. exists nd, w, wc. split; [exact Hc|]. intros Hf. destruct (Hb Hf) as (b & h & ph & y & B1 & B2 & B3 & B4 & _).
  exists b, h, ph, y. auto.
Qed.
Lemma game_detected : forall c G f (dom : list oid) e1 e2 m1 m2 order x mode,
  library_graph c G -> (forall r, G r <> None -> In r dom) ->
  (forall a b, refers (library c) G a b -> G b <> None) ->
  (forall r, In r (world_objects (lv_world x)) -> G r <> None) ->
  level_ok c (g_type (library c) G) x ->
  some_order order -> env_ok e2 -> env_ok m2 ->
  len (we_date e1) = len (we_date e2) -> len (we_user e1) = len (we_user e2) ->
  len (we_date m1) = len (we_date m2) -> len (we_user m1) = len (we_user m2) ->
  (cf_game c = G1 -> we_user e2 <> lit "XZEN") ->
  exists raw, let n := S (length dom) in
    (len raw < 2 ^ 31 -> file_of (save_mesh_bsp order m1 m2 (cf_game c) (lv_mesh x) (lv_bsp x)) = Ret raw) /\
    exists nd w wc, level_content c G n raw (lv_world x) = Some (nd, w, wc) /\
    (archive_fits f e2 nd (nw_idx w) (nw_keys w) ->
     exists b r,
       save_level f e1 e2 m1 m2 order c G n x = Ret b /\
       of_file (load_level c n (lv_new mode) []) b = Ret r /\
       of_file (load_any (cf_pack c) (cf_depth c) n (lv_new mode) []) b = Ret (cf_game c, r)).
Proof.
  intros c G f dom e1 e2 m1 m2 order x mode A1 A2 A3 A4 A5 A6 A7 A8 A9 A10 A11 A12 A13.
  destruct (level_comes_back c G f dom e1 e2 m1 m2 order x mode A1 A2 A3 A4 A5 A6 A7 A8 A9 A10 A11 A12 A13) as (raw & Hr & nd & w & wc & Hc & Hb).
  exists raw. split; [exact Hr|]. exists nd, w, wc. split; [exact Hc|]. intros Hf. destruct (Hb Hf) as (b & h & ph & y & B1 & B2 & _ & _ & B3).
  exists b, (y, h). auto.
Qed.

(** ** Loading into a world *)
Definition s_pre (l : list vtree) (s : sects) : sects := mkSects (l ++ ss_vobs s) (ss_way s) (ss_player s) (ss_sky s).
Definition over {A B S} (f : A -> B) (o : outcome (A * S)) : outcome (B * S) :=
  match o with Ret (a, s) => Ret (f a, s) | Throw e => Throw e | Undef => Undef | Fuel => Fuel end.
Lemma over_bind {A B C S} (f : B -> C) (m : M S A) (k : A -> M S B) (k' : A -> M S C) :
  (forall a s, k' a s = over f (k a s)) -> forall s, bind m k' s = over f (bind m k s).
Proof. intros H s. unfold bind. destruct (m s) as [[a s']| | |]; [apply H | reflexivity..]. Qed.
Lemma over_bind2 {A A' B C S} (f : B -> C) (g : A -> A') (m : M S A) (m' : M S A') (k : A -> M S B) (k' : A' -> M S C) :
  (forall s, m' s = over g (m s)) -> (forall a s, k' (g a) s = over f (k a s)) -> forall s, bind m' k' s = over f (bind m k s).
Proof. intros H1 H2 s. unfold bind. rewrite H1. destruct (m s) as [[a s']| | |]; [apply H2 | reflexivity..]. Qed.
Lemma section_pre {S Ob} (P : prims S) (fl : Ob -> Z) rec c name l s g :
  runp P fl rec (p_section c name (s_pre l s)) g = over (s_pre l) (runp P fl rec (p_section c name s) g).
Proof.
  unfold p_section.
  destruct (bytes_eqb name (lit "MeshAndBsp")); [reflexivity|].
  destruct (bytes_eqb name (lit "VobTree")).
  { rewrite !LSave.runp_pbind. destruct (runp P fl rec p_upto g) as [[k g1]| | |]; try reflexivity.
    rewrite !LSave.runp_pbind. destruct (runp P fl rec (p_rep k (p_tree (cf_depth c))) g1) as [[q g2]| | |]; try reflexivity.
    cbn [runp]. unfold ret, over, s_pre. cbn [ss_vobs ss_way ss_player ss_sky]. rewrite <- app_assoc. reflexivity. }
  repeat match goal with |- context [if ?b then _ else _] => destruct b end;
    first [ reflexivity
          | rewrite !LSave.runp_pbind; match goal with |- context [match ?m with _ => _ end] => destruct m as [[r g1]| | |]; reflexivity end ].
Qed.
Lemma sections_pre {S Ob} (P : prims S) (fl : Ob -> Z) rec raw c l k : forall m t s g,
  level_sections P fl rec raw c k m t (s_pre l s) g =
  over (fun r => (fst (fst r), snd (fst r), s_pre l (snd r))) (level_sections P fl rec raw c k m t s g).
Proof.
  induction k as [|k IH]; intros m t s g; [reflexivity|]. cbn [level_sections].
  apply over_bind. intros e g1. destruct e; [reflexivity|].
  apply over_bind. intros o g2. destruct o as [o|]; [|reflexivity].
  destruct (bytes_eqb (oh_name o) (lit "EndMarker")); [apply over_bind; reflexivity|].
  apply (over_bind2 _ (fun r => (fst (fst r), snd (fst r), s_pre l (snd r)))).
  - intros g3. destruct (bytes_eqb (oh_name o) (lit "MeshAndBsp")); [apply over_bind; reflexivity|].
    apply (over_bind2 _ (s_pre l)); [intros; apply section_pre | reflexivity].
  - intros r g3. apply over_bind. intros e g4. apply over_bind. intros u g5. apply IH.
Qed.
Definition pre_level (l : list vtree) (x : level) : level := with_vobs (l ++ world_vobs (lv_world x)) x.
Lemma root_pre {S Ob} (P : prims S) (fl : Ob -> Z) rec raw c l x g :
  load_root P fl rec raw c (pre_level l x) g = over (pre_level l) (load_root P fl rec raw c x g).
Proof.
  unfold load_root. apply over_bind. intros o g1. destruct o as [o|]; [|reflexivity].
  destruct (negb (bytes_eqb (oh_class o) (lit "oCWorld:zCWorld"))); [reflexivity|].
  apply (over_bind2 _ (pre_level l)).
  - intros g2. unfold load_into.
    apply (over_bind2 _ (fun r => (fst (fst r), snd (fst r), s_pre l (snd r)))); [intros g3; exact (sections_pre P fl rec raw c l _ _ _ (mkSects (world_vobs (lv_world x)) (world_way_net (lv_world x)) (world_player (lv_world x)) (world_sky (lv_world x))) g3)|].
    intros r g3. apply over_bind. intros [[[a1 a2] a3] a4] g4. reflexivity.
  - intros y g2. apply over_bind. intros e g3. apply over_bind. intros u g4. reflexivity.
Qed.
Lemma loading_keeps_trees : forall c n x h0 b,
  of_file (load_level c n x h0) b =
  match of_file (load_level c n (with_vobs [] x) h0) b with
  | Ret (y, h) => Ret (with_vobs (world_vobs (lv_world x) ++ world_vobs (lv_world y)) y, h)
  | Throw e => Throw e | Undef => Undef | Fuel => Fuel
  end.
Proof.
  intros c n x h0 b. unfold of_file, load_level.
  destruct (ar_open (mkR b 0)) as [[hd r]| | |]; try reflexivity.
  replace x with (pre_level (world_vobs (lv_world x)) (with_vobs [] x)) at 1
    by (unfold pre_level; destruct x as [[] ? ?]; cbn; rewrite app_nil_r; reflexivity).
  rewrite root_pre.
  match goal with |- context [over _ ?m] => destruct m as [[y g]| | |] end; reflexivity.
Qed.
