(** Lemmas about reading mesh files this library does not write. *)

From Coq Require Import String Lia ZifyN ZifyBool ZifyNat.
From Verif Require Import MBase MStream SStream MBoxes SBoxes MTexture STexture MText MClasses MArchive SArchive MVob MMaterial MMesh SMesh SFormat SMeshRead.
From Verif Require Import SBsp LBase LStream LStreamHist LBoxes LFormat LModel LTexture LBsp LEnds LText LArchW LArchR LArchH LMesh LMeshMat LMeshIO.
Local Open Scope N_scope.
Local Open Scope m_scope.

Lemma own_reads : forall l base, Forall own_ok l ->
  reads (own_lightmaps (length l) base) (flat_map own_bytes l)
    (map ow_image l, map (fun p => mkLightmap (fst p) (ow_a (snd p)) (ow_b (snd p)) (ow_origin (snd p))) (numbered base l)).
Proof.
  induction l as [|x l IH]; intros base H; cbn [length own_lightmaps flat_map map numbered]; [apply reads_ret|].
  inversion H as [|? ? (H1 & H2 & H3 & H4) Hl]; subst. unfold own_bytes at 1. rewrite <- !app_assoc.
  eapply reads_bind; [apply (vec3_reads _ H1)|]. eapply reads_bind; [apply (vec3_reads _ H2)|]. eapply reads_bind; [apply (vec3_reads _ H3)|].
  eapply reads_bind; [exact H4|]. eapply reads_if_last; [apply IH, Hl|]. apply reads_ret.
Qed.

Ltac at_chunk := unfold mesh_chunk; cbv beta iota;
    repeat match goal with |- context [?a =? ?b] =>
      let r := eval vm_compute in (a =? b) in change (a =? b) with r; cbv iota end.

(** A file of one section and the end *)
Lemma one_section wide ty p m m' : ty < 2 ^ 16 -> len p < 2 ^ 32 - 100 ->
  reads (mesh_chunk wide ty (0, m)) p (false, (0, m')) ->
  of_file (mesh_load m wide) (chunk_bytes (ty, p) ++ chunk_bytes (M_END, [])) = Ret m'.
Proof.
  intros Ht Hp HR. unfold of_file, mesh_load.
  assert (R : chunk_run (mesh_chunk wide) (0, m) [(ty, p); (M_END, [])] (0, m')).
  { eapply run_more; [split; cbn [fst snd]; [exact Ht | lia] | apply reads_part_of, HR |].
    apply run_last; [split; reflexivity|]. apply reads_part_of. cbn [fst snd]. at_chunk. apply reads_ret. }
  pose proof (read_chunked_run_left _ _ _ _ R [] [] I) as X. cbn [flat_map app] in X. rewrite !app_nil_r in X.
  change (len []) with 0 in X. unfold bind. rewrite X; [reflexivity|].
  unfold chunk_bytes. cbn [fst snd]. rewrite !len_app, !len_le_enc. change (len []) with 0. rewrite max_size_val. pows. lia.
Qed.

Lemma numbered_fst {A} (l : list A) : forall i p, In p (numbered i l) -> i <= fst p.
Proof. induction l as [|x l IH]; intros i p H; [contradiction|]. destruct H as [<-|H]; [cbn; lia|]. apply IH in H. lia. Qed.
Lemma numbered_nodup {A} (l : list A) : forall i, NoDup (map fst (numbered i l)).
Proof.
  induction l as [|x l IH]; intros i; cbn [numbered map]; constructor; [|apply IH].
  intros H. apply in_map_iff in H as (p & E & H). apply numbered_fst in H. cbn in E. lia.
Qed.
Lemma numbered_at {A B} (f : A -> B) (l : list A) : forall pre i x, In (i, x) (numbered (len pre) l) -> nth_N (pre ++ map f l) i = Some (f x).
Proof.
  induction l as [|y l IH]; intros pre i x H; [contradiction|]. cbn [numbered map] in *. destruct H as [H|H].
  - injection H as <- <-. rewrite nth_N_error. unfold len. rewrite Nnat.Nat2N.id, nth_error_app2, Nat.sub_diag by lia. reflexivity.
  - replace (pre ++ f y :: map f l) with ((pre ++ [f y]) ++ map f l) by (rewrite <- app_assoc; reflexivity).
    apply IH. rewrite len_app. exact H.
Qed.
Lemma numbered_snd {A} (l : list A) : forall i, map snd (numbered i l) = l.
Proof. induction l as [|x l IH]; intros i; cbn; [reflexivity|]. rewrite IH. reflexivity. Qed.

Lemma own_lightmaps_loaded wide l : Forall own_ok l -> len (own_section l) < 2 ^ 32 - 100 ->
  exists m, of_file (mesh_load mesh_new wide) (chunk_bytes (M_LIGHTMAPS, own_section l) ++ chunk_bytes (M_END, [])) = Ret m /\
    Forall2 (fun x k => lm_origin k = ow_origin x /\ lm_normal_a k = ow_a x /\ lm_normal_b k = ow_b x /\
                        nth_N (me_images m) (lm_image k) = Some (ow_image x)) l (me_lightmaps m) /\
    NoDup (map lm_image (me_lightmaps m)).
Proof.
  intros H Hs. eexists. split; [|split].
  - apply one_section; [reflexivity | exact Hs|]. at_chunk. unfold own_section in *.
    assert (Hn : len l < 2 ^ 32).
    { rewrite len_app in Hs. assert (len l <= len (flat_map own_bytes l)).
      { apply len_flat_ge. intros x. unfold own_bytes, vec3_bytes. rewrite !len_app, !len_le_enc. lia. } lia. }
    eapply reads_bind; [apply reads_uint, Hn|]. cbv beta.
    replace (N.to_nat (len l)) with (length l) by (unfold len; lia).
    eapply reads_if_last; [apply own_reads, H|]. apply reads_ret.
  - cbn [with_lightmaps me_lightmaps me_images mesh_new app fst snd].
    rewrite <- (numbered_snd l (len (@nil texture))) at 1.
    assert (A : forall p, In p (numbered (len (@nil texture)) l) -> nth_N (map ow_image l) (fst p) = Some (ow_image (snd p))).
    { intros [i x] Hi. apply (numbered_at ow_image l [] i x Hi). }
    revert A. generalize (numbered (len (@nil texture)) l) as ps. induction ps as [|p ps IH]; intros A; cbn [map]; constructor.
    + cbn [lm_origin lm_normal_a lm_normal_b lm_image]. repeat split. apply A. left. reflexivity.
    + apply IH. intros q Hq. apply A. right. exact Hq.
  - cbn [with_lightmaps me_lightmaps me_images mesh_new app fst snd]. rewrite map_map. cbn [lm_image]. apply numbered_nodup.
Qed.

(* ------------------------------------------------------------------ *)
(** * Materials *)

Lemma object_reads size ver i name cls : size < 2 ^ 32 -> ver < 2 ^ 16 -> i < 2 ^ 32 -> no_eol name -> no_eol cls ->
  reads begin_read (object_head size ver i name cls) (size, ver, i, name, cls).
Proof.
  intros Hs Hv Hi Hn Hc. unfold begin_read, object_head.
  eapply reads_bind; [apply reads_uint; exact Hs|]. eapply reads_bind; [apply reads_ushort; exact Hv|].
  eapply reads_bind; [apply reads_uint; exact Hi|].
  eapply reads_bind; [apply reads_line_nows; [exact Hn | reflexivity]|].
  eapply reads_if_last; [apply reads_line_nows; [exact Hc | reflexivity]|]. apply reads_ret.
Qed.

Lemma name_reads s : no_eol s -> preads (p_rd KStr) (s ++ [x00]) s.
Proof.
  intros H. eapply preads_cast; [|apply app_nil_r | reflexivity].
  eapply preads_read with (e := EStr s); [|reflexivity | apply preads_ret].
  unfold entry_ok. cbn [entry_fit]. rewrite Bool.andb_true_r. apply no_eolb_spec. exact H.
Qed.

Lemma stored_reads i x : stored_ok x -> stored_size x < 2 ^ 32 -> i < 2 ^ 32 -> preads mat_load (stored_bytes i x) (sm_material x).
Proof.
  destruct x as [g x more]. unfold stored_ok, stored_bytes. cbn [sm_game sm_material sm_more].
  set (sz := stored_size (mkStored g x more)). assert (Esz : sz = mat_size g x + len more) by reflexivity. clearbody sz.
  intros Hm Hs Hi. unfold mat_load. apply preads_bind with (a := material_name x).
  { apply name_reads. destruct Hm as [Hm _]. unfold save_material in Hm. cbn [entries_of flat_map app wS forallb] in Hm.
    apply andb_prop in Hm as [Hm _]. apply andb_prop in Hm as [Hm _]. apply no_eolb_spec. exact Hm. }
  intros pre post E Hl. unfold prun. cbn [runp]. unfold bind at 1, rgl. cbn [rg_s rg_cache rg_heap fmt_prims p_begin ar_begin].
  rewrite <- !app_assoc in *.
  assert (Eh : exists c h, mat_head g i sz = c :: h) by (eexists _, _; reflexivity).
  destruct Eh as (c & h & Eh).
  rewrite bin_begin_eq.
  2:{ exists false. split; [|reflexivity]. rewrite Eh in *. cbn [app] in *. apply eof_false, Hl. }
  rewrite (begin_read_reads g i _ Hs Hi pre _ Logic.I Hl). cbn [oh_class oh_ver rpos].
  change (negb (bytes_eqb (lit "zCMaterial") (lit "zCMaterial"))) with false. cbv iota.
  assert (Ev : (if ver_material (mkCfg g false false 0) =? 17408 then G1 else G2) = g) by (destruct g; reflexivity).
  rewrite Ev. set (D := pre ++ mat_head g i sz ++ mat_body g x ++ more ++ post) in *.
  match goal with |- runp _ _ _ ?p ?s = _ => change (runp (Ob := unit) (fmt_prims ABinary) (fun _ => 0%Z) undef p s) with (prun p s) end.
  rewrite runp_bind. unfold bind at 1.
  pose proof (load_material_reads g x Hm (pre ++ mat_head g i sz) (more ++ post) (u64 (len pre + sz) :: E)) as HL.
  rewrite <- app_assoc in HL. change (pre ++ mat_head g i sz ++ mat_body g x ++ more ++ post) with D in HL.
  specialize (HL Hl). rewrite len_app in HL. rewrite HL. unfold prun. cbn [runp].
  unfold bind at 1, rgl. cbn [rg_s rg_cache rg_heap fmt_prims p_end ar_end]. unfold bin_end.
  unfold bind at 1, rdl, rd_tell. cbn [ra_r ra_ends rpos]. unfold bind at 1, top_end. cbn [ra_ends].
  assert (HD : len D = len pre + 23 + len (mat_body g x) + len more + len post) by (unfold D; rewrite !len_app, len_mat_head; lia).
  assert (Eu : u64 (len pre + sz) = len pre + 23 + len (mat_body g x) + len more).
  { rewrite Esz. unfold mat_size, u64. rewrite N.mod_small; [lia|]. rewrite max_size_val in Hl. pows. lia. }
  rewrite Eu, !len_mat_head.
  destruct more as [|b more].
  - change (len []) with 0 in *.
    assert (EN : len pre + 23 + len (mat_body g x) =? len pre + 23 + len (mat_body g x) + 0 = true) by lia.
    rewrite EN. unfold bind at 1, pop_end. cbn [ra_ends ra_r ret]. rewrite !len_app, len_mat_head. change (len []) with 0.
    unfold ret. cbn [runp]. unfold ret. match goal with |- Ret (_, mkRg (mkRar (mkR _ ?p) _) _ _) = Ret (_, mkRg (mkRar (mkR _ ?q) _) _ _) => replace p with q by lia end. reflexivity.
  - assert (EN : len pre + 23 + len (mat_body g x) =? len pre + 23 + len (mat_body g x) + len (b :: more) = false) by (rewrite len_cons; lia).
    rewrite EN. unfold rd_eof. cbn [ra_r rdata rpos ra_ends].
    assert (EL : len D <=? len pre + 23 + len (mat_body g x) = false) by (rewrite HD, len_cons; lia).
    rewrite EL. cbv iota. cbn [runp]. unfold bind at 1, rgl. cbn [rg_s rg_cache rg_heap fmt_prims p_skip ar_skip].
    unfold bin_skip. unfold bind at 1, top_end. cbn [ra_ends]. unfold bind at 1, rdl. cbn [ra_r ra_ends].
    unfold r_back. rewrite sint_small by (rewrite max_size_val in Hl; pows; lia).
    rewrite rd_seek_beg by (lia || exact Hl). unfold pop_end. cbn [ra_ends ra_r].
    unfold ret. cbn [runp]. unfold ret. rewrite !len_app, len_mat_head. match goal with |- Ret (_, mkRg (mkRar (mkR _ ?p) _) _ _) = Ret (_, mkRg (mkRar (mkR _ ?q) _) _ _) => replace p with q by lia end. reflexivity.
Qed.

Lemma stored_all_reads : forall l i, Forall stored_ok l -> i + len l < 2 ^ 32 -> len (stored_all i l) < 2 ^ 32 ->
  preads (p_rep (length l) mat_load) (stored_all i l) (map sm_material l).
Proof.
  induction l as [|x l IH]; intros i Hf Hi Hs; cbn [length p_rep stored_all map] in *; [apply preads_ret|].
  inversion Hf as [|? ? Hx Hr]; subst. rewrite len_cons in Hi. rewrite len_app in Hs.
  assert (Hsz : stored_size x < 2 ^ 32) by (unfold stored_bytes in Hs; rewrite !len_app, len_mat_head in Hs; unfold stored_size, mat_size; lia).
  eapply preads_bind; [apply stored_reads; [exact Hx | exact Hsz | lia]|].
  eapply preads_cast; [eapply preads_bind; [apply (IH (i + 1)); [exact Hr | lia | lia] | apply preads_ret] | apply app_nil_r | reflexivity].
Qed.

Lemma head_then {A} e objects n (k : ahead -> N -> rd A) rest a : env_ok e -> objects < 1000000000 -> n < 2 ^ 32 -> n mod 256 <> 10 ->
  reads (k (read_head ABinary e false) n) rest a ->
  reads (let* h := ar_open in let* c := read_uint in k h c) (materials_head e objects n ++ rest) a.
Proof.
  intros He Ho Hn Hm HR. unfold materials_head. rewrite <- !app_assoc. rewrite (app_assoc (header_text _ _ _)).
  eapply reads_if_bind; [apply ar_open_reads; [exact He | exact Ho] | cbv beta |].
  2:{ intros post _. unfold le_enc. cbn [app count_ok]. intros X. apply (f_equal b2n) in X.
      rewrite b2n_n2b in X. apply Hm. exact X. }
  eapply reads_bind; [apply reads_uint; exact Hn|]. exact HR.
Qed.

Lemma materials_loaded wide e objects l : env_ok e -> objects < 1000000000 -> Forall stored_ok l -> len l mod 256 <> 10 ->
  len (materials_head e objects (len l) ++ stored_all 0 l) < 2 ^ 32 - 100 ->
  of_file (mesh_load mesh_new wide) (chunk_bytes (M_MATERIAL, materials_head e objects (len l) ++ stored_all 0 l) ++ chunk_bytes (M_END, []))
    = Ret (with_materials (map sm_material l) mesh_new).
Proof.
  intros He Ho Hf Hm Hs. apply one_section; [reflexivity | exact Hs|]. at_chunk.
  assert (Hc : len l <= len (stored_all 0 l)).
  { clear. generalize 0 as i. induction l as [|x l IH]; intros i; cbn [stored_all]; [reflexivity|].
    rewrite len_cons, len_app. specialize (IH (i + 1)). unfold stored_bytes. rewrite !len_app. change (len [x00]) with 1. lia. }
  rewrite len_app in Hs.
  eapply reads_if_last; [|apply reads_ret]. unfold mats_load. apply head_then; [exact He | exact Ho | lia | exact Hm |].
  cbn [read_head ah_format]. intros pre post _ Hl.
  replace (N.to_nat (len l)) with (length l) by (unfold len; lia).
  pose proof (stored_all_reads l 0 Hf) as H. rewrite N.add_0_l in H.
  specialize (H ltac:(lia) ltac:(lia) pre post [] Hl). unfold prun in H. rewrite H. reflexivity.
Qed.

(** *** Other objects *)
Lemma step {A B} (r : rd A) (k : A -> rd B) pre bs post a : reads r bs a -> len (pre ++ bs ++ post) < max_size ->
  bind r k (mkR (pre ++ bs ++ post) (len pre)) = k a (mkR ((pre ++ bs) ++ post) (len (pre ++ bs))).
Proof. intros H Hl. unfold bind. rewrite (H pre post I Hl). rewrite len_app, <- app_assoc. reflexivity. Qed.

Lemma stops {A B} (a : rd A) (k : A -> rd B) s e : a s = Throw e -> bind a k s = Throw e.
Proof. intros H. unfold bind. rewrite H. reflexivity. Qed.

Lemma other_refused name size ver i oname cls : no_eol name -> size < 2 ^ 32 -> ver < 2 ^ 16 -> i < 2 ^ 32 -> no_eol oname -> no_eol cls ->
  cls <> lit "zCMaterial" -> forall pre post E, let bs := (name ++ [x00]) ++ object_head size ver i oname cls in len (pre ++ bs ++ post) < max_size ->
  prun mat_load (mkRg (mkRar (mkR (pre ++ bs ++ post) (len pre)) E) [] []) = Throw ParserError.
Proof.
  intros Hn Hs Hv Hi Ho Hc Hne pre post E bs Hl. unfold bs in *. clear bs. unfold mat_load.
  rewrite runp_bind. unfold bind at 1. rewrite <- app_assoc in *. rewrite (name_reads name Hn pre _ E Hl).
  unfold prun. cbn [runp]. unfold bind at 1, rgl. cbn [rg_s rg_cache rg_heap fmt_prims p_begin ar_begin].
  assert (Eh : exists c h, object_head size ver i oname cls = c :: h) by (eexists _, _; reflexivity).
  destruct Eh as (c & h & Eh).
  rewrite app_assoc in Hl |- *. rewrite <- len_app.
  rewrite bin_begin_eq.
  2:{ exists false. split; [|reflexivity]. rewrite Eh in *. cbn [app] in *. apply eof_false, Hl. }
  rewrite (object_reads size ver i oname cls Hs Hv Hi Ho Hc (pre ++ name ++ [x00]) post Logic.I Hl). cbn [oh_class].
  destruct (bytes_eqb cls (lit "zCMaterial")) eqn:Eb; [|reflexivity].
  apply bytes_eqb_spec in Eb. contradiction.
Qed.
Lemma others_refused bs : (forall pre post E, len (pre ++ bs ++ post) < max_size ->
    prun mat_load (mkRg (mkRar (mkR (pre ++ bs ++ post) (len pre)) E) [] []) = Throw ParserError) ->
  forall l i n pre post E, Forall stored_ok l -> i + len l < 2 ^ 32 -> len (stored_all i l) < 2 ^ 32 -> (length l < n)%nat ->
  len (pre ++ (stored_all i l ++ bs) ++ post) < max_size ->
  prun (p_rep n mat_load) (mkRg (mkRar (mkR (pre ++ (stored_all i l ++ bs) ++ post) (len pre)) E) [] []) = Throw ParserError.
Proof.
  intros Hb. induction l as [|x l IH]; intros i n pre post E Hf Hi Hs Hn Hl; cbn [length stored_all] in *; (destruct n as [|n]; [lia|]); cbn [p_rep].
  - cbn [app] in *. rewrite runp_bind. unfold bind at 1. rewrite Hb by exact Hl. reflexivity.
  - inversion Hf as [|? ? Hx Hr]; subst. rewrite len_cons in Hi. rewrite len_app in Hs.
    assert (Hsz : stored_size x < 2 ^ 32) by (unfold stored_bytes in Hs; rewrite !len_app, len_mat_head in Hs; unfold stored_size, mat_size; lia).
    rewrite runp_bind. unfold bind at 1. rewrite <- !app_assoc in *.
    rewrite (stored_reads i x Hx Hsz ltac:(lia) pre _ E Hl). rewrite runp_bind. unfold bind at 1.
    rewrite <- len_app.
    specialize (IH (i + 1) n (pre ++ stored_bytes i x) post E Hr ltac:(lia) ltac:(lia) ltac:(lia)).
    rewrite <- !app_assoc in IH. rewrite IH by exact Hl. reflexivity.
Qed.

Lemma materials_refused wide m e objects n l name size ver i oname cls rest after : env_ok e -> objects < 1000000000 -> Forall stored_ok l ->
  len l < n -> n mod 256 <> 10 -> n < 2 ^ 32 ->
  no_eol name -> size < 2 ^ 32 -> ver < 2 ^ 16 -> i < 2 ^ 32 -> no_eol oname -> no_eol cls -> cls <> lit "zCMaterial" ->
  let section := materials_head e objects n ++ stored_all 0 l ++ (name ++ [x00]) ++ object_head size ver i oname cls ++ rest in
  len section < 2 ^ 32 -> len (chunk_bytes (M_MATERIAL, section) ++ after) < max_size ->
  of_file (mesh_load m wide) (chunk_bytes (M_MATERIAL, section) ++ after) = Throw ParserError.
Proof.
  intros He Ho Hf Hn Hm Hn32 H1 H2 H3 H4 H5 H6 H7 section Hs Hl.
  unfold of_file, mesh_load. cbn [read_chunked].
  assert (ED : chunk_bytes (M_MATERIAL, section) ++ after = [] ++ le_enc 2 M_MATERIAL ++ (le_enc 4 (len section) ++ section ++ after)).
  { unfold chunk_bytes. cbn [fst snd app]. rewrite <- !app_assoc. reflexivity. }
  set (K := N.to_nat _). clearbody K. cbn [read_chunked]. rewrite ED in *. clear ED.
  match goal with |- match ?X with _ => _ end = _ => assert (E : X = Throw ParserError); [|rewrite E; reflexivity] end.
  apply stops.
  rewrite (step read_ushort _ [] _ _ M_MATERIAL); [|apply reads_ushort; reflexivity | exact Hl]. cbn [app] in Hl |- *.
  rewrite (step read_uint _ (le_enc 2 M_MATERIAL) _ _ (len section)); [|apply reads_uint, Hs | exact Hl].
  unfold bind at 1, rd_tell at 1. rewrite app_assoc in Hl.
  apply stops.
  set (pre := le_enc 2 M_MATERIAL ++ le_enc 4 (len section)) in *. clearbody pre. at_chunk.
  apply stops.
  unfold section in *. clear section. unfold materials_head in *. rewrite <- !app_assoc in *. unfold mats_load.
  rewrite (app_assoc (header_text _ _ _)) in Hl |- *.
  assert (EA : forall (k : ahead -> rd (list material)) pre post, count_ok post ->
     len (pre ++ (header_text ABinary e false ++ count_text 10 objects) ++ post) < max_size ->
     bind ar_open k (mkR (pre ++ (header_text ABinary e false ++ count_text 10 objects) ++ post) (len pre)) =
     k (read_head ABinary e false) (mkR ((pre ++ header_text ABinary e false ++ count_text 10 objects) ++ post) (len (pre ++ header_text ABinary e false ++ count_text 10 objects)))).
  { intros k p q Hq Hlq. unfold bind. rewrite (ar_open_reads e He objects Ho p q Hq Hlq). rewrite !len_app, <- !app_assoc. reflexivity. }
  rewrite EA; [| |exact Hl].
  2:{ unfold le_enc. cbn [app count_ok]. intros X. apply (f_equal b2n) in X. rewrite b2n_n2b in X. apply Hm. exact X. }
  clear EA. rewrite app_assoc in Hl. set (pre' := pre ++ header_text ABinary e false ++ count_text 10 objects) in *. clearbody pre'.
  rewrite (step read_uint _ pre' _ _ n); [|apply reads_uint, Hn32 | exact Hl]. rewrite app_assoc in Hl.
  set (pre2 := pre' ++ le_enc 4 n) in *. clearbody pre2. cbn [read_head ah_format].
  change (runp (Ob := unit) (fmt_prims ABinary) (fun _ => 0%Z) undef) with (@prun (list material)).
  pose proof (others_refused _ (other_refused name size ver i oname cls H1 H2 H3 H4 H5 H6 H7) l 0 (N.to_nat n) pre2 (rest ++ after) [] Hf) as R.
  rewrite <- !app_assoc in R. rewrite R; [reflexivity | | | |exact Hl].
  all: rewrite ?len_app in Hs; unfold len in *; lia.
Qed.
