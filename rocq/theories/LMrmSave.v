(** Saved multi-resolution meshes, soft-skin meshes and model meshes: what is written, and that
    it is not loaded. *)

From Coq Require Import Lia ZifyN ZifyBool ZifyNat.
From Verif Require Import MBase MStream SStream MBoxes SBoxes MTexture STexture MText MClasses MArchive SArchive MVob
  MMaterial MModel SFormat SBsp MMesh SMesh MMrm SMrm LBase LStream LStreamHist LBoxes LFormat LModel LTexture LText
  LArchW LArchH LBsp LEnds LMesh LMeshMat LMeshIO LMrm LModelMesh.
Local Open Scope N_scope.
Local Open Scope m_scope.

(* ------------------------------------------------------------------ *)
(** * Writers whose bytes depend on where they are *)

Definition writes_at {A} (w : wr A) (p : N) (bs : bytes) (a : A) : Prop :=
  forall buf, len buf = p -> p + len bs < max_size -> w (mkW buf p) = Ret (a, mkW (buf ++ bs) (p + len bs)).

Lemma at_of w p bs : writes w bs -> writes_at w p bs tt.
Proof. intros H buf <- Hl. rewrite (H (mkW buf (len buf)) eq_refl Hl). reflexivity. Qed.
Lemma at_ret {A} (a : A) p : writes_at (ret a) p [] a.
Proof. intros buf <- Hl. rewrite app_nil_r, len_nil, N.add_0_r. reflexivity. Qed.
Lemma at_bind {A B} (w : wr A) (k : A -> wr B) p b1 b2 a b :
  writes_at w p b1 a -> writes_at (k a) (p + len b1) b2 b -> writes_at (bind w k) p (b1 ++ b2) b.
Proof.
  intros H1 H2 buf Hb Hl. rewrite len_app in Hl. unfold bind. rewrite H1 by (try exact Hb; lia).
  rewrite H2; [|rewrite len_app; lia | lia]. rewrite <- app_assoc, len_app, N.add_assoc. reflexivity.
Qed.
Lemma at_map {A B} (w : wr A) (k : A -> wr B) p b1 a b :
  writes_at w p b1 a -> (forall s, k a s = Ret (b, s)) -> writes_at (bind w k) p b1 b.
Proof. intros H1 H2 buf Hb Hl. unfold bind. rewrite H1 by assumption. apply H2. Qed.
Lemma at_tell {B} (k : N -> wr B) p bs b : writes_at (k p) p bs b -> writes_at (let* x := wr_tell in k x) p bs b.
Proof. intros H buf Hb Hl. unfold bind, wr_tell. cbn [wpos]. apply H; assumption. Qed.
Lemma at_cast {A} (w : wr A) p b1 b2 a : writes_at w p b1 a -> b1 = b2 -> writes_at w p b2 a.
Proof. intros H <-. exact H. Qed.

Lemma chunk_at ty cb p pl : writes_at cb (p + 6) pl tt -> writes_at (write_chunk ty cb) p (chunk_bytes (ty, pl)) tt.
Proof.
  intros Hcb buf Hb Hl. unfold chunk_bytes in *. cbn [fst snd] in *.
  rewrite !len_app, !len_le_enc in *. change (N.of_nat 2) with 2 in *. change (N.of_nat 4) with 4 in *.
  pows. unfold write_chunk.
  rewrite (writes_bind _ _ _ _ (writes_ushort ty)) by (cbn [wbuf wpos]; lens; pows; lia). cbn [wbuf].
  unfold bind at 1. unfold wr_tell at 1. cbn [wpos].
  rewrite len_le_enc. change (N.of_nat 2) with 2.
  rewrite (writes_bind _ _ _ _ (writes_uint 0)); cbn [wbuf wpos]; [|lens; lia|lens; pows; lia].
  replace (len (buf ++ le_enc 2 ty) + len (le_enc 4 0)) with (p + 6) by (lens; lia).
  unfold bind at 1. rewrite Hcb; [|lens; lia | pows; lia].
  unfold bind at 1. unfold wr_tell at 1. cbn [wpos].
  set (B := ((buf ++ le_enc 2 ty) ++ le_enc 4 0) ++ pl).
  assert (En : (Z.of_N (p + 6 + len pl) - Z.of_N (len buf + 2) - 4 = Z.of_N (len pl))%Z) by lia.
  rewrite En. unfold bind at 1. rewrite LStreamHist.wr_seek_beg by (pows; lia).
  assert (EL : uint 32 (Z.of_N (len pl)) = len pl mod 256 ^ N.of_nat 4).
  { unfold uint. rewrite <- N2Z.inj_mod, N2Z.id. reflexivity. }
  rewrite EL. unfold bind at 1. unfold B.
  replace (((buf ++ le_enc 2 ty) ++ le_enc 4 0) ++ pl) with ((buf ++ le_enc 2 ty) ++ le_enc 4 0 ++ pl) by (rewrite <- !app_assoc; reflexivity).
  replace (len buf + 2) with (len (buf ++ le_enc 2 ty)) by (lens; lia).
  rewrite patch4 by (lens; pows; lia). rewrite le_enc_mod.
  unfold wr_seek, seek_internal. cbn [wbuf wpos].
  rewrite sint_small by (lens; pows; lia). rewrite ssize_add_ok by (lens; pows; lia). cbn [obind].
  rewrite uint_small by (lens; pows; lia).
  do 2 f_equal. rewrite <- !app_assoc. f_equal. lens. lia.
Qed.
Lemma iter_at {A} (f : A -> wr unit) (P : A -> Prop) (sz : A -> N) : (forall x p, P x -> exists bs, writes_at (f x) p bs tt /\ len bs = sz x) ->
  forall l, Forall P l -> forall p, exists bs, writes_at (iterM f l) p bs tt /\ len bs = fold_right (fun x n => sz x + n) 0 l.
Proof.
  intros Hf l Hl. induction Hl as [|x l Hx Hl IH]; intros p; cbn [iterM fold_right].
  - exists []. split; [apply at_ret | reflexivity].
  - destruct (Hf x p Hx) as (b1 & H1 & L1). destruct (IH (p + len b1)) as (b2 & H2 & L2). exists (b1 ++ b2).
    split; [eapply at_bind; [exact H1 | exact H2] | rewrite len_app, L1, L2; reflexivity].
Qed.

(* ------------------------------------------------------------------ *)
(** * Sub-meshes *)

Lemma section_at {A} (f : A -> wr unit) enc l p : (forall x, writes (f x) (enc x)) ->
  writes_at (section_save f l) p (flat_map enc l) (p, u32 (len (flat_map enc l))).
Proof.
  intros H. unfold section_save. apply at_tell. intros buf Hb Hl.
  assert (W : writes (iterM f l) (flat_map enc l)) by (apply writes_iter; intros; apply H).
  unfold bind at 1. rewrite (at_of _ p _ W) by assumption. unfold bind, wr_tell, ret. cbn [wpos].
  replace (p + len (flat_map enc l) - p) with (len (flat_map enc l)) by lia. reflexivity.
Qed.
Lemma short_mod n : le_enc 2 (u16 n) = le_enc 2 n.
Proof. unfold u16. change (2 ^ 16) with (256 ^ N.of_nat 2). apply le_enc_mod. Qed.
Lemma short_writes n : writes (ushort_save n) (short_bytes n).
Proof. unfold ushort_save, short_bytes. rewrite <- short_mod. apply writes_ushort. Qed.
Lemma short3_writes t : writes (short3_save t) (short3_bytes t).
Proof. unfold short3_save, short3_bytes. rewrite <- !(short_mod (s3a t)), <- (short_mod (s3b t)), <- (short_mod (s3c t)). wsteps. Qed.
Lemma short2_writes t : writes (short2_save t) (short2_bytes t).
Proof. unfold short2_save, short2_bytes. rewrite <- (short_mod (s2a t)), <- (short_mod (s2b t)). wsteps. Qed.
Definition wedge_out (w : wedge) : bytes := wedge_bytes (w, 0).
Lemma wedge_writes w : writes (wedge_save w) (wedge_out w).
Proof.
  unfold wedge_save, wedge_out, wedge_bytes, v3_bytes, v2_bytes. cbn [fst snd]. rewrite <- (short_mod (we_index w)).
  apply writes_seq; [apply writes_vec3|]. apply writes_seq; [apply writes_vec2|]. wsteps.
Qed.
Lemma mplane_writes x : writes (mplane_save x) (mplane_bytes x).
Proof. unfold mplane_save, mplane_bytes, v3_bytes. apply writes_seq; [apply writes_uint | apply writes_vec3]. Qed.
Lemma float_writes n : writes (write_float n) (word_bytes n).
Proof. apply writes_uint. Qed.
Definition sub_bytes (s : submesh) : bytes :=
  flat_map short3_bytes (sm_triangles s) ++ flat_map wedge_out (sm_wedges s) ++ flat_map word_bytes (sm_colors s) ++
  flat_map short_bytes (sm_plane_indices s) ++ flat_map mplane_bytes (sm_planes s) ++
  flat_map short3_bytes (sm_triangle_edges s) ++ flat_map short2_bytes (sm_edges s) ++ flat_map word_bytes (sm_scores s) ++
  flat_map short_bytes (sm_wedge_map s).
Lemma len_fix {A} (enc : A -> bytes) k l : (forall x, len (enc x) = k) -> len (flat_map enc l) = k * len l.
Proof. intros H. induction l as [|x l IH]; [cbn [flat_map]; change (len (@nil byte)) with 0; change (len (@nil A)) with 0; lia|]. cbn [flat_map]. rewrite len_app, len_cons, H, IH. lia. Qed.
Lemma len_short3 t : len (short3_bytes t) = 6. Proof. unfold short3_bytes. rewrite !len_app, !len_le_enc. reflexivity. Qed.
Lemma len_short2 t : len (short2_bytes t) = 4. Proof. unfold short2_bytes. rewrite !len_app, !len_le_enc. reflexivity. Qed.
Lemma len_short n : len (short_bytes n) = 2. Proof. apply len_le_enc. Qed.
Lemma len_word n : len (word_bytes n) = 4. Proof. apply len_le_enc. Qed.
Lemma len_wedge w : len (wedge_out w) = 24.
Proof. unfold wedge_out, wedge_bytes, v3_bytes, v2_bytes. rewrite !len_app, !len_le_enc. reflexivity. Qed.
Lemma len_mplane x : len (mplane_bytes x) = 16. Proof. unfold mplane_bytes, v3_bytes. rewrite !len_app, !len_le_enc. reflexivity. Qed.
Lemma len_v3b x : len (v3_bytes x) = 12. Proof. unfold v3_bytes. rewrite !len_app, !len_le_enc. reflexivity. Qed.
Lemma len_sub s : len (sub_bytes s) = sub_size s.
Proof.
  unfold sub_bytes, sub_size. rewrite !len_app.
  rewrite (len_fix short3_bytes 6 (sm_triangles s) len_short3), (len_fix wedge_out 24 (sm_wedges s) len_wedge),
    (len_fix word_bytes 4 (sm_colors s) len_word), (len_fix short_bytes 2 (sm_plane_indices s) len_short),
    (len_fix mplane_bytes 16 (sm_planes s) len_mplane), (len_fix short3_bytes 6 (sm_triangle_edges s) len_short3),
    (len_fix short2_bytes 4 (sm_edges s) len_short2), (len_fix word_bytes 4 (sm_scores s) len_word),
    (len_fix short_bytes 2 (sm_wedge_map s) len_short).
  lia.
Qed.
Lemma sub_at_writes s p : exists m, writes_at (sub_save s) p (sub_bytes s) m /\ ma_triangles m = (p, u32 (6 * len (sm_triangles s))).
Proof.
  eexists. split.
  - unfold sub_save, sub_bytes.
    eapply at_bind; [apply section_at, short3_writes|]. cbv beta.
    eapply at_bind; [apply section_at, wedge_writes|]. cbv beta.
    eapply at_bind; [apply section_at, float_writes|]. cbv beta.
    eapply at_bind; [apply section_at, short_writes|]. cbv beta.
    eapply at_bind; [apply section_at, mplane_writes|]. cbv beta.
    eapply at_bind; [apply section_at, short3_writes|]. cbv beta.
    eapply at_bind; [apply section_at, short2_writes|]. cbv beta.
    eapply at_bind; [apply section_at, float_writes|]. cbv beta.
    eapply at_map; [apply section_at, short_writes|]. reflexivity.
  - cbn [ma_triangles]. rewrite (len_fix short3_bytes 6 _ len_short3). reflexivity.
Qed.
Lemma subs_at : forall l p, exists maps, writes_at (mapM sub_save l) p (flat_map sub_bytes l) maps /\ len maps = len l /\
  match l, maps with s :: _, m :: _ => ma_triangles m = (p, u32 (6 * len (sm_triangles s))) | [], [] => True | _, _ => False end.
Proof.
  induction l as [|s l IH]; intros p; cbn [mapM flat_map].
  - exists []. split; [apply at_ret | split; [reflexivity | exact I]].
  - destruct (sub_at_writes s p) as (m & H1 & E). destruct (IH (p + len (sub_bytes s))) as (maps & H2 & L & _).
    exists (m :: maps). split; [|split; [rewrite !len_cons, L; reflexivity | exact E]].
    eapply at_bind; [exact H1|]. eapply at_map; [exact H2 | reflexivity].
Qed.
Lemma len_subs l : len (flat_map sub_bytes l) = total sub_size l.
Proof. induction l as [|s l IH]; [reflexivity|]. cbn [flat_map total fold_right]. rewrite len_app, len_sub, IH. reflexivity. Qed.
Definition entry_out (off : N) (s : msection) : bytes := le_enc 4 (uint 32 (Z.of_N (fst s) - Z.of_N off)) ++ le_enc 4 (snd s).
Definition map_out (off : N) (m : submap) : bytes :=
  flat_map (entry_out off)
    [ma_triangles m; ma_wedges m; ma_colors m; ma_plane_indices m; ma_planes m; ma_wedge_map m; ma_updates m;
     ma_triangle_edges m; ma_edges m; ma_scores m].
Lemma map_writes off m : writes (map_save off m) (map_out off m).
Proof. apply writes_iter. intros s _. apply writes_seq; apply writes_uint. Qed.
Lemma len_entry off s : len (entry_out off s) = 8. Proof. unfold entry_out. rewrite !len_app, !len_le_enc. reflexivity. Qed.
Lemma len_map off m : len (map_out off m) = 80.
Proof. unfold map_out. rewrite (len_fix _ 8 _ (len_entry off)). reflexivity. Qed.

(* ------------------------------------------------------------------ *)
(** * Materials *)

Lemma mrm_mats_writes g e1 e2 l : len (we_date e1) = len (we_date e2) -> len (we_user e1) = len (we_user e2) ->
  len l < 1000000000 -> writes (mrm_mats_save g e1 e2 l) (mats_archive g e2 (len l) l).
Proof.
  intros Hd Hu Hn [pre p] Hp Hl. cbn [wbuf wpos] in *. subst p. unfold mrm_mats_save, ar_create. cbn [wpos].
  unfold mats_archive in *. rewrite !len_app, len_count10 in Hl by exact Hn.
  assert (L1 : len (header_text ABinary e1 false) = len (header_text ABinary e2 false)) by (apply len_header_text; assumption).
  rewrite (wheader_bin_new e1 pre 0) by (try reflexivity; lia). cbv zeta.
  cbn [wa_w wa_index wa_keys wa_indent wa_starts wa_head wa_save].
  set (old := header_text ABinary e1 false ++ count_text 10 0).
  assert (Lo : len old = len (header_text ABinary e2 false) + 24) by (unfold old; rewrite len_app, len_count10 by reflexivity; lia).
  unfold bind at 1. rewrite mats_iter_writes; [|lia | rewrite !len_app; lia].
  rewrite N.add_0_l. rewrite <- app_assoc.
  rewrite wheader_bin_again; [|exact Hn | rewrite !len_app; lia | exact Lo].
  cbv zeta. cbn [wa_w]. rewrite <- !app_assoc. do 4 f_equal. rewrite !len_app. lia.
Qed.

(* ------------------------------------------------------------------ *)
(** * Sections *)

(** What matters of a saved section: the size it claims for its content is too large by four. *)
Definition section_shape (m : mrm) (bs : bytes) : Prop :=
  exists ver content a b c tail, ver < 2 ^ 16 /\
    bs = le_enc 2 ver ++ le_enc 4 (len content + 4) ++ content ++ le_enc 1 (len (mr_subs m)) ++
         le_enc 4 0 ++ le_enc 4 a ++ le_enc 4 b ++ le_enc 4 c ++ tail /\
    match mr_subs m with
    | [] => exists t, tail = lit "ZenGin Archive" ++ t
    | s :: _ => 6 * len (sm_triangles s) <= len content /\
        exists x t, tail = le_enc 4 x ++ le_enc 4 (6 * len (sm_triangles s)) ++ t
    end.

Lemma byte_mod n : le_enc 1 (u8 n) = le_enc 1 n.
Proof. unfold u8. change (2 ^ 8) with (256 ^ N.of_nat 1). apply le_enc_mod. Qed.
Lemma word_mod n : le_enc 4 (u32 n) = le_enc 4 n.
Proof. unfold u32. change (2 ^ 32) with (256 ^ N.of_nat 4). apply le_enc_mod. Qed.

Lemma mrm_section_at g e1 e2 m p : len (we_date e1) = len (we_date e2) -> len (we_user e1) = len (we_user e2) ->
  obb_ok (mr_obb m) -> len (mr_subs m) < 1000000000 ->
  exists bs, writes_at (mrm_section_save g e1 e2 m) p bs tt /\ len bs = section_size g e2 m /\ section_shape m bs.
Proof.
  intros Hd Hu Ho Hn.
  set (ver := match g with G1 => 773 | G2 => 2309 end). set (off := p + 6).
  set (PB := flat_map v3_bytes (mr_positions m)). set (NB := flat_map v3_bytes (mr_normals m)). set (SB := flat_map sub_bytes (mr_subs m)).
  assert (LP : len PB = 12 * len (mr_positions m)) by (apply len_fix, len_v3b).
  assert (LN : len NB = 12 * len (mr_normals m)) by (apply len_fix, len_v3b).
  destruct (subs_at (mr_subs m) (off + len PB + len NB)) as (maps & WS & LM & EM). fold SB in WS.
  set (content := PB ++ NB ++ SB).
  set (tail1 := le_enc 1 (len (mr_subs m)) ++ le_enc 4 0 ++ le_enc 4 (len (mr_positions m)) ++ le_enc 4 (len PB) ++ le_enc 4 (len (mr_normals m))).
  set (TB := flat_map (map_out off) maps).
  set (MB := mats_archive g e2 (len (map sm_mat (mr_subs m))) (map sm_mat (mr_subs m))).
  set (AB := match g with G1 => [] | G2 => le_enc 1 (uint 8 (if mr_alpha m =? 0 then 0%Z else 1%Z)) end).
  set (rest := TB ++ MB ++ AB ++ box_bytes (mr_bbox m) ++ tree_bytes (mr_obb m) ++ zeros 10).
  set (bs := le_enc 2 ver ++ le_enc 4 (len content + 4) ++ content ++ tail1 ++ rest).
  assert (Em : len (map sm_mat (mr_subs m)) = len (mr_subs m)) by (unfold len; rewrite map_length; reflexivity).
  assert (LT : len TB = 80 * len (mr_subs m)) by (unfold TB; rewrite (len_fix _ 80 _ (len_map off)), LM; reflexivity).
  exists bs. split; [|split].
  - intros buf Hb Hl.
    assert (Lbs : len bs = 6 + len content + 17 + len rest) by (unfold bs, tail1; rewrite !len_app, !len_le_enc; lia).
    assert (Lc : len content = len PB + len NB + len SB) by (unfold content; rewrite !len_app; lia).
    unfold mrm_section_save. fold ver.
    unfold bind at 1. rewrite (at_of _ p _ (writes_ushort ver)); [|exact Hb | rewrite len_le_enc; lia].
    rewrite len_le_enc. change (p + N.of_nat 2) with (p + 2).
    unfold bind at 1. unfold wr_tell at 1. cbn [wpos].
    unfold bind at 1. rewrite (at_of _ (p + 2) _ (writes_uint 0)); [|rewrite len_app, len_le_enc; lia | rewrite len_le_enc; lia].
    rewrite len_le_enc. replace (p + 2 + N.of_nat 4) with off by (unfold off; lia).
    unfold bind at 1. unfold wr_tell at 1. cbn [wpos].
    assert (Ho2 : len ((buf ++ le_enc 2 ver) ++ le_enc 4 0) = off) by (unfold off; rewrite !len_app, !len_le_enc; lia).
    unfold bind at 1. rewrite (at_of _ off PB); [|apply writes_iter; intros; apply writes_vec3 | exact Ho2 | unfold off; lia].
    unfold bind at 1. unfold wr_tell at 1. cbn [wpos].
    unfold bind at 1. rewrite (at_of _ (off + len PB) NB); [|apply writes_iter; intros; apply writes_vec3 | rewrite len_app, Ho2; reflexivity | unfold off; lia].
    unfold bind at 1. rewrite WS; [|rewrite !(len_app _ NB), (len_app _ PB), Ho2; reflexivity | unfold off; lia].
    unfold bind at 1. unfold wr_tell at 1. cbn [wpos].
    set (fin := off + len PB + len NB + len SB).
    unfold bind at 1. rewrite LStreamHist.wr_seek_beg by lia.
    unfold bind at 1.
    replace ((((((buf ++ le_enc 2 ver) ++ le_enc 4 0) ++ PB) ++ NB) ++ SB)) with ((buf ++ le_enc 2 ver) ++ le_enc 4 0 ++ content)
      by (unfold content; rewrite <- !app_assoc; reflexivity).
    replace (p + 2) with (len (buf ++ le_enc 2 ver)) by (rewrite len_app, len_le_enc; lia).
    rewrite patch4 by (rewrite len_app, !len_le_enc; lia).
    unfold bind at 1. rewrite LStreamHist.wr_seek_beg by (unfold fin, off; lia).
    rewrite word_mod. replace (fin - len (buf ++ le_enc 2 ver)) with (len content + 4) by (unfold fin, off; rewrite len_app, len_le_enc; lia).
    assert (W : writes (write_ubyte (u8 (len (mr_subs m))) ;; write_uint 0 ;; write_uint (u32 (len (mr_positions m))) ;;
       write_uint (u32 (off + len PB - off)) ;; write_uint (u32 (len (mr_normals m))) ;; iterM (map_save off) maps ;;
       mrm_mats_save g e1 e2 (map sm_mat (mr_subs m)) ;;
       (match g with G1 => ret tt | G2 => write_byte (if mr_alpha m =? 0 then 0%Z else 1%Z) end) ;;
       aabb_save (mr_bbox m) ;; obb_save (mr_obb m) ;; wr_write (zeros 10)) (tail1 ++ rest)).
    { unfold tail1, rest. rewrite <- !app_assoc. replace (off + len PB - off) with (len PB) by lia.
      rewrite <- (byte_mod (len (mr_subs m))), <- (word_mod (len (mr_positions m))), <- (word_mod (len PB)), <- (word_mod (len (mr_normals m))).
      apply writes_seq; [apply writes_ubyte|]. apply writes_seq; [apply writes_uint|]. apply writes_seq; [apply writes_uint|].
      apply writes_seq; [apply writes_uint|]. apply writes_seq; [apply writes_uint|].
      apply writes_seq; [apply writes_iter; intros; apply map_writes|].
      apply writes_seq; [apply mrm_mats_writes; [assumption | assumption | rewrite Em; exact Hn]|].
      apply writes_seq; [unfold AB; destruct g; [apply writes_ret | apply writes_ubyte]|].
      apply writes_seq; [apply (aabb_writes (mr_bbox m))|].
      apply writes_seq; [|apply emits_writes, emits_raw]. 
      eapply writes_cast; [apply obb_writes, Ho | symmetry; apply tree_bytes_eq]. }
    rewrite (at_of _ fin _ W).
    + do 2 f_equal. unfold bs. rewrite <- !app_assoc. f_equal. rewrite !len_app, !len_le_enc. unfold fin, off. lia.
    + rewrite !len_app, !len_le_enc. unfold fin, off. lia.
    + rewrite len_app. unfold tail1 at 1. rewrite !len_app, !len_le_enc. unfold fin, off. lia.
  - unfold bs, section_size, content, tail1, rest, MB. rewrite !len_app, !len_le_enc, LP, LN, LT, Em. unfold SB. rewrite len_subs.
    unfold box_bytes, v3_bytes. rewrite !len_app, !len_le_enc. change (len (zeros 10)) with 10.
    assert (LA : len AB = match g with G1 => 0 | G2 => 1 end) by (unfold AB; destruct g; [reflexivity | rewrite len_le_enc; reflexivity]).
    rewrite LA. destruct g; lia.
  - exists ver, content, (len (mr_positions m)), (len PB), (len (mr_normals m)), rest.
    split; [unfold ver; destruct g; reflexivity|]. split; [unfold bs, tail1; rewrite <- !app_assoc; reflexivity|].
    unfold rest, TB. destruct (mr_subs m) as [|s l] eqn:Es; destruct maps as [|mp maps']; try contradiction.
    + cbn [flat_map app]. unfold MB. cbn [map]. unfold mats_archive, header_text. eexists. rewrite <- !app_assoc. reflexivity.
    + split.
      { unfold content, SB. rewrite !len_app. cbn [flat_map]. rewrite len_app, len_sub. unfold sub_size. clear. lia. }
      cbn [flat_map]. unfold map_out at 1. cbn [flat_map]. rewrite EM. unfold entry_out at 1. cbn [fst snd]. rewrite word_mod.
      eexists _, _. rewrite <- !app_assoc. reflexivity.
Qed.

(** The text of a line is there in the file. *)
Lemma until_eol_prefix : forall fuel pre post l c s', len (pre ++ post) < max_size ->
  read_until_eol fuel (mkR (pre ++ post) (len pre)) = Ret ((l, c), s') -> exists rest, post = l ++ rest.
Proof.
  induction fuel as [|fuel IH]; intros pre post l c s' Hl H; [discriminate|]. cbn [read_until_eol] in H. unfold bind at 1 in H.
  destruct post as [|x post].
  - rewrite app_nil_r in *. rewrite read_char_end in H by exact Hl. change (beq x00 x00 || beq x00 x0d || beq x00 x0a) with true in H.
    inversion H; subst. exists []. reflexivity.
  - rewrite read_char_at in H by exact Hl.
    destruct (beq x x00 || beq x x0d || beq x x0a) eqn:B.
    { inversion H; subst. eexists. reflexivity. }
    unfold bind in H. replace (pre ++ x :: post) with ((pre ++ [x]) ++ post) in H, Hl by (rewrite <- app_assoc; reflexivity).
    replace (len pre + 1) with (len (pre ++ [x])) in H by (rewrite len_app; reflexivity).
    destruct (read_until_eol fuel _) as [[[l1 c1] s2]| | |] eqn:E1; try discriminate.
    inversion H; subst. destruct (IH _ _ _ _ _ Hl E1) as (rest & ->). exists rest. reflexivity.
Qed.
Lemma line_prefix b pre post l s' : len (pre ++ post) < max_size -> read_line b (mkR (pre ++ post) (len pre)) = Ret (l, s') ->
  exists rest, post = l ++ rest.
Proof.
  intros Hl. unfold read_line, read_line_then_ignore. unfold bind at 1.
  destruct (read_until_eol _ _) as [[[l1 c1] s1]| | |] eqn:E; try discriminate. apply until_eol_prefix in E; [|exact Hl].
  unfold bind at 1. destruct (rd_eof s1) as [[e s2]| | |]; try discriminate. cbn [fst snd].
  destruct (_ || _); [intros H; inversion H; subst; exact E|]. unfold bind at 1.
  destruct (skip_run _ _ s2) as [[c2 s3]| | |]; try discriminate. unfold bind at 1.
  destruct (rd_eof s3) as [[e3 s4]| | |]; try discriminate. destruct (_ && _); [intros H; inversion H; subst; exact E|].
  unfold bind. destruct (rd_seek (-1) CUR s4) as [[u s5]| | |]; try discriminate. intros H; inversion H; subst. exact E.
Qed.
(** What does not start with the signature is no archive. *)
Lemma open_throws pre post : len (pre ++ post) < max_size -> (forall t, post <> lit "ZenGin Archive" ++ t) ->
  ar_open (mkR (pre ++ post) (len pre)) = Throw ParserError.
Proof.
  intros Hl Hn. unfold ar_open, head_load. rewrite bind_assoc. unfold bind at 1.
  destruct (calm_line true (mkR (pre ++ post) (len pre))) as (l & q & E & _); [split; [cbn [rdata rpos]; rewrite len_app; lia | exact Hl]|].
  rewrite E. destruct (bytes_eqb l (lit "ZenGin Archive")) eqn:B; [|reflexivity].
  apply bytes_eqb_spec in B. subst l. destruct (line_prefix _ _ _ _ _ Hl E) as (rest & Er). exfalso. exact (Hn _ Er).
Qed.

Lemma shape_throws m0 m bs pre post : section_shape m bs -> len bs < 2 ^ 30 -> len (pre ++ bs ++ post) < max_size ->
  mrm_section_load m0 (mkR (pre ++ bs ++ post) (len pre)) = Throw ParserError.
Proof.
  intros (ver & content & a & b & c & tail & Hv & Eb & Ht) Hb Hl. rewrite Eb in *. clear Eb.
  assert (Hc : len content < 2 ^ 30) by (rewrite !len_app in Hb; lia).
  set (K := len (mr_subs m)) in *.
  rewrite <- (word_mod a), <- (word_mod b), <- (word_mod c) in *.
  set (D := pre ++ (le_enc 2 ver ++ le_enc 4 (len content + 4) ++ content ++ le_enc 1 K ++ le_enc 4 0 ++ le_enc 4 (u32 a) ++
    le_enc 4 (u32 b) ++ le_enc 4 (u32 c) ++ tail) ++ post) in *.
  set (q := content ++ [n2b K; x00; x00; x00]).
  assert (ED : D = ((pre ++ le_enc 2 ver) ++ le_enc 4 (len content + 4)) ++ q ++ [x00] ++ le_enc 4 (u32 a) ++ le_enc 4 (u32 b) ++
    le_enc 4 (u32 c) ++ tail ++ post).
  { unfold D, q. rewrite <- !app_assoc. reflexivity. }
  clearbody D.
  assert (U : forall x, u32 x < 2 ^ 32) by (intros x; unfold u32; apply N.mod_lt; discriminate).
  unfold mrm_section_load.
  rewrite (run_bind (fun _ => True) _ _ (le_enc 2 ver) ver pre (le_enc 4 (len content + 4) ++ q ++ [x00] ++ le_enc 4 (u32 a) ++ le_enc 4 (u32 b) ++
    le_enc 4 (u32 c) ++ tail ++ post)); [|apply reads_ushort, Hv | exact I | rewrite ED, <- !app_assoc; reflexivity | exact Hl].
  rewrite (run_bind (fun _ => True) _ _ (le_enc 4 (len content + 4)) (len content + 4) (pre ++ le_enc 2 ver) (q ++ [x00] ++ le_enc 4 (u32 a) ++ le_enc 4 (u32 b) ++
    le_enc 4 (u32 c) ++ tail ++ post)); [|apply reads_uint; lia | exact I | rewrite ED, <- !app_assoc; reflexivity | exact Hl].
  unfold bind at 1. unfold rd_tell at 1. cbn [rpos]. set (P := (pre ++ le_enc 2 ver) ++ le_enc 4 (len content + 4)) in *.
  assert (Lq : len q = len content + 4) by (unfold q; rewrite len_app; reflexivity). rewrite <- Lq.
  unfold bind at 1. rewrite rd_seek_skip; [|rewrite ED, (len_app P), (len_app q); lia | exact Hl]. rewrite <- len_app.
  change [x00] with (le_enc 1 0) in ED.
  rewrite (run_bind (fun _ => True) _ _ (le_enc 1 0) 0 (P ++ q) (le_enc 4 (u32 a) ++ le_enc 4 (u32 b) ++ le_enc 4 (u32 c) ++ tail ++ post));
    [|apply reads_ubyte; reflexivity | exact I | rewrite ED, <- !app_assoc; reflexivity | exact Hl].
  unfold section_load at 1. unfold bind at 1.
  rewrite (run_bind (fun _ => True) _ _ (le_enc 4 (u32 a)) (u32 a) ((P ++ q) ++ le_enc 1 0) (le_enc 4 (u32 b) ++ le_enc 4 (u32 c) ++ tail ++ post));
    [|apply reads_uint, U | exact I | rewrite ED, <- !app_assoc; reflexivity | exact Hl].
  rewrite (run_bind (fun _ => True) _ _ (le_enc 4 (u32 b)) (u32 b) (((P ++ q) ++ le_enc 1 0) ++ le_enc 4 (u32 a)) (le_enc 4 (u32 c) ++ tail ++ post));
    [|apply reads_uint, U | exact I | rewrite ED, <- !app_assoc; reflexivity | exact Hl].
  unfold ret at 1. unfold section_load at 1. unfold bind at 1.
  set (P2 := (((P ++ q) ++ le_enc 1 0) ++ le_enc 4 (u32 a)) ++ le_enc 4 (u32 b)).
  assert (ED2 : D = P2 ++ le_enc 4 (u32 c) ++ tail ++ post) by (unfold P2; rewrite ED, <- !app_assoc; reflexivity).
  rewrite (run_bind (fun _ => True) _ _ (le_enc 4 (u32 c)) (u32 c) P2 (tail ++ post));
    [|apply reads_uint, U | exact I | exact ED2 | exact Hl].
  assert (ET : exists x t2, tail = le_enc 4 (u32 x) ++ t2 /\ forall t, t2 ++ post <> lit "ZenGin Archive" ++ t).
  { destruct (mr_subs m) as [|s l].
    - destruct Ht as (t & ->). exists 1198417242, (lit "in Archive" ++ t). split; [reflexivity|]. intros t2 X. discriminate X.
    - destruct Ht as (Hs & x & t & ->). exists x, (le_enc 4 (6 * len (sm_triangles s)) ++ t). split; [rewrite word_mod; reflexivity|].
      intros t2 X. change (lit "ZenGin Archive") with (le_enc 4 1198417242 ++ lit "in Archive") in X.
      rewrite <- !app_assoc in X. apply (f_equal (take 4)) in X.
      rewrite !take_app_exact in X by (rewrite len_le_enc; reflexivity).
      apply (f_equal le_dec) in X. rewrite !le_dec_enc in X. change (256 ^ N.of_nat 4) with (2 ^ 32) in X.
      rewrite N.mod_small in X by lia. change (1198417242 mod 2 ^ 32) with 1198417242 in X. lia. }
  destruct ET as (x & t2 & -> & Hn). rewrite <- app_assoc in ED2.
  rewrite (run_bind (fun _ => True) _ _ (le_enc 4 (u32 x)) (u32 x) (P2 ++ le_enc 4 (u32 c)) (t2 ++ post));
    [|apply reads_uint, U | exact I | rewrite ED2, <- !app_assoc; reflexivity | exact Hl].
  unfold ret at 1. change (N.to_nat 0) with O. cbn [repM]. unfold bind at 1. unfold ret at 1.
  unfold bind at 1. unfold mrm_mats_load at 1. unfold bind at 1.
  assert (ED3 : D = ((P2 ++ le_enc 4 (u32 c)) ++ le_enc 4 (u32 x)) ++ t2 ++ post) by (rewrite ED2, <- !app_assoc; reflexivity).
  rewrite ED3 in Hl |- *. rewrite open_throws; [reflexivity | exact Hl | exact Hn].
Qed.

(* ------------------------------------------------------------------ *)
(** * Files *)

Lemma of_at w bs a : writes_at (A := unit) w 0 bs a -> len bs < max_size -> file_of w = Ret bs.
Proof. intros H Hl. unfold file_of, w_empty. rewrite (H [] eq_refl) by (rewrite N.add_0_l; exact Hl). reflexivity. Qed.
Lemma chunk_throws {A} (cb : N -> A -> rd (bool * A)) fuel a pre ty pl post e : ty < 2 ^ 16 -> len pl < 2 ^ 32 ->
  len (pre ++ chunk_bytes (ty, pl) ++ post) < max_size ->
  (forall pre2 post2, len (pre2 ++ pl ++ post2) < max_size -> cb ty a (mkR (pre2 ++ pl ++ post2) (len pre2)) = Throw e) ->
  read_chunked (S fuel) cb a (mkR (pre ++ chunk_bytes (ty, pl) ++ post) (len pre)) = Throw e.
Proof.
  intros Hty Hpl Hl Hcb. cbn [read_chunked]. unfold chunk_bytes in *. cbn [fst snd] in *.
  set (D := pre ++ (le_enc 2 ty ++ le_enc 4 (len pl) ++ pl) ++ post) in *.
  assert (HD2 : D = ((pre ++ le_enc 2 ty) ++ le_enc 4 (len pl)) ++ pl ++ post) by (unfold D; rewrite <- !app_assoc; reflexivity).
  rewrite (run_bind (fun _ => True) _ _ (le_enc 2 ty) ty pre (le_enc 4 (len pl) ++ pl ++ post));
    [|apply reads_ushort, Hty | exact I | unfold D; rewrite <- !app_assoc; reflexivity | exact Hl].
  rewrite (run_bind (fun _ => True) _ _ (le_enc 4 (len pl)) (len pl) (pre ++ le_enc 2 ty) (pl ++ post));
    [|apply reads_uint, Hpl | exact I | rewrite HD2, <- !app_assoc; reflexivity | exact Hl].
  unfold bind at 1. unfold rd_tell at 1. unfold bind at 1. rewrite HD2 in *. rewrite Hcb by exact Hl. reflexivity.
Qed.
Lemma chunk_passes {A} (cb : N -> A -> rd (bool * A)) fuel a a1 pre ty pl post : ty < 2 ^ 16 -> len pl < 2 ^ 32 ->
  len (pre ++ chunk_bytes (ty, pl) ++ post) < max_size -> post <> [] -> reads_part (cb ty a) pl (false, a1) ->
  read_chunked (S fuel) cb a (mkR (pre ++ chunk_bytes (ty, pl) ++ post) (len pre)) =
  read_chunked fuel cb a1 (mkR (pre ++ chunk_bytes (ty, pl) ++ post) (len (pre ++ chunk_bytes (ty, pl)))).
Proof.
  intros Hty Hsz Hl Hne Hc. cbn [read_chunked]. unfold chunk_bytes in *. cbn [fst snd] in *.
  set (D := pre ++ (le_enc 2 ty ++ le_enc 4 (len pl) ++ pl) ++ post) in *.
  assert (HD2 : D = ((pre ++ le_enc 2 ty) ++ le_enc 4 (len pl)) ++ pl ++ post) by (unfold D; rewrite <- !app_assoc; reflexivity).
  rewrite (run_bind (fun _ => True) _ _ (le_enc 2 ty) ty pre (le_enc 4 (len pl) ++ pl ++ post));
    [|apply reads_ushort, Hty | exact I | unfold D; rewrite <- !app_assoc; reflexivity | exact Hl].
  rewrite (run_bind (fun _ => True) _ _ (le_enc 4 (len pl)) (len pl) (pre ++ le_enc 2 ty) (pl ++ post));
    [|apply reads_uint, Hsz | exact I | rewrite HD2, <- !app_assoc; reflexivity | exact Hl].
  unfold bind at 1. unfold rd_tell at 1. cbn [rpos]. unfold bind at 1.
  destruct (Hc ((pre ++ le_enc 2 ty) ++ le_enc 4 (len pl)) post) as (q & E & Hq); [rewrite <- HD2; exact Hl|].
  rewrite <- HD2 in E, Hq. rewrite E.
  assert (E6 : len ((pre ++ le_enc 2 ty) ++ le_enc 4 (len pl)) = len pre + 6) by (rewrite !len_app, !len_le_enc; lia).
  assert (Hp : 0 < len post) by (destruct post; [congruence | rewrite len_cons; lia]).
  assert (HDl : len D = len pre + 6 + len pl + len post) by (rewrite HD2, !len_app, !len_le_enc; lia).
  rewrite E6. rewrite u64_small by (pows; lia). rewrite sint_small by (pows; lia).
  unfold bind at 1. rewrite rd_seek_beg by lia. cbn [fst snd]. unfold bind at 1. rewrite r_eof_at.
  destruct (N.leb_spec (len D) (len pre + 6 + len pl)); [lia|].
  replace (len (pre ++ le_enc 2 ty ++ le_enc 4 (len pl) ++ pl)) with (len pre + 6 + len pl); [reflexivity|].
  rewrite !len_app, !len_le_enc. lia.
Qed.
Lemma len_chunk ty pl : len (chunk_bytes (ty, pl)) = 6 + len pl.
Proof. unfold chunk_bytes. cbn [fst snd]. rewrite !len_app, !len_le_enc. lia. Qed.

Lemma mrm_saved_throws g e1 e2 m m0 : len (we_date e1) = len (we_date e2) -> len (we_user e1) = len (we_user e2) ->
  obb_ok (mr_obb m) -> saved_size g e2 m < 2 ^ 30 ->
  exists f, file_of (mrm_save g e1 e2 m) = Ret f /\ len f = saved_size g e2 m /\ of_file (mrm_load m0) f = Throw ParserError.
Proof.
  intros Hd Hu Ho Hs.
  assert (Hn : len (mr_subs m) < 1000000000) by (unfold saved_size, section_size in Hs; lia).
  destruct (mrm_section_at g e1 e2 m 6 Hd Hu Ho Hn) as (bs & W & L & Sh).
  set (post := chunk_bytes (45567, [])).
  assert (Lf : len (chunk_bytes (45312, bs) ++ post) = saved_size g e2 m).
  { unfold post. rewrite len_app, !len_chunk, len_nil, L. unfold saved_size. lia. }
  assert (Lm : len (chunk_bytes (45312, bs) ++ post) < max_size) by (rewrite Lf; pows; lia).
  exists (chunk_bytes (45312, bs) ++ post). split; [|split; [exact Lf|]].
  - eapply of_at; [|exact Lm]. unfold mrm_save. eapply at_bind; [apply chunk_at, W|]. apply chunk_at, at_ret.
  - assert (E : forall fuel, read_chunked (S fuel) mrm_chunk m0 (mkR (chunk_bytes (45312, bs) ++ post) 0) = Throw ParserError).
    { intros fuel. apply (chunk_throws mrm_chunk fuel m0 [] 45312 bs post ParserError); [reflexivity | | |].
      - unfold saved_size in Hs. rewrite L. lia.
      - exact Lm.
      - intros pre2 post2 Hl. change (mrm_chunk 45312 m0) with (let* m' := mrm_section_load m0 in ret (false, m')).
        unfold bind. rewrite (shape_throws m0 m bs); [reflexivity | exact Sh | unfold saved_size in Hs; lia | exact Hl]. }
    unfold of_file, mrm_load. rewrite E. reflexivity.
Qed.

(** ** Soft-skin meshes *)
Lemma weight_writes w : writes (weight_save w) (weight_bytes w).
Proof. unfold weight_save, weight_bytes, v3_bytes. apply writes_seq; [apply writes_uint|]. apply writes_seq; [apply writes_vec3 | apply writes_ubyte]. Qed.
Lemma weights_writes l : writes (weights_save l) (weights_bytes l).
Proof. unfold weights_save, weights_bytes. apply writes_seq; [apply writes_count|]. apply writes_iter. intros. apply weight_writes. Qed.
Lemma wnormal_writes n : writes (wnormal_save n) (wnormal_bytes n).
Proof. unfold wnormal_save, wnormal_bytes, v3_bytes. apply writes_seq; [apply writes_vec3 | apply writes_uint]. Qed.
Lemma skin_nodes_at k p : Forall obb_ok (sk_bboxes k) ->
  exists bs, writes_at (skin_nodes_save k) p bs tt /\ len bs = len (skin_part k []).
Proof.
  intros Hb. set (ws := flat_map weights_bytes (sk_weights k)).
  set (rest := le_enc 4 (len (sk_normals k)) ++ flat_map wnormal_bytes (sk_normals k) ++
    le_enc 2 (len (sk_nodes k)) ++ flat_map int_bytes (sk_nodes k) ++ flat_map tree_bytes (sk_bboxes k)).
  exists (le_enc 4 (len ws + 4) ++ ws ++ rest). split.
  - intros buf Hbf Hl. assert (Lb : len (le_enc 4 (len ws + 4) ++ ws ++ rest) = 4 + len ws + len rest) by (rewrite !len_app, len_le_enc; lia).
    rewrite Lb in Hl. unfold skin_nodes_save. unfold bind at 1. unfold wr_tell at 1. cbn [wpos].
    unfold bind at 1. rewrite (at_of _ p _ (writes_uint 0)); [|exact Hbf | rewrite len_le_enc; lia].
    rewrite len_le_enc. change (p + N.of_nat 4) with (p + 4).
    unfold bind at 1. rewrite (at_of _ (p + 4) ws); [|apply writes_iter; intros; apply weights_writes | rewrite len_app, len_le_enc; lia | lia].
    unfold bind at 1. unfold wr_tell at 1. cbn [wpos].
    unfold bind at 1. rewrite LStreamHist.wr_seek_beg by lia. unfold bind at 1. rewrite <- app_assoc. rewrite <- Hbf.
    rewrite patch4 by (rewrite len_le_enc; lia). unfold bind at 1. rewrite LStreamHist.wr_seek_beg by lia. rewrite word_mod.
    replace (len buf + 4 + len ws - len buf) with (len ws + 4) by lia.
    assert (W : writes (write_uint (u32 (len (sk_normals k))) ;; iterM wnormal_save (sk_normals k) ;; write_ushort (u16 (len (sk_nodes k))) ;;
      iterM write_int (sk_nodes k) ;; iterM obb_save (sk_bboxes k)) rest).
    { unfold rest. apply writes_seq; [apply writes_count|]. apply writes_seq; [apply writes_iter; intros; apply wnormal_writes|].
      rewrite <- short_mod. apply writes_seq; [apply writes_ushort|]. apply writes_seq; [apply writes_iter; intros; apply writes_int|].
      apply writes_iter. intros o Hin. rewrite Forall_forall in Hb. eapply writes_cast; [apply obb_writes, Hb, Hin | symmetry; apply tree_bytes_eq]. }
    rewrite (at_of _ (len buf + 4 + len ws) _ W); [|rewrite !len_app, len_le_enc; lia | lia].
    do 2 f_equal. rewrite <- !app_assoc. f_equal. rewrite !len_app, len_le_enc. lia.
  - unfold skin_part. cbv zeta. rewrite app_nil_r. fold ws. fold rest. rewrite !len_app, !len_le_enc. reflexivity.
Qed.
Lemma skin_at g e1 e2 k p : len (we_date e1) = len (we_date e2) -> len (we_user e1) = len (we_user e2) ->
  obb_ok (mr_obb (sk_mesh k)) -> Forall obb_ok (sk_bboxes k) -> len (mr_subs (sk_mesh k)) < 1000000000 ->
  exists bs sec nodes, writes_at (skin_save g e1 e2 k) p bs tt /\ len bs = skin_size g e2 k /\
    bs = chunk_bytes (57600, le_enc 4 4) ++ chunk_bytes (45312, sec) ++ chunk_bytes (57600, nodes) ++ chunk_bytes (57616, []) /\
    len sec = section_size g e2 (sk_mesh k) /\ section_shape (sk_mesh k) sec.
Proof.
  intros Hd Hu Ho Hb Hn. destruct (mrm_section_at g e1 e2 (sk_mesh k) (p + 10 + 6) Hd Hu Ho Hn) as (sec & W & L & Sh).
  destruct (skin_nodes_at k (p + 10 + len (chunk_bytes (45312, sec)) + 6) Hb) as (nodes & W2 & L2).
  eexists _, sec, nodes. split; [|split; [|split; [reflexivity | split; [exact L | exact Sh]]]].
  - unfold skin_save. eapply at_bind; [apply chunk_at, at_of, writes_uint|].
    rewrite len_chunk, len_le_enc. change (6 + N.of_nat 4) with 10.
    eapply at_bind; [apply chunk_at, W|]. eapply at_bind; [apply chunk_at, W2|]. apply chunk_at, at_ret.
  - rewrite !len_app, !len_chunk, len_le_enc, len_nil, L, L2. unfold skin_size. lia.
Qed.
Lemma skin_saved_throws g e1 e2 k k0 : len (we_date e1) = len (we_date e2) -> len (we_user e1) = len (we_user e2) ->
  obb_ok (mr_obb (sk_mesh k)) -> Forall obb_ok (sk_bboxes k) -> skin_size g e2 k < 2 ^ 30 ->
  exists f, file_of (skin_save g e1 e2 k) = Ret f /\ len f = skin_size g e2 k /\ of_file (skin_load k0) f = Throw ParserError.
Proof.
  intros Hd Hu Ho Hb Hs.
  assert (Hn : len (mr_subs (sk_mesh k)) < 1000000000) by (unfold skin_size, section_size in Hs; lia).
  destruct (skin_at g e1 e2 k 0 Hd Hu Ho Hb Hn) as (bs & sec & nodes & W & L & E & Ls & Sh).
  exists bs. split; [eapply of_at; [exact W | rewrite L; pows; lia]|]. split; [exact L|].
  unfold of_file, skin_load. cbn [rdata rpos]. rewrite N.sub_0_r.
  destruct (N.to_nat (len bs)) as [|fu] eqn:Hf; [rewrite E, len_app, len_chunk in Hf; lia|].
  assert (Lb : len bs < max_size) by (rewrite L; pows; lia).
  set (post := chunk_bytes (57600, nodes) ++ chunk_bytes (57616, [])) in E.
  assert (R : read_chunked (S (S fu)) skin_chunk k0 (mkR bs 0) = Throw ParserError); [|rewrite R; reflexivity].
  rewrite E in Lb |- *.
  pose proof (chunk_passes skin_chunk (S fu) k0 k0 [] 57600 (le_enc 4 4) (chunk_bytes (45312, sec) ++ post) eq_refl eq_refl Lb) as E1.
  etransitivity; [apply E1|].
  - unfold chunk_bytes. discriminate.
  - change (skin_chunk 57600 k0) with (let* _ := read_uint in ret (false, k0)). apply calm_part, calm_uint.
  - apply (chunk_throws skin_chunk fu k0 (chunk_bytes (57600, le_enc 4 4)) 45312 sec post ParserError); [reflexivity | | exact Lb |].
    + unfold skin_size in Hs. rewrite Ls. lia.
    + intros pre2 post2 Hl. change (skin_chunk 45312 k0) with (let* m := mrm_section_load (sk_mesh k0) in
        ret (false, mkSkin m (sk_bboxes k0) (sk_normals k0) (sk_weights k0) (sk_nodes k0))).
      unfold bind. rewrite (shape_throws (sk_mesh k0) (sk_mesh k) sec); [reflexivity | exact Sh | unfold skin_size in Hs; lia | exact Hl].
Qed.

(** ** Model meshes *)
Lemma calm_rep {A} (r : rd A) : calm r -> forall n s, r_ok s -> exists l q, repM n r s = Ret (l, mkR (rdata s) q) /\ q <= len (rdata s) /\ length l = n.
Proof.
  intros Hr. induction n as [|n IH]; intros s Hs; cbn [repM].
  - exists [], (rpos s). destruct s. split; [reflexivity | split; [apply Hs | reflexivity]].
  - destruct (Hr s Hs) as (a & q & E & Hq). unfold bind at 1. rewrite E.
    destruct (IH (mkR (rdata s) q)) as (l & q2 & E2 & Hq2 & L); [destruct Hs; split; [exact Hq | assumption]|].
    exists (a :: l), q2. unfold bind. rewrite E2. split; [reflexivity | split; [exact Hq2 | cbn [length]; congruence]].
Qed.
Lemma fold_le {A} (f : A -> N) l x : In x l -> f x <= fold_right (fun x n => f x + n) 0 l.
Proof. induction l as [|y l IH]; [contradiction|]. intros [->|H]; cbn [fold_right]; [lia|]. specialize (IH H). lia. Qed.

Lemma mm_saved g e1 e2 m m0 : len (we_date e1) = len (we_date e2) -> len (we_user e1) = len (we_user e2) ->
  mm_writable m -> len (mm_attachments m) < 2 ^ 16 -> mm_size g e2 m < 2 ^ 30 -> mm_attachments m0 = [] ->
  exists f, file_of (mm_save g e1 e2 m) = Ret f /\ len f = mm_size g e2 m /\
    of_file (mm_load m0) f = match mm_attachments m with [] => Undef | _ => Throw ParserError end.
Proof.
  intros Hd Hu (Ha & Hk) Hn Hs Em0. unfold mm_size in Hs.
  set (nb := names_bytes m) in *.
  assert (SA : forall p, exists bs, writes_at (iterM (fun x => mrm_section_save g e1 e2 (snd x)) (mm_attachments m)) p bs tt /\
    len bs = fold_right (fun x n => section_size g e2 (snd x) + n) 0 (mm_attachments m) /\
    match mm_attachments m with [] => bs = [] | x :: _ => exists sec t, bs = sec ++ t /\ section_shape (snd x) sec end).
  { intros p.
    assert (Hx : forall x p, In x (mm_attachments m) -> exists bs, writes_at (mrm_section_save g e1 e2 (snd x)) p bs tt /\
      len bs = section_size g e2 (snd x) /\ section_shape (snd x) bs).
    { intros x q Hx. rewrite Forall_forall in Ha. apply mrm_section_at; [assumption | assumption | apply Ha, Hx|].
      pose proof (fold_le (fun x => section_size g e2 (snd x)) _ x Hx) as G. cbv beta in G. unfold section_size at 1 in G. lia. }
    destruct (mm_attachments m) as [|x l] eqn:El.
    - exists []. split; [apply at_ret | split; reflexivity].
    - destruct (Hx x p (or_introl eq_refl)) as (sec & W & L & Sh).
      destruct (iter_at (fun x => mrm_section_save g e1 e2 (snd x)) (fun y => In y l) (fun x => section_size g e2 (snd x))) with (l := l) (p := p + len sec)
        as (t & W2 & L2).
      + intros y q Hy. destruct (Hx y q (or_intror Hy)) as (bs & Y1 & Y2 & _). exists bs. split; assumption.
      + apply Forall_forall. auto.
      + exists (sec ++ t). split; [cbn [iterM]; eapply at_bind; [exact W | exact W2]|]. split; [cbn [fold_right]; rewrite len_app, L, L2; reflexivity|].
        exists sec, t. split; [reflexivity | exact Sh]. }
  assert (SK : forall p, exists bs, writes_at (iterM (skin_save g e1 e2) (mm_skins m)) p bs tt /\
    len bs = fold_right (fun k n => skin_size g e2 k + n) 0 (mm_skins m)).
  { intros p. apply (iter_at (skin_save g e1 e2) (fun k => In k (mm_skins m))).
    - intros k q Hin. rewrite Forall_forall in Hk. destruct (Hk k Hin) as [K1 K2].
      destruct (skin_at g e1 e2 k q Hd Hu K1 K2) as (bs & sec & nodes & W & L & _).
      + pose proof (fold_le (skin_size g e2) _ k Hin) as G. unfold skin_size at 1 in G. unfold section_size in G. lia.
      + exists bs. split; assumption.
    - apply Forall_forall. auto. }
  set (c1 := chunk_bytes (53248, le_enc 4 67306758)). set (c2 := chunk_bytes (53280, nb)).
  destruct (SA (len c1 + len c2 + 6)) as (ab & WA & LA & EA). set (c3 := chunk_bytes (45312, ab)).
  destruct (SK (len c1 + len c2 + len c3 + 6 + 4)) as (kb & WK & LK).
  set (c4 := chunk_bytes (53296, le_enc 4 (mm_checksum m) ++ kb)). set (c5 := chunk_bytes (53312, [])).
  set (f := c1 ++ c2 ++ c3 ++ c4 ++ c5).
  assert (Lf : len f = mm_size g e2 m).
  { unfold f, c1, c2, c3, c4, c5. rewrite !len_app, !len_chunk, !len_app, !len_le_enc, len_nil, LA, LK. unfold mm_size, nb. lia. }
  assert (Lm : len f < max_size) by (rewrite Lf; unfold mm_size; fold nb; pows; lia).
  exists f. split; [|split; [exact Lf|]].
  { eapply of_at; [|exact Lm]. unfold mm_save, f. eapply at_bind; [apply chunk_at, at_of, writes_uint|].
    eapply at_bind; [apply chunk_at, at_of|].
    { unfold nb, names_bytes. rewrite <- short_mod. apply writes_seq; [apply writes_ushort|]. apply writes_iter. intros. apply writes_line. }
    eapply at_bind; [apply chunk_at; rewrite N.add_0_l; exact WA|].
    eapply at_bind; [apply chunk_at|].
    { eapply at_bind; [apply at_of, writes_uint|]. rewrite len_le_enc. rewrite N.add_0_l. exact WK. }
    apply chunk_at, at_ret. }
  unfold of_file, mm_load. cbn [rdata rpos]. rewrite N.sub_0_r.
  assert (L4 : exists fu, N.to_nat (len f) = S (S fu)).
  { exists (N.to_nat (len f) - 2)%nat. assert (2 <= len f) by (unfold f, c1; rewrite len_app, len_chunk; lia). lia. }
  destruct L4 as (fu & ->).
  assert (R : read_chunked_t (S (S (S fu))) mm_chunk ([], m0) (mkR f 0) = match mm_attachments m with [] => Undef | _ => Throw ParserError end).
  2:{ unfold bind. rewrite R. destruct (mm_attachments m); reflexivity. }
  etransitivity; [apply (chunk_t_plain mm_chunk (S (S fu)) ([], m0) [] (53248, le_enc 4 67306758) (c2 ++ c3 ++ c4 ++ c5) f (let* _ := read_uint in ret ([], m0)) ([], m0))|].
  { reflexivity. } { unfold c2, chunk_bytes. discriminate. } { exact Lm. } { split; reflexivity. } { intros fin s. rewrite ?bind_assoc. reflexivity. }
  { apply calm_part, calm_uint. }
  fold c1. cbn [app].
  assert (F2 : f = c1 ++ le_enc 2 53280 ++ le_enc 4 (len nb) ++ nb ++ c3 ++ c4 ++ c5).
  { unfold f, c2, chunk_bytes at 1. cbn [fst snd]. rewrite <- !app_assoc. reflexivity. }
  assert (Hnb : exists names q, mm_chunk 53280 (u64 (len c1 + 6 + len nb)) ([], m0) (mkR f (len c1 + 6)) =
     Ret ((false, u64 (len c1 + 6 + len nb), (names, m0)), mkR f q) /\ length names = length (mm_attachments m)).
  { unfold mm_chunk. change (53280 =? O_HEADER) with false. change (53280 =? O_SOURCE) with false. change (53280 =? O_NODES) with true. cbv iota.
    assert (E6 : len c1 + 6 = len ((c1 ++ le_enc 2 53280) ++ le_enc 4 (len nb))) by (rewrite !len_app, !len_le_enc; lia).
    rewrite E6. rewrite (run_bind (fun _ => True) _ _ (le_enc 2 (len (mm_attachments m))) (len (mm_attachments m)) _
      (flat_map (fun x => fst x ++ [x0a]) (mm_attachments m) ++ c3 ++ c4 ++ c5));
      [|apply reads_ushort, Hn | exact I | rewrite F2; unfold nb, names_bytes; rewrite <- !app_assoc; reflexivity | exact Lm].
    destruct (calm_rep (read_line true) (calm_line true) (N.to_nat (len (mm_attachments m)))
      (mkR f (len (((c1 ++ le_enc 2 53280) ++ le_enc 4 (len nb)) ++ le_enc 2 (len (mm_attachments m)))))) as (l & q & E & Hq & Ll).
    { split; cbn [rdata rpos]; [|exact Lm]. rewrite F2. unfold nb, names_bytes. rewrite !len_app, !len_le_enc. lia. }
    exists l, q. unfold bind at 1. rewrite E. split; [reflexivity|]. rewrite Ll. unfold len. lia. }
  destruct Hnb as (names & q & En & Ln).
  assert (L12 : len c1 + 6 + len nb = len (c1 ++ c2)) by (unfold c2; rewrite len_app, len_chunk; lia).
  assert (Lc3 : 6 <= len c3) by (unfold c3; rewrite len_chunk; lia).
  assert (Lff : len f = len (c1 ++ c2) + len c3 + len c4 + len c5) by (unfold f; rewrite !len_app; lia).
  rewrite u64_small in En by (pows; lia).
  etransitivity; [eapply (chunk_t_step mm_chunk (S fu) ([], m0) c1 53280 (len nb) (nb ++ c3 ++ c4 ++ c5) f false (len (c1 ++ c2)) (names, m0) q)|].
  { exact F2. } { exact Lm. } { reflexivity. } { clear - Hs. lia. } { rewrite u64_small by (pows; lia). rewrite <- L12. exact En. } { lia. }
  destruct (N.leb_spec (len f) (len (c1 ++ c2))); [lia|].
  assert (F3 : f = (c1 ++ c2) ++ le_enc 2 45312 ++ le_enc 4 (len ab) ++ ab ++ c4 ++ c5).
  { unfold f, c3, chunk_bytes at 1. cbn [fst snd]. rewrite <- !app_assoc. reflexivity. }
  cbn [read_chunked_t].
  rewrite (run_bind (fun _ => True) _ _ (le_enc 2 45312) 45312 (c1 ++ c2) (le_enc 4 (len ab) ++ ab ++ c4 ++ c5));
    [|apply reads_ushort; reflexivity | exact I | exact F3 | exact Lm].
  rewrite (run_bind (fun _ => True) _ _ (le_enc 4 (len ab)) (len ab) ((c1 ++ c2) ++ le_enc 2 45312) (ab ++ c4 ++ c5));
    [|apply reads_uint; rewrite LA; lia | exact I | rewrite F3, <- !app_assoc; reflexivity | exact Lm].
  unfold bind at 1. unfold rd_tell at 1. unfold bind at 1.
  unfold mm_chunk at 1. change (45312 =? O_HEADER) with false. change (45312 =? O_SOURCE) with false.
  change (45312 =? O_NODES) with false. change (45312 =? O_PROTO) with true. cbv iota. rewrite Em0.
  change (len (@nil (bytes * mrm))) with 0.
  destruct (mm_attachments m) as [|x l] eqn:El.
  - destruct names; [reflexivity | discriminate Ln].
  - destruct names as [|nm names]; [discriminate Ln|]. change (nth_N (nm :: names) 0) with (Some nm). cbv iota.
    destruct EA as (sec & t & -> & Sh). unfold bind at 1.
    assert (F4 : f = (((c1 ++ c2) ++ le_enc 2 45312) ++ le_enc 4 (len (sec ++ t))) ++ sec ++ t ++ c4 ++ c5) by (rewrite F3, <- !app_assoc; reflexivity).
    rewrite F4 in Lm |- *. rewrite (shape_throws _ (snd x) sec); [reflexivity | exact Sh | | exact Lm].
    rewrite len_app in LA. lia.
Qed.

Lemma mm_unnamed sec rest m0 : len (chunk_bytes (45312, sec) ++ rest) < max_size ->
  of_file (mm_load m0) (chunk_bytes (45312, sec) ++ rest) = Undef.
Proof.
  intros Hl. unfold of_file, mm_load. cbn [rdata rpos]. rewrite N.sub_0_r.
  set (fu := N.to_nat (len (chunk_bytes (45312, sec) ++ rest))).
  set (D := chunk_bytes (45312, sec) ++ rest) in *.
  assert (R : read_ushort (mkR D 0) = Ret (45312, mkR D 2)).
  { pose proof (reads_ushort 45312 eq_refl [] (le_enc 4 (len sec) ++ sec ++ rest) I) as R. cbn [app] in R.
    change (le_enc 2 45312 ++ le_enc 4 (len sec) ++ sec ++ rest) with D in R. apply R, Hl. }
  assert (H2 : r_ok (mkR D 2)).
  { split; cbn [rdata rpos]; [|exact Hl]. unfold D, chunk_bytes. cbn [fst snd]. rewrite !len_app, len_le_enc. lia. }
  destruct (calm_uint _ H2) as (n & q & E & _). cbn [read_chunked_t]. unfold bind. rewrite R, E. unfold rd_tell.
  assert (Nn : nth_N (@nil bytes) (len (mm_attachments m0)) = None) by (rewrite nth_N_error; destruct (N.to_nat (len (mm_attachments m0))); reflexivity).
  unfold mm_chunk. change (45312 =? O_HEADER) with false. change (45312 =? O_SOURCE) with false. change (45312 =? O_NODES) with false.
  change (45312 =? O_PROTO) with true. cbv iota. rewrite Nn. reflexivity.
Qed.
