(** Lemmas: the materials of a mesh. *)

From Coq Require Import Lia ZifyN ZifyBool ZifyNat String.
From Verif Require Import MBase MStream SStream MBoxes SBoxes MTexture STexture MText MClasses MArchive SArchive MVob
  MMaterial MMesh SMesh SFormat LBase LStream LStreamHist LBoxes LFormat LModel LText LArchW LArchR LArchH.
From Verif Require LFloatText.
Local Open Scope N_scope.
Local Open Scope m_scope.

(* ------------------------------------------------------------------ *)
(** * Writing *)

Lemma emits_writes m bs : emits m bs -> writes m bs.
Proof.
  intros H [B p] Hp Hl. cbn [wbuf wpos] in *. subst p. specialize (H B [] Hl).
  rewrite app_nil_r, drop_nil, app_nil_r in H. exact H.
Qed.

(** An archive writer at the end of its buffer appends [bs] and counts from [i] to [i']. *)
Definition awrites (m : awr unit) (i : N) (bs : bytes) (i' : N) : Prop :=
  forall pre K I S hp sv, len pre + len bs < max_size ->
    m (mkWar (mkW pre (len pre)) i K I S hp sv) = Ret (tt, mkWar (mkW (pre ++ bs) (len (pre ++ bs))) i' K I S hp sv).
Lemma awrites_wrl m bs i : writes m bs -> awrites (wrl m) i bs i.
Proof.
  intros H pre K I S hp sv Hl. unfold wrl. cbn [wa_w wa_index wa_keys wa_indent wa_starts wa_head wa_save].
  rewrite (H (mkW pre (len pre)) eq_refl Hl). cbn [wbuf]. rewrite len_app. reflexivity.
Qed.
Lemma awrites_seq m1 m2 i j k b1 b2 : awrites m1 i b1 j -> awrites m2 j b2 k -> awrites (m1 ;; m2) i (b1 ++ b2) k.
Proof.
  intros H1 H2 pre K I S hp sv Hl. rewrite len_app in Hl. unfold bind. rewrite H1 by lia. rewrite H2 by (rewrite len_app; lia).
  rewrite <- app_assoc. reflexivity.
Qed.
Lemma awrites_ret i : awrites (ret tt) i [] i.
Proof. intros pre K I S hp sv _. rewrite app_nil_r. reflexivity. Qed.

Definition is_entry (o : wop oid) : bool := match o with WEntry _ _ => true | _ => false end.
Lemma run_wops_bin l : forallb is_entry l = true -> forall i c pre K I S hp sv,
  len pre + len (flat_map bin_bytes (entries_of l)) < max_size ->
  run_wops (fmt_wprims ABinary) (fun _ _ => undef) l (mkWg (mkWar (mkW pre (len pre)) i K I S hp sv) c) =
  let r := pre ++ flat_map bin_bytes (entries_of l) in
  Ret (tt, mkWg (mkWar (mkW r (len r)) i K I S hp sv) c).
Proof.
  induction l as [|o l IH]; intros Hl i c pre K I S hp sv Hs.
  - cbn [entries_of flat_map]. rewrite app_nil_r. reflexivity.
  - cbn [forallb] in Hl. apply andb_prop in Hl as [Ho Hl]. destruct o as [name e| | | |]; try discriminate.
    unfold entries_of in *. cbn [flat_map app] in *. rewrite len_app in Hs.
    cbn [run_wops run_wop fmt_wprims wp_entry]. unfold bind at 1, wgl. cbn [wg_s wg_cache].
    rewrite (awrites_wrl _ _ i (emits_writes _ _ (emits_bin e))) by lia.
    rewrite IH by (try assumption; rewrite len_app; lia). cbv zeta. rewrite <- app_assoc. reflexivity.
Qed.

Lemma len_mat_head g i s : len (mat_head g i s) = 23.
Proof. unfold mat_head. rewrite !len_app, !len_le_enc. reflexivity. Qed.

Lemma patch4 pre a b v : len pre + len (le_enc 4 v) < max_size ->
  write_uint v (mkW (pre ++ le_enc 4 a ++ b) (len pre)) = Ret (tt, mkW (pre ++ le_enc 4 v ++ b) (len pre + 4)).
Proof.
  intros Hl. pose proof (emits_raw (le_enc 4 v) pre (le_enc 4 a ++ b) Hl) as E. unfold write_uint. rewrite E.
  rewrite len_le_enc, drop_app_exact by (rewrite len_le_enc; reflexivity). reflexivity.
Qed.

Lemma mat_save_writes g i x : awrites (mat_save g x) i (mat_bytes g i x) (u32 (i + 1)).
Proof.
  unfold mat_save, mat_bytes. apply awrites_seq with (j := i); [apply awrites_wrl, emits_writes, (emits_bin (EStr _))|].
  intros pre K I S hp sv Hl. rewrite len_app, len_mat_head in Hl.
  unfold bind at 1, bin_wbegin. unfold bind at 1, wrl at 1, wr_tell at 1. cbn [wa_w wa_index wa_keys wa_indent wa_starts wa_head wa_save wpos].
  unfold bind at 1, set_starts at 1. cbn [wa_w wa_index wa_keys wa_indent wa_starts wa_head wa_save].
  unfold bind at 1. cbn [wa_index].
  change (no_class (lit "zCMaterial")) with false. cbv iota.
  set (v0 := u32 (6 + len (lit "%") + len (lit "zCMaterial") + 2)).
  match goal with |- context [wrl ?m (mkWar ?w ?a ?b ?c ?d ?e ?f)] =>
    pose proof (awrites_wrl m (mat_head g i v0) i) as E end.
  rewrite E; [|repeat (apply writes_seq; [apply emits_writes, emits_raw|]); apply writes_seq; apply emits_writes, emits_string0 | rewrite len_mat_head; lia].
  clear E. unfold next_index. change (no_class (lit "zCMaterial")) with false. cbv iota.
  cbn [wa_w wa_index wa_keys wa_indent wa_starts wa_head wa_save].
  unfold bind at 1, mat_ops.
  rewrite run_wops_bin; [|destruct g; reflexivity | rewrite len_app, len_mat_head; unfold mat_body in Hl; lia].
  cbv zeta. cbn [wg_s]. fold (mat_body g x). set (B := (pre ++ mat_head g i v0) ++ mat_body g x).
  unfold bin_wend. unfold bind at 1, wrl at 1, wr_tell at 1. cbn [wa_w wa_index wa_keys wa_indent wa_starts wa_head wa_save wpos].
  assert (LB : len B = len pre + 23 + len (mat_body g x)) by (unfold B; rewrite !len_app, len_mat_head; lia).
  assert (ES : u32 (len B - len pre) = u32 (mat_size g x)) by (f_equal; unfold mat_size; lia).
  rewrite ES. unfold bind at 1, set_starts. cbn [wa_w wa_index wa_keys wa_indent wa_starts wa_head wa_save].
  unfold wrl. cbn [wa_w wa_index wa_keys wa_indent wa_starts wa_head wa_save].
  unfold bind at 1. rewrite LStreamHist.wr_seek_beg by lia.
  assert (EB : B = pre ++ le_enc 4 v0 ++ (le_enc 2 (ver_material (mkCfg g false false 0)) ++ le_enc 4 i ++ (lit "%" ++ [x00]) ++ (lit "zCMaterial" ++ [x00])) ++ mat_body g x)
    by (unfold B, mat_head; rewrite <- !app_assoc; reflexivity).
  rewrite EB at 1. unfold bind at 1. rewrite patch4 by (rewrite len_le_enc; change (N.of_nat 4) with 4; lia).
  rewrite LStreamHist.wr_seek_beg by lia.
  unfold u32 at 1. change (2 ^ 32) with (256 ^ N.of_nat 4). rewrite le_enc_mod.
  assert (EF : pre ++ mat_head g i (mat_size g x) ++ mat_body g x = pre ++ le_enc 4 (mat_size g x) ++ (le_enc 2 (ver_material (mkCfg g false false 0)) ++ le_enc 4 i ++ (lit "%" ++ [x00]) ++ (lit "zCMaterial" ++ [x00])) ++ mat_body g x)
    by (unfold mat_head; rewrite <- !app_assoc; reflexivity).
  rewrite EF. do 4 f_equal. rewrite <- EF, LB, !len_app, len_mat_head. lia.
Qed.

Lemma mats_iter_writes g : forall l i, i + len l < 2 ^ 32 -> awrites (iterM (mat_save g) l) i (mats_bytes g i l) (i + len l).
Proof.
  induction l as [|x l IH]; intros i Hi; cbn [iterM mats_bytes].
  - rewrite len_nil, N.add_0_r. apply awrites_ret.
  - rewrite len_cons in *. apply awrites_seq with (j := i + 1).
    + pose proof (mat_save_writes g i x) as H. unfold u32 in H. rewrite N.mod_small in H by lia. exact H.
    + replace (i + (1 + len l)) with (i + 1 + len l) by lia. apply IH. lia.
Qed.

Definition mats_file (g : game) (e : wenv) (l : list material) : bytes :=
  header_text ABinary e false ++ count_text 10 (len l) ++ le_enc 4 (len l) ++ mats_bytes g 0 l.

Lemma emits_head_bin e idx : idx < 1000000000 ->
  emits (common_header e (lit "zCArchiverGeneric") (lit "BINARY") false ;; objects_line 9 10 idx)
        (header_text ABinary e false ++ count_text 10 idx).
Proof.
  intros H. apply emits_seq; [apply (emits_common ABinary e false)|]. apply emits_objects. apply dec_len; [exact H | lia].
Qed.
Lemma len_count10 idx : idx < 1000000000 -> len (count_text 10 idx) = 24.
Proof. intros H. apply (len_head_rest ABinary idx 0). exact H. Qed.

Lemma wheader_bin_new e pre idx K I S sv' :
  idx < 1000000000 -> len pre + len (header_text ABinary e false) + 24 < max_size -> sv' = false ->
  ar_wheader ABinary e (mkWar (mkW pre (len pre)) idx K I S (len pre) sv') =
  let r := pre ++ header_text ABinary e false ++ count_text 10 idx in
  Ret (tt, mkWar (mkW r (len r)) idx K I S (len pre) sv').
Proof.
  intros Hi Hl ->. unfold ar_wheader. unfold wrl. cbn [wa_w wa_head wa_save wa_index wa_keys].
  unfold bind at 1, wr_tell. cbn [wpos]. unfold bind at 1. rewrite LStreamHist.wr_seek_beg by lia.
  rewrite <- bind_assoc. unfold bind at 1.
  pose proof (emits_writes _ _ (emits_head_bin e idx Hi) (mkW pre (len pre)) eq_refl) as E. cbn [wbuf] in E.
  rewrite len_app, len_count10 in E by exact Hi. rewrite E by lia. rewrite N.eqb_refl.
  unfold ret. cbv zeta. rewrite !len_app, len_count10 by exact Hi. reflexivity.
Qed.
Lemma wheader_bin_again e pre old rest idx K I S :
  idx < 1000000000 -> len (pre ++ old ++ rest) < max_size ->
  len old = len (header_text ABinary e false) + 24 ->
  ar_wheader ABinary e (mkWar (mkW (pre ++ old ++ rest) (len (pre ++ old ++ rest))) idx K I S (len pre) false) =
  let r := pre ++ (header_text ABinary e false ++ count_text 10 idx) ++ rest in
  Ret (tt, mkWar (mkW r (len r)) idx K I S (len pre) false).
Proof.
  intros Hi Hl Ho. unfold ar_wheader. unfold wrl. cbn [wa_w wa_head wa_save wa_index wa_keys].
  unfold bind at 1, wr_tell. cbn [wpos]. unfold bind at 1. 
  assert (Hp : len pre + len old + len rest < max_size) by (rewrite !len_app in Hl; lia).
  rewrite LStreamHist.wr_seek_beg by lia.
  rewrite <- bind_assoc. unfold bind at 1.
  pose proof (emits_head_bin e idx Hi pre (old ++ rest)) as E.
  assert (Lh : len (header_text ABinary e false ++ count_text 10 idx) = len old) by (rewrite len_app, len_count10 by exact Hi; lia).
  rewrite Lh in E. rewrite E by lia. rewrite (drop_app_exact (len old)) by reflexivity.
  destruct (N.eqb_spec (len (pre ++ old ++ rest)) (len pre)) as [X|X]; [rewrite !len_app in X; lia|].
  rewrite LStreamHist.wr_seek_beg by exact Hl. cbv zeta. do 4 f_equal. rewrite !len_app, len_count10 by exact Hi. lia.
Qed.

Lemma mats_save_writes g e1 e2 l : len (we_date e1) = len (we_date e2) -> len (we_user e1) = len (we_user e2) ->
  len l < 1000000000 -> writes (mats_save g e1 e2 l) (mats_file g e2 l).
Proof.
  intros Hd Hu Hn [pre p] Hp Hl. cbn [wbuf wpos] in *. subst p. unfold mats_save, ar_create. cbn [wpos].
  unfold mats_file in *. rewrite !len_app, len_count10, len_le_enc in Hl by exact Hn. change (N.of_nat 4) with 4 in Hl.
  assert (L1 : len (header_text ABinary e1 false) = len (header_text ABinary e2 false)) by (apply len_header_text; assumption).
  rewrite (wheader_bin_new e1 pre 0) by (try reflexivity; lia). cbv zeta.
  cbn [wa_w wa_index wa_keys wa_indent wa_starts wa_head wa_save].
  set (old := header_text ABinary e1 false ++ count_text 10 0).
  assert (Lo : len old = len (header_text ABinary e2 false) + 24) by (unfold old; rewrite len_app, len_count10 by reflexivity; lia).
  unfold bind at 1. unfold u32. change (2 ^ 32) with (256 ^ N.of_nat 4).
  rewrite (awrites_wrl _ (le_enc 4 (len l mod 256 ^ N.of_nat 4)) 0);
    [|apply emits_writes, emits_raw | rewrite len_app, len_le_enc; change (N.of_nat 4) with 4; lia].
  rewrite le_enc_mod. unfold bind at 1. rewrite mats_iter_writes; [|lia | rewrite !len_app, len_le_enc; change (N.of_nat 4) with 4; lia].
  rewrite N.add_0_l.
  replace (((pre ++ old) ++ le_enc 4 (len l)) ++ mats_bytes g 0 l) with (pre ++ old ++ (le_enc 4 (len l) ++ mats_bytes g 0 l))
    by (rewrite <- !app_assoc; reflexivity).
  rewrite wheader_bin_again; [|exact Hn | rewrite !len_app, len_le_enc; change (N.of_nat 4) with 4; lia | exact Lo].
  cbv zeta. cbn [wa_w]. rewrite <- !app_assoc. do 4 f_equal. rewrite !len_app. lia.
Qed.

(* ------------------------------------------------------------------ *)
(** * Reading *)

Definition prun {A} (p : prog oid A) := runp (Ob := unit) (fmt_prims ABinary) (fun _ => 0%Z) undef p.
Definition preads {A} (p : prog oid A) (bs : bytes) (a : A) : Prop :=
  forall pre post E, len (pre ++ bs ++ post) < max_size ->
    prun p (mkRg (mkRar (mkR (pre ++ bs ++ post) (len pre)) E) [] []) =
    Ret (a, mkRg (mkRar (mkR (pre ++ bs ++ post) (len pre + len bs)) E) [] []).
Lemma preads_ret {A} (a : A) : preads (PRet a) [] a.
Proof. intros pre post E _. rewrite N.add_0_r. reflexivity. Qed.
Lemma preads_read {A} k e v (c : kval k -> prog oid A) bs a :
  entry_ok ABinary e = true -> kmatch k e = Some v -> preads (c v) bs a -> preads (PRead k c) (bin_bytes e ++ bs) a.
Proof.
  intros He Hk Hc pre post E Hl. unfold prun. cbn [runp]. unfold bind at 1, rgl. cbn [rg_s rg_cache rg_heap fmt_prims p_read ar_read].
  unfold rdl. cbn [ra_r ra_ends]. rewrite <- app_assoc in *.
  rewrite (reads_bin k e v He Hk pre (bs ++ post) Logic.I Hl).
  specialize (Hc (pre ++ bin_bytes e) post E). rewrite <- !app_assoc in Hc. specialize (Hc Hl).
  rewrite len_app in Hc. unfold prun in Hc. rewrite Hc. rewrite len_app, N.add_assoc. reflexivity.
Qed.
Lemma preads_cast {A} (p : prog oid A) bs bs' a a' : preads p bs a -> bs = bs' -> a = a' -> preads p bs' a'.
Proof. intros H <- <-. exact H. Qed.

Lemma load_material_reads g x : mat_ok g x -> preads (load_material (mkCfg g false false 0)) (mat_body g x) x.
Proof.
  intros (Hok & Ht1 & Ht2 & Hg). apply LFloatText.finite_vec2_read in Ht1, Ht2. unfold mat_body. destruct x as [a1 a2 a3 a4 a5 a6 a7 a8 a9 a10 a11 a12 a13 a14 a15 a16 a17 a18 a19 a20 a21 a22 a23 a24]. destruct g;
    cbn [save_material entries_of flat_map app g2 cf_game material_name material_group material_color material_smooth_angle
    material_texture material_texture_scale material_texture_anim_fps material_texture_anim_map_mode material_texture_anim_map_dir
    material_disable_collision material_disable_lightmap material_dont_collapse material_detail_object material_detail_object_scale
    material_force_occluder material_environment_mapping material_environment_mapping_strength material_wave_mode material_wave_speed
    material_wave_max_amplitude material_wave_grid_size material_ignore_sun material_alpha_func material_default_mapping] in *.

  all: unfold wS, wE, wC, wF, wB, wV2 in *; cbn [flat_map app forallb] in *; rewrite ?andb_true_r in Hok;
    repeat match goal with H : andb _ _ = true |- _ => apply andb_prop in H; destruct H end.
  - destruct Hg as (-> & -> & -> & -> & -> & -> & -> & -> & -> & ->).
    unfold load_material, p_enum8, p_rd. cbn [pbind g2 cf_game].
    repeat (eapply preads_read; [eassumption | reflexivity|]; cbn beta).
    eapply preads_cast; [apply preads_ret | reflexivity|]. rewrite Ht1, Ht2. f_equal.
    match goal with H : entry_ok ABinary (EEnum a2) = true |- _ => unfold entry_ok in H; apply andb_prop in H as [_ H]; apply N.ltb_lt in H; apply N.mod_small; exact H end.
  - unfold load_material, p_enum8, p_rd. cbn [pbind g2 cf_game].
    assert (HE : bin_bytes (EBool (negb (a23 =? 0))) = bin_bytes (EEnum a23)).
    { cbn [bin_bytes]. assert (a23 = 0 \/ a23 = 1) as [-> | ->] by lia; reflexivity. }
    rewrite HE.
    assert (Ha : entry_ok ABinary (EEnum a23) = true).
    { unfold entry_ok, entry_fit. cbn [entry_wf]. assert (a23 = 0 \/ a23 = 1) as [-> | ->] by lia; reflexivity. }
    repeat (eapply preads_read; [eassumption | reflexivity|]; cbn beta).
    eapply preads_cast; [apply preads_ret | reflexivity|]. rewrite Ht1, Ht2.
    assert (U : forall a, entry_ok ABinary (EEnum a) = true -> u8 a = a).
    { intros a H'. unfold entry_ok in H'; apply andb_prop in H' as [_ H']; apply N.ltb_lt in H'; apply N.mod_small; exact H'. }
    rewrite !U by assumption. reflexivity.
Qed.

Lemma runp_bind {A B} (p : prog oid A) (f : A -> prog oid B) s :
  prun (pbind p f) s = bind (prun p) (fun a => prun (f a)) s.
Proof.
  unfold prun. revert s. induction p as [a|e| | |k c IH|c IH|c IH|c IH|b p IH]; intros s; cbn [pbind runp]; try reflexivity.
  all: try (unfold bind at 1; unfold bind at 1; unfold bind at 1).
  - unfold bind. destruct (rgl _ s) as [[v s1]| | |]; try reflexivity. rewrite IH. reflexivity.
  - unfold bind. destruct (rgl _ s) as [[v s1]| | |]; try reflexivity. rewrite IH. reflexivity.
  - unfold bind. destruct (rgl _ s) as [[v s1]| | |]; try reflexivity. rewrite IH. reflexivity.
  - unfold bind. destruct (rgl _ s) as [[v s1]| | |]; try reflexivity. rewrite IH. reflexivity.
Qed.
Lemma preads_bind {A B} (p : prog oid A) (f : A -> prog oid B) b1 b2 a b :
  preads p b1 a -> preads (f a) b2 b -> preads (pbind p f) (b1 ++ b2) b.
Proof.
  intros H1 H2 pre post E Hl. rewrite runp_bind. unfold bind. rewrite <- app_assoc in *.
  rewrite (H1 pre (b2 ++ post) E Hl). specialize (H2 (pre ++ b1) post E). rewrite <- !app_assoc in H2. specialize (H2 Hl). rewrite len_app in H2.
  rewrite H2. rewrite len_app, N.add_assoc. reflexivity.
Qed.

Lemma eof_false pre c bs : len (pre ++ c :: bs) < max_size -> rd_eof (mkR (pre ++ c :: bs) (len pre)) = Ret (false, mkR (pre ++ c :: bs) (len pre)).
Proof.
  intros H. unfold rd_eof. cbn [rdata rpos]. destruct (N.leb_spec (len (pre ++ c :: bs)) (len pre)) as [X|X]; [|reflexivity].
  rewrite len_app, len_cons in X. lia.
Qed.

Definition begin_read : rd (N * N * N * bytes * bytes) :=
  let* size := read_uint in
  let* ver := read_ushort in
  let* idx := read_uint in
  let* name := read_line false in
  let* cls := read_line false in
  ret (size, ver, idx, name, cls).
Lemma begin_read_reads g i size : size < 2 ^ 32 -> i < 2 ^ 32 ->
  reads begin_read (mat_head g i size) (size, ver_material (mkCfg g false false 0), i, lit "%", lit "zCMaterial").
Proof.
  intros Hs Hi. unfold begin_read, mat_head.
  eapply reads_bind; [apply reads_uint; exact Hs|]. eapply reads_bind; [apply reads_ushort; destruct g; reflexivity|].
  eapply reads_bind; [apply reads_uint; exact Hi|].
  eapply reads_bind; [apply reads_line_nows; [apply no_eolb_spec; reflexivity | reflexivity]|].
  eapply reads_if_last; [apply reads_line_nows; [apply no_eolb_spec; reflexivity | reflexivity]|]. apply reads_ret.
Qed.
Lemma bin_begin_eq r E : (exists b, rd_eof r = Ret (b, r) /\ b = false) ->
  bin_begin (mkRar r E) =
  match begin_read r with
  | Ret ((size, ver, idx, name, cls), r') => Ret (Some (mkH name cls ver idx), mkRar r' (u64 (rpos r + size) :: E))
  | Throw e => Throw e | Undef => Undef | Fuel => Fuel
  end.
Proof.
  intros (b & Eb & ->). unfold bin_begin, begin_read. unfold bind at 1, rdl at 1. cbn [ra_r]. rewrite Eb.
  unfold bind at 1, rdl at 1, rd_tell at 1. cbn [ra_r ra_ends].
  unfold bind, rdl. cbn [ra_r ra_ends]. destruct (read_uint r) as [[sz r1]| | |]; try reflexivity. cbn [ra_r ra_ends].
  destruct (read_ushort r1) as [[v r2]| | |]; try reflexivity. cbn [ra_r ra_ends].
  destruct (read_uint r2) as [[ix r3]| | |]; try reflexivity. cbn [ra_r ra_ends].
  destruct (read_line false r3) as [[n r4]| | |]; try reflexivity. cbn [ra_r ra_ends].
  destruct (read_line false r4) as [[c r5]| | |]; reflexivity.
Qed.

Lemma mat_load_reads g i x : mat_ok g x -> mat_size g x < 2 ^ 32 -> i < 2 ^ 32 -> preads mat_load (mat_bytes g i x) x.
Proof.
  intros Hm Hs Hi. unfold mat_load, mat_bytes. apply preads_bind with (a := material_name x).
  { eapply preads_cast; [|apply app_nil_r | reflexivity]. eapply preads_read with (e := EStr (material_name x)); [|reflexivity | apply preads_ret].
    destruct Hm as [Hm _]. unfold save_material in Hm. cbn [entries_of flat_map app wS forallb] in Hm.
    apply andb_prop in Hm as [Hm _]. exact Hm. }
  intros pre post E Hl. unfold prun. cbn [runp]. unfold bind at 1, rgl. cbn [rg_s rg_cache rg_heap fmt_prims p_begin ar_begin].
  rewrite <- app_assoc in *.
  assert (Eh : exists c h, mat_head g i (mat_size g x) = c :: h) by (eexists _, _; reflexivity).
  destruct Eh as (c & h & Eh).
  rewrite bin_begin_eq.
  2:{ exists false. split; [|reflexivity]. rewrite Eh in *. cbn [app] in *. apply eof_false, Hl. }
  rewrite (begin_read_reads g i _ Hs Hi pre _ Logic.I Hl). cbn [oh_class oh_ver rpos].
  change (negb (bytes_eqb (lit "zCMaterial") (lit "zCMaterial"))) with false. cbv iota.
  assert (Ev : (if ver_material (mkCfg g false false 0) =? 17408 then G1 else G2) = g) by (destruct g; reflexivity).
  rewrite Ev. set (D := pre ++ mat_head g i (mat_size g x) ++ mat_body g x ++ post) in *.
  match goal with |- runp _ _ _ ?p ?s = _ => change (runp (Ob := unit) (fmt_prims ABinary) (fun _ => 0%Z) undef p s) with (prun p s) end.
  rewrite runp_bind. unfold bind at 1.
  pose proof (load_material_reads g x Hm (pre ++ mat_head g i (mat_size g x)) post (u64 (len pre + mat_size g x) :: E)) as HL.
  rewrite <- app_assoc in HL. change (pre ++ mat_head g i (mat_size g x) ++ mat_body g x ++ post) with D in HL.
  specialize (HL Hl). rewrite len_app in HL. rewrite HL. unfold prun. cbn [runp].
  unfold bind at 1, rgl. cbn [rg_s rg_cache rg_heap fmt_prims p_end ar_end]. unfold bin_end.
  unfold bind at 1, rdl, rd_tell. cbn [ra_r ra_ends rpos]. unfold bind at 1, top_end. cbn [ra_ends].
  assert (EN : len pre + len (mat_head g i (mat_size g x)) + len (mat_body g x) =? u64 (len pre + mat_size g x) = true).
  { apply N.eqb_eq. rewrite len_mat_head. unfold mat_size. unfold u64. rewrite N.mod_small.
    - lia.
    - assert (len pre + (23 + len (mat_body g x)) <= len D) by (unfold D; rewrite !len_app, len_mat_head; lia).
      rewrite max_size_val in Hl. change (2 ^ 64) with 18446744073709551616. change (2 ^ 63) with 9223372036854775808 in Hl. lia. }
  rewrite EN. unfold bind at 1, pop_end. cbn [ra_ends ra_r ret]. rewrite len_app, N.add_assoc. reflexivity.
Qed.

Lemma mats_rep_reads g : forall l i, Forall (mat_ok g) l -> i + len l < 2 ^ 32 -> len (mats_bytes g i l) < 2 ^ 32 ->
  preads (p_rep (length l) mat_load) (mats_bytes g i l) l.
Proof.
  induction l as [|x l IH]; intros i Hf Hi Hs; cbn [length p_rep mats_bytes] in *; [apply preads_ret|].
  inversion Hf as [|? ? Hx Hr]; subst. rewrite len_cons in Hi. rewrite len_app in Hs.
  assert (Hsz : mat_size g x < 2 ^ 32) by (unfold mat_bytes in Hs; rewrite !len_app, len_mat_head in Hs; unfold mat_size; lia).
  eapply preads_bind; [apply mat_load_reads; [exact Hx | exact Hsz | lia]|].
  eapply preads_cast; [eapply preads_bind; [apply (IH (i + 1)); [exact Hr | lia | lia] | apply preads_ret] | apply app_nil_r | reflexivity].
Qed.

(** *** The header *)
Lemma text_line_reads s : no_eol s -> reads_if starts_ok (read_line true) (text_line s) s.
Proof.
  intros Hs pre post HP Hl. unfold text_line in *. rewrite <- app_assoc in *. cbn [app] in *.
  destruct post as [|c post]; [contradiction|]. destruct HP as [H1 H2].
  unfold read_line. pose proof (read_line_skip ws_chars s x0a [] (c :: post) pre) as E. cbn [app] in E. rewrite E.
  - rewrite len_app. do 3 f_equal. change (len [x0a]) with 1. rewrite len_nil. lia.
  - discriminate.
  - exact Hs.
  - right. reflexivity.
  - constructor.
  - split; [|intros X; contradiction]. destruct (in_chars ws_chars c) eqn:Ei; [|reflexivity].
    unfold in_chars, ws_chars in Ei. cbn [existsb] in Ei. unfold is_ws in H1.
    revert H1 Ei. destruct c; vm_compute; congruence.
  - exact Hl.
Qed.
Lemma head_load_reads e save : env_ok e -> reads_if starts_ok head_load (header_text ABinary e save) (read_head ABinary e save).
Proof.
  intros [He1 He2]. unfold header_text. cbn [flat_map]. rewrite app_nil_r. unfold head_load.
  Ltac hl := eapply reads_if_bind; [apply text_line_reads | cbv beta | intros post _].
  hl. { apply eol_lit; reflexivity. } 2:{ split; [reflexivity | discriminate]. }
  change (negb (bytes_eqb (lit "ZenGin Archive") (lit "ZenGin Archive"))) with false. cbv iota.
  hl. { apply eol_lit; reflexivity. } 2:{ split; [reflexivity | discriminate]. }
  change (negb (starts_with (lit "ver ") (lit "ver 1"))) with false. cbv iota.
  change (lift (S := rstate) (stoi (after x20 (lit "ver 1")))) with (@ret rstate Z 1%Z).
  match goal with |- reads_if _ (bind (ret ?a) ?k) _ _ => change (bind (ret a) k) with (k a) end. cbv beta.
  change (negb (1 =? 1)%Z) with false. cbv iota.
  hl. { apply eol_lit; reflexivity. } 2:{ split; [reflexivity | discriminate]. }
  hl. { apply eol_lit; reflexivity. } 2:{ destruct save; (split; [reflexivity | discriminate]). }
  cbv zeta.
  hl. { destruct save; apply eol_lit; reflexivity. } 2:{ split; [reflexivity | discriminate]. }
  assert (Es : negb (starts_with (lit "saveGame ") (if save then lit "saveGame 1" else lit "saveGame 0")) = false) by (destruct save; reflexivity).
  rewrite Es. clear Es.
  assert (Es : lift (S := rstate) (stoi (after x20 (if save then lit "saveGame 1" else lit "saveGame 0"))) = ret (if save then 1%Z else 0%Z)) by (destruct save; reflexivity).
  rewrite Es. clear Es.
  match goal with |- reads_if _ (bind (ret ?a) ?k) _ _ => change (bind (ret a) k) with (k a) end. cbv beta.
  hl. { apply no_eol_app; split; [apply eol_lit; reflexivity | exact He1]. } 2:{ split; [reflexivity | discriminate]. }
  assert (Es : starts_with (lit "date ") (lit "date " ++ we_date e) = true) by reflexivity. rewrite Es. clear Es.
  apply reads_assoc.
  hl. { apply no_eol_app; split; [apply eol_lit; reflexivity | exact He2]. } 2:{ split; [reflexivity | discriminate]. }
  match goal with |- reads_if _ (bind (ret ?a) ?k) _ _ => change (bind (ret a) k) with (k a) end. cbv beta. cbn [fst snd].
  assert (Es : starts_with (lit "user ") (lit "user " ++ we_user e) = true) by reflexivity. rewrite Es. clear Es.
  apply reads_assoc. eapply reads_if_last; [apply text_line_reads; apply eol_lit; reflexivity|].
  match goal with |- reads_if _ (bind (ret ?a) ?k) _ _ => change (bind (ret a) k) with (k a) end. cbv beta. cbn [fst snd].
  change (negb (bytes_eqb (lit "END") (lit "END"))) with false. cbv iota.
  eapply reads_cast; [apply reads_ret | reflexivity|]. unfold read_head. f_equal; destruct save; reflexivity.
Qed.
(** What follows the header must not begin with a line feed. *)
Definition count_ok (X : bytes) : Prop := match X with c :: c2 :: _ => c <> x0a | _ => False end.
Lemma objects_reads idx : idx < 1000000000 ->
  reads_if count_ok (objects_header (read_line_then_ignore [x0a])) (count_text 10 idx) tt.
Proof.
  intros Hi. unfold objects_header, count_text.
  eapply reads_if_bind; [apply text_line_reads | cbv beta | intros post _; split; [reflexivity | discriminate]].
  { apply no_eol_app. split; [apply eol_lit; reflexivity|]. apply no_eol_app. split; [apply plain_no_eol, dec_plain|].
    apply Forall_forall. intros c Hc. apply repeat_spec in Hc. subst c. repeat split; discriminate. }
  assert (Es : forall s, starts_with (lit "objects ") (lit "objects " ++ s) = true) by reflexivity. rewrite Es. clear Es.
  cbn [negb]. change (lit "objects ") with (lit "objects" ++ [x20]). rewrite <- (app_assoc (lit "objects")). cbn [app].
  rewrite after_lit by reflexivity. rewrite (stoi_padded [] eq_refl) by (change (2 ^ 31) with 2147483648; lia).
  match goal with |- reads_if _ (bind (lift (Ret ?a)) ?k) _ _ => change (bind (lift (Ret a)) k) with (k a) end. cbv beta.
  eapply reads_if_last with (a := lit "END").
  2:{ change (bytes_eqb (lit "END") (lit "END")) with true. apply reads_ret. }
  intros pre post HP Hl. unfold text_line in *. rewrite <- !app_assoc in *. cbn [app] in *.
  destruct post as [|c [|c2 post]]; try contradiction. cbn [count_ok] in HP.
  pose proof (read_line_skip [x0a] (lit "END") x0a [x0a] (c :: c2 :: post) pre) as E. cbn [app] in E. rewrite E.
  - do 3 f_equal. rewrite !len_app, !len_cons, len_nil. lia.
  - discriminate.
  - apply eol_lit. reflexivity.
  - right. reflexivity.
  - constructor; [reflexivity | constructor].
  - split; [|intros _; discriminate]. unfold in_chars. cbn [existsb]. rewrite orb_false_r.
    destruct (beq c x0a) eqn:Eq; [apply beq_spec in Eq; contradiction | apply andb_false_r].
  - exact Hl.
Qed.
Lemma ar_open_reads e : env_ok e -> forall idx, idx < 1000000000 ->
  reads_if count_ok ar_open (header_text ABinary e false ++ count_text 10 idx) (read_head ABinary e false).
Proof.
  intros He idx Hi. unfold ar_open. eapply reads_if_bind; [apply head_load_reads; exact He | cbn [read_head ah_format] | intros post _; split; [reflexivity | discriminate]].
  eapply reads_if_last; [apply objects_reads, Hi | apply reads_ret].
Qed.

Lemma mats_load_reads g e l : env_ok e -> Forall (mat_ok g) l -> len l < 1000000000 -> len l mod 256 <> 10 ->
  len (mats_file g e l) < 2 ^ 32 -> reads mats_load (mats_file g e l) l.
Proof.
  intros He Hf Hn Hm Hs. unfold mats_load, mats_file. rewrite app_assoc.
  eapply reads_if_bind; [apply ar_open_reads; [exact He | exact Hn] | cbv beta |].
  2:{ intros post _. unfold le_enc. cbn [app count_ok]. intros X. apply (f_equal b2n) in X. 
      rewrite b2n_n2b in X. apply Hm. exact X. }
  cbn [read_head ah_format].
  eapply reads_bind; [apply reads_uint; pows; lia|]. cbv beta.
  intros pre post _ Hl. unfold mats_file in Hs. rewrite !len_app in Hs.
  replace (N.to_nat (len l)) with (length l) by (unfold len; lia).
  pose proof (mats_rep_reads g l 0 Hf) as H. rewrite N.add_0_l in H.
  specialize (H ltac:(pows; lia) ltac:(lia) pre post [] Hl). unfold prun in H. rewrite H. reflexivity.
Qed.
