(** Model meshes and morph meshes: loading files laid out as the formats say. *)

From Coq Require Import Lia ZifyN ZifyBool ZifyNat.
From Verif Require Import MBase MStream SStream MBoxes SBoxes MTexture STexture MText MClasses MArchive SArchive MVob
  MMaterial MModel SFormat SBsp MMesh SMesh MMrm SMrm LBase LStream LStreamHist LBoxes LFormat LModel LTexture LText LArchW LArchH LBsp LEnds LMesh LMeshMat LMeshIO LMrm.
Local Open Scope N_scope.
Local Open Scope m_scope.

(* ------------------------------------------------------------------ *)
(** * Chunks whose end may move *)

Lemma chunk_t_step {A} (cb : N -> N -> A -> rd (bool * N * A)) fuel a pre ty size rest D d fin a' q :
  D = pre ++ le_enc 2 ty ++ le_enc 4 size ++ rest -> len D < max_size -> ty < 2 ^ 16 -> size < 2 ^ 32 ->
  cb ty (u64 (len pre + 6 + size)) a (mkR D (len pre + 6)) = Ret ((d, fin, a'), mkR D q) -> fin <= len D ->
  read_chunked_t (S fuel) cb a (mkR D (len pre)) =
  if d then Ret (a', mkR D fin)
  else if len D <=? fin then Ret (a', mkR D fin) else read_chunked_t fuel cb a' (mkR D fin).
Proof.
  intros HD Hl Hty Hsz Hcb Hfin. cbn [read_chunked_t].
  rewrite (run_bind (fun _ => True) _ _ (le_enc 2 ty) ty _ (le_enc 4 size ++ rest));
    [|apply reads_ushort, Hty | exact I | exact HD | exact Hl].
  rewrite (run_bind (fun _ => True) _ _ (le_enc 4 size) size _ rest);
    [|apply reads_uint, Hsz | exact I | rewrite HD, <- !app_assoc; reflexivity | exact Hl].
  unfold bind at 1. unfold rd_tell at 1. cbn [rpos].
  assert (E6 : len ((pre ++ le_enc 2 ty) ++ le_enc 4 size) = len pre + 6) by (rewrite !len_app, !len_le_enc; lia).
  rewrite E6. unfold bind at 1. rewrite Hcb. unfold bind at 1.
  rewrite sint_small by (pows; lia). rewrite rd_seek_beg by assumption.
  destruct d; [reflexivity|]. unfold bind at 1. rewrite r_eof_at. destruct (len D <=? fin); reflexivity.
Qed.
(** A chunk whose end stays. *)
Lemma chunk_t_plain {A} (cb : N -> N -> A -> rd (bool * N * A)) fuel a pre c rest D (m : rd A) a' :
  D = pre ++ chunk_bytes c ++ rest -> rest <> [] -> len D < max_size -> chunk_ok c ->
  (forall fin s, cb (fst c) fin a s = (let* x := m in ret (false, fin, x)) s) -> reads_part m (snd c) a' ->
  read_chunked_t (S fuel) cb a (mkR D (len pre)) = read_chunked_t fuel cb a' (mkR D (len (pre ++ chunk_bytes c))).
Proof.
  intros HD Hr Hl [Hty Hsz] Hcb Hm. destruct c as [ty p]. cbn [fst snd] in *. unfold chunk_bytes in *. cbn [fst snd] in *.
  assert (HD2 : D = ((pre ++ le_enc 2 ty) ++ le_enc 4 (len p)) ++ p ++ rest) by (rewrite HD, <- !app_assoc; reflexivity).
  destruct (Hm ((pre ++ le_enc 2 ty) ++ le_enc 4 (len p)) rest) as (q & E & Hq); [rewrite <- HD2; exact Hl|].
  rewrite <- HD2 in E, Hq.
  assert (E6 : len ((pre ++ le_enc 2 ty) ++ le_enc 4 (len p)) = len pre + 6) by (rewrite !len_app, !len_le_enc; lia).
  rewrite E6 in E.
  assert (HDl : len D = len pre + 6 + len p + len rest) by (rewrite HD2, !len_app, !len_le_enc; lia).
  assert (Hrl : 0 < len rest) by (destruct rest; [contradiction | rewrite len_cons; lia]).
  erewrite (chunk_t_step cb fuel a pre ty (len p) (p ++ rest) D false (len pre + 6 + len p) a' q); cycle 1.
  - rewrite HD, <- !app_assoc. reflexivity.
  - exact Hl.
  - exact Hty.
  - exact Hsz.
  - rewrite Hcb. unfold bind. rewrite E. rewrite u64_small by (pows; lia). reflexivity.
  - lia.
  - destruct (N.leb_spec (len D) (len pre + 6 + len p)); [lia|].
    replace (len (pre ++ le_enc 2 ty ++ le_enc 4 (len p) ++ p)) with (len pre + 6 + len p); [reflexivity|].
    rewrite !len_app, !len_le_enc. lia.
Qed.

(* ------------------------------------------------------------------ *)
(** * Names *)

(** The last line of a chunk; what follows may be white space. *)
Lemma line_part s : no_eol s -> reads_part (read_line true) (s ++ [x0a]) s.
Proof.
  intros Hs pre post Hl. rewrite <- app_assoc in *. cbn [app] in *. set (D := pre ++ s ++ x0a :: post) in *.
  unfold read_line, read_line_then_ignore. cbn [rdata rpos]. set (fuel := S (N.to_nat (len D - len pre))).
  assert (HDl : len D = len pre + len s + 1 + len post) by (unfold D; rewrite !len_app, len_cons; lia).
  unfold bind at 1. unfold D at 1.
  rewrite read_until_eol_at; [|exact Hs | reflexivity | unfold fuel; unfold len in *; lia | exact Hl].
  fold D. unfold bind at 1. rewrite r_eof_at. cbn [fst snd].
  destruct ((match ws_chars with [] => true | _ => false end) || beq x0a x00 || (len D <=? len pre + len s + 1)) eqn:C.
  { eexists. split; [reflexivity|]. lia. }
  unfold bind at 1.
  destruct (skip_run_fw fuel ws_chars (mkR D (len pre + len s + 1))) as (c2 & q & E2 & Hq).
  { split; cbn [rdata rpos]; lia. }
  { cbn [rdata rpos]. unfold fuel. lia. }
  cbn [rdata rpos] in *. rewrite E2. unfold bind at 1. rewrite r_eof_at.
  destruct ((len D <=? q) && beq c2 x00) eqn:C2.
  { eexists. split; [reflexivity|]. lia. }
  destruct Hq as [Hq | (-> & ->)].
  - unfold bind. rewrite rd_seek_back by lia. eexists. split; [reflexivity|]. lia.
  - rewrite N.leb_refl in C2. discriminate.
Qed.
Lemma visible_ok s post : no_eol s -> starts_visible s -> starts_ok ((s ++ [x0a]) ++ post).
Proof.
  intros Hn H. destruct s as [|c s]; [contradiction|]. cbn [starts_visible app] in *. split; [|apply (Forall_inv Hn)].
  unfold SFormat.is_ws in H. destruct (MText.is_ws c) eqn:E; [|reflexivity]. exfalso. apply H. revert E. clear. destruct c; vm_compute; intros X; try discriminate X; tauto.
Qed.
Lemma names_reads {A} : forall l : list (bytes * A), Forall (fun x => no_eol (fst x) /\ starts_visible (fst x)) l ->
  reads_part (repM (length l) (read_line true)) (flat_map (fun x => fst x ++ [x0a]) l) (map fst l).
Proof.
  induction l as [|x l IH]; intros Hf; cbn [length repM flat_map map]; [apply reads_part_ret|].
  pose proof (Forall_inv Hf) as [H1 H2]. pose proof (Forall_inv_tail Hf) as Hr. destruct l as [|y l].
  - cbn [flat_map length repM map]. rewrite app_nil_r. eapply part_map; [apply line_part, H1 | reflexivity].
  - eapply part_bind with (P := starts_ok); [apply text_line_reads, H1 | |].
    + intros post. cbn [flat_map]. rewrite <- !app_assoc. rewrite (app_assoc (fst y)). apply visible_ok; apply (Forall_inv Hr).
    + eapply part_map; [apply IH, Hr | reflexivity].
Qed.

(* ------------------------------------------------------------------ *)
(** * Model meshes *)

Lemma attachment_new : forall l name, ~ In name (map fst l) -> attachment name l = mrm_new.
Proof.
  induction l as [|[k v] l IH]; intros name Hn; [reflexivity|]. cbn [attachment map fst In] in *.
  destruct (bytes_eqb k name) eqn:E; [apply bytes_eqb_spec in E; subst; tauto|]. apply IH. tauto.
Qed.
Lemma set_attachment_new : forall l name x, ~ In name (map fst l) -> set_attachment name x l = l ++ [(name, x)].
Proof.
  induction l as [|[k v] l IH]; intros name x Hn; [reflexivity|]. cbn [set_attachment map fst In app] in *.
  destruct (bytes_eqb k name) eqn:E; [apply bytes_eqb_spec in E; subst; tauto|]. f_equal. apply IH. tauto.
Qed.

Lemma attachments_run g names sk ck : forall todo secs,
  Forall2 (fun x sec => mrm_section g 1 (snd x) sec /\ len sec < 2 ^ 32) todo secs ->
  forall done pre rest D fuel, names = map fst (done ++ todo) -> NoDup names ->
  Forall (fun x => mrm_ok g (snd x)) todo ->
  D = pre ++ flat_map (fun sec => chunk_bytes (45312, sec)) secs ++ rest -> rest <> [] -> len D < max_size ->
  read_chunked_t (length secs + fuel) mm_chunk (names, mkMM sk done ck) (mkR D (len pre)) =
  read_chunked_t fuel mm_chunk (names, mkMM sk (done ++ todo) ck)
    (mkR D (len (pre ++ flat_map (fun sec => chunk_bytes (45312, sec)) secs))).
Proof.
  induction 1 as [|[name x] sec todo secs [Hs Hsl] Hr IH]; intros done pre rest D fuel Hn Hnd Hok HD Hrest Hl.
  - cbn [length Nat.add flat_map]. rewrite !app_nil_r. reflexivity.
  - cbn [flat_map length Nat.add snd] in *. pose proof (Forall_inv Hok) as Hx. pose proof (Forall_inv_tail Hok) as Hok'. cbn [snd] in Hx.
    assert (Hnew : ~ In name (map fst done)).
    { rewrite Hn, map_app in Hnd. apply NoDup_remove_2 in Hnd. intros Hi. apply Hnd. apply in_or_app. left. exact Hi. }
    erewrite (chunk_t_plain mm_chunk (length secs + fuel) (names, mkMM sk done ck) pre (45312, sec)
      (flat_map (fun sec => chunk_bytes (45312, sec)) secs ++ rest) D
      (let* x := mrm_section_load (attachment name done) in ret (names, mkMM sk (set_attachment name x done) ck))
      (names, mkMM sk (done ++ [(name, x)]) ck)); cycle 1.
    + rewrite HD, <- !app_assoc. reflexivity.
    + destruct secs; [exact Hrest|]. cbn [flat_map]. unfold chunk_bytes. discriminate.
    + exact Hl.
    + split; [reflexivity | exact Hsl].
    + intros fin s. cbn [fst]. unfold mm_chunk.
      change (45312 =? O_HEADER) with false. change (45312 =? O_SOURCE) with false.
      change (45312 =? O_NODES) with false. change (45312 =? O_PROTO) with true. cbv iota.
      cbn [mm_attachments mm_skins mm_checksum].
      assert (En : nth_N names (len done) = Some name).
      { rewrite Hn, map_app. rewrite nth_N_error. rewrite nth_error_app2 by (rewrite map_length; unfold len; lia).
        rewrite map_length. unfold len. rewrite Nat2N.id, Nat.sub_diag. reflexivity. }
      rewrite En. rewrite bind_assoc. reflexivity.
    + cbn [snd]. eapply part_map.
      * eapply mrm_section_any; [exact Hx|]. rewrite attachment_new by exact Hnew. exact Hs.
      * intros s. rewrite set_attachment_new by exact Hnew. reflexivity.
    + rewrite (IH (done ++ [(name, x)]) (pre ++ chunk_bytes (45312, sec)) rest D fuel).
      * rewrite <- !app_assoc. reflexivity.
      * rewrite <- app_assoc. exact Hn.
      * exact Hnd.
      * exact Hok'.
      * rewrite HD, <- !app_assoc. reflexivity.
      * exact Hrest.
      * exact Hl.
Qed.

Lemma skins_reads g : forall l fs, Forall (skin_ok g) l -> Forall2 (skin_file g 1) l fs ->
  reads (mapM skin_load (repeat skin_new (length l))) (concat fs) l.
Proof.
  induction l as [|k l IH]; intros fs Hk H; inversion H as [|? f ? fs' H1 H2]; subst; cbn [length repeat mapM concat]; [apply reads_ret|].
  eapply reads_bind; [apply (skin_loads g skin_new k f); [apply (Forall_inv Hk) | exact H1]|].
  eapply reads_if_last; [apply IH; [apply (Forall_inv_tail Hk) | exact H2]|]. apply reads_ret.
Qed.

(** [att]: the attachments the sections make. *)
Definition makes (m : modelmesh) (secs : list bytes) (att : list (bytes * mrm)) : Prop := forall pre rest D fuel,
  D = pre ++ flat_map (fun sec => chunk_bytes (45312, sec)) secs ++ rest -> rest <> [] -> len D < max_size ->
  read_chunked_t (length secs + fuel) mm_chunk (map fst (mm_attachments m), mkMM [] [] 0) (mkR D (len pre)) =
  read_chunked_t fuel mm_chunk (map fst (mm_attachments m), mkMM [] att 0)
    (mkR D (len (pre ++ flat_map (fun sec => chunk_bytes (45312, sec)) secs))).
Lemma mm_loads_any g m att f0 pre0 : mm_fits g m -> mm_file g m f0 -> len (pre0 ++ f0) < max_size ->
  (forall secs, Forall2 (fun x sec => mrm_section g 1 (snd x) sec /\ len sec < 2 ^ 32) (mm_attachments m) secs -> makes m secs att) ->
  exists q, mm_load mm_new (mkR (pre0 ++ f0) (len pre0)) = Ret (mkMM (mm_skins m) att (mm_checksum m), mkR (pre0 ++ f0) q).
Proof.
  intros (Hsk & Hskn & Hat & Han & Hck) (head & source & secs & skins & rest & Hh & Hso & Hnl & Hsecs & Hskf & Ef0) Hl Hmake. specialize (Hmake secs Hsecs).
  unfold mm_load. cbn [rdata rpos]. replace (len (pre0 ++ f0) - len pre0) with (len f0) by (rewrite len_app; lia).
  set (SB := chunk_bytes (53296, le_enc 4 (mm_checksum m) ++ le_enc 2 (len (mm_skins m)))) in *.
  set (AB := flat_map (fun sec => chunk_bytes (45312, sec)) secs) in *.
  set (f := pre0 ++ f0) in *.
  assert (Ef : f = pre0 ++ chunk_bytes (53248, head) ++ chunk_bytes (53264, source) ++ chunk_bytes (53280, names_bytes m) ++
        AB ++ SB ++ concat skins ++ chunk_bytes (53312, []) ++ rest) by (unfold f; rewrite Ef0; reflexivity).
  assert (Hfuel : exists fu, N.to_nat (len f0) = S (S (length secs + S (S fu)))%nat).
  { assert (len secs <= len AB).
    { unfold AB. clear. induction secs as [|c cs IH]; [reflexivity|]. cbn [flat_map]. unfold chunk_bytes at 1. cbn [fst snd]. lens. lia. }
    assert (len AB + 24 <= len f0).
    { rewrite Ef0. unfold SB, chunk_bytes. cbn [fst snd]. rewrite !len_app, !len_le_enc. lia. }
    exists (N.to_nat (len f0) - 4 - length secs)%nat. unfold len in *. lia. }
  destruct Hfuel as (fu & Efu). rewrite Efu.
  assert (R : read_chunked_t (S (S (S (length secs + S (S fu))))) mm_chunk ([], mm_new) (mkR f (len pre0)) =
    Ret ((map fst (mm_attachments m), mkMM (mm_skins m) att (mm_checksum m)), mkR f (len f - len rest))).
  2:{ unfold bind. rewrite R. unfold ret. eexists. reflexivity. }
  erewrite (chunk_t_plain mm_chunk _ ([], mm_new) pre0 (53248, head)
    (chunk_bytes (53264, source) ++ chunk_bytes (53280, names_bytes m) ++ AB ++ SB ++ concat skins ++ chunk_bytes (53312, []) ++ rest)
    f (let* _ := read_uint in ret ([], mm_new)) ([], mm_new)); cycle 1.
  { exact Ef. } { unfold chunk_bytes; discriminate. } { exact Hl. } { split; [reflexivity | apply Hh]. } { intros fin s. rewrite ?bind_assoc. reflexivity. } { apply calm_part, calm_uint. }
  erewrite (chunk_t_plain mm_chunk _ ([], mm_new) _ (53264, source)
    (chunk_bytes (53280, names_bytes m) ++ AB ++ SB ++ concat skins ++ chunk_bytes (53312, []) ++ rest)
    f (let* _ := (let* _ := date_load in read_line false) in ret ([], mm_new)) ([], mm_new)); cycle 1.
  { rewrite Ef, <- ?app_assoc. reflexivity. } { unfold chunk_bytes; discriminate. } { exact Hl. } { split; [reflexivity | apply Hso]. }
  { intros fin s. cbn [fst]. unfold mm_chunk. change (53264 =? O_HEADER) with false. change (53264 =? O_SOURCE) with true. cbv iota.
    unfold bind. destruct (date_load s) as [[n s1]| | |]; try reflexivity. destruct (read_line false s1) as [[l s2]| | |]; reflexivity. }
  { apply calm_part. apply calm_bind; [apply calm_date | intros; apply calm_line]. }
  erewrite (chunk_t_plain mm_chunk _ ([], mm_new) _ (53280, names_bytes m)
    (AB ++ SB ++ concat skins ++ chunk_bytes (53312, []) ++ rest)
    f (let* n := read_ushort in let* l := repM (N.to_nat n) (read_line true) in ret ([] ++ l, mm_new))
    (map fst (mm_attachments m), mm_new)); cycle 1.
  { rewrite Ef, <- ?app_assoc. reflexivity. } { unfold AB, SB, chunk_bytes; destruct secs; discriminate. } { exact Hl. } { split; [reflexivity | exact Hnl]. }
  { intros fin s. cbn [fst]. unfold mm_chunk. change (53280 =? O_HEADER) with false. change (53280 =? O_SOURCE) with false.
    change (53280 =? O_NODES) with true. cbv iota. unfold bind.
    destruct (read_ushort s) as [[n s1]| | |]; try reflexivity. destruct (repM (N.to_nat n) (read_line true) s1) as [[l s2]| | |]; reflexivity. }
  { cbn [snd]. unfold names_bytes. eapply part_bind with (P := fun _ => True); [apply reads_ushort, Han | intros; exact I|].
    replace (N.to_nat (len (mm_attachments m))) with (length (mm_attachments m)) by (unfold len; lia).
    eapply part_map; [apply names_reads | reflexivity].
    eapply Forall_impl; [|exact Hat]. intros x (X1 & X2 & _). split; assumption. }
  unfold mm_new at 1. unfold AB in Ef. rewrite (Hmake _ (SB ++ concat skins ++ chunk_bytes (53312, []) ++ rest) f); cycle 1.
  { rewrite Ef, <- ?app_assoc. reflexivity. } { unfold SB, chunk_bytes; discriminate. } { exact Hl. }
  fold AB. fold AB in Ef. cbn [app].
  match goal with |- read_chunked_t _ _ _ (mkR f (len ?p)) = _ => set (pre := p) end.
  assert (Epre : f = pre ++ SB ++ concat skins ++ chunk_bytes (53312, []) ++ rest) by (unfold pre; rewrite Ef, <- ?app_assoc; reflexivity).
  set (pl := le_enc 4 (mm_checksum m) ++ le_enc 2 (len (mm_skins m))) in *.
  assert (Lpl : len pl = 6) by (unfold pl; rewrite len_app, !len_le_enc; reflexivity).
  assert (LSB : len SB = 12) by (unfold SB, chunk_bytes; cbn [fst snd]; rewrite !len_app, !len_le_enc, Lpl; reflexivity).
  assert (Lf : len f = len pre + 12 + len (concat skins) + 6 + len rest).
  { rewrite Epre, !len_app, LSB. unfold chunk_bytes. cbn [fst snd]. rewrite !len_app, !len_le_enc. rewrite len_nil. lia. }
  assert (RS : reads (let* c := read_uint in let* n := read_ushort in let* l := mapM skin_load (resize n [] skin_new) in ret (c, l))
                     (pl ++ concat skins) (mm_checksum m, mm_skins m)).
  { unfold pl. rewrite <- app_assoc. eapply reads_bind; [apply reads_uint, Hck|]. eapply reads_bind; [apply reads_ushort, Hskn|].
    eapply reads_if_last; [|apply reads_ret].
    assert (Er : resize (len (mm_skins m)) [] skin_new = repeat skin_new (length (mm_skins m))).
    { unfold resize. rewrite len_nil, N.sub_0_r. unfold len. rewrite Nat2N.id. rewrite take_nil. reflexivity. }
    rewrite Er. apply (skins_reads g); assumption. }
  assert (Epl : f = (pre ++ le_enc 2 53296 ++ le_enc 4 6) ++ (pl ++ concat skins) ++ chunk_bytes (53312, []) ++ rest).
  { rewrite Epre. unfold SB, chunk_bytes at 1. cbn [fst snd]. rewrite Lpl. rewrite <- !app_assoc. reflexivity. }
  specialize (RS (pre ++ le_enc 2 53296 ++ le_enc 4 6) (chunk_bytes (53312, []) ++ rest) I). rewrite <- Epl in RS. specialize (RS Hl).
  assert (L6 : len (pre ++ le_enc 2 53296 ++ le_enc 4 6) = len pre + 6) by (rewrite !len_app, !len_le_enc; lia).
  rewrite L6, len_app, Lpl in RS.
  erewrite (chunk_t_step mm_chunk _ _ pre 53296 6 (pl ++ concat skins ++ chunk_bytes (53312, []) ++ rest) f false
    (len pre + 12 + len (concat skins)) (map fst (mm_attachments m), mkMM (mm_skins m) att (mm_checksum m))
    (len pre + 12 + len (concat skins))); cycle 1.
  { rewrite Epl, <- !app_assoc. reflexivity. } { exact Hl. } { reflexivity. } { reflexivity. }
  { unfold mm_chunk. change (53296 =? O_HEADER) with false. change (53296 =? O_SOURCE) with false.
    change (53296 =? O_NODES) with false. change (53296 =? O_PROTO) with false. change (53296 =? O_SOFTSKINS) with true. cbv iota.
    cbn [mm_skins mm_attachments]. revert RS. unfold bind, ret, rd_tell.
    destruct (read_uint (mkR f (len pre + 6))) as [[c s1]| | |]; try discriminate.
    destruct (read_ushort s1) as [[n s2]| | |]; try discriminate.
    destruct (mapM skin_load (resize n [] skin_new) s2) as [[l s3]| | |]; try discriminate.
    intros RS. injection RS as E1 E2 E3. rewrite E1, E2, E3. cbn [rpos].
    replace (len pre + 6 + (6 + len (concat skins))) with (len pre + 12 + len (concat skins)) by lia. reflexivity. }
  { lia. }
  destruct (N.leb_spec (len f) (len pre + 12 + len (concat skins))); [lia|].
  set (pre2 := pre ++ SB ++ concat skins).
  assert (L2 : len pre + 12 + len (concat skins) = len pre2) by (unfold pre2; rewrite !len_app, LSB; lia). rewrite L2.
  erewrite (chunk_t_step mm_chunk _ _ pre2 53312 0 rest f true (len pre2 + 6) _ (len pre2 + 6)); cycle 1.
  { rewrite Epre. unfold pre2, chunk_bytes. cbn [fst snd]. rewrite len_nil. rewrite <- !app_assoc. reflexivity. }
  { exact Hl. } { reflexivity. } { reflexivity. }
  { unfold mm_chunk. change (53312 =? O_HEADER) with false. change (53312 =? O_SOURCE) with false.
    change (53312 =? O_NODES) with false. change (53312 =? O_PROTO) with false. change (53312 =? O_SOFTSKINS) with false.
    change (53312 =? O_END) with true. cbv iota. unfold ret. rewrite N.add_0_r. rewrite u64_small by (pows; lia). reflexivity. }
  { lia. }
  cbv iota. replace (len f - len rest) with (len pre2 + 6) by lia. reflexivity.
Qed.
Lemma mm_loads g m f0 pre0 : mm_ok g m -> mm_file g m f0 -> len (pre0 ++ f0) < max_size ->
  exists q, mm_load mm_new (mkR (pre0 ++ f0) (len pre0)) = Ret (m, mkR (pre0 ++ f0) q).
Proof.
  intros (Hsk & Hskn & Hat & Hnd & Han & Hck) Hf Hl.
  destruct (mm_loads_any g m (mm_attachments m) f0 pre0) as (q & E); [|exact Hf|exact Hl| |exists q; rewrite E; destruct m; reflexivity].
  { split; [exact Hsk|]. split; [exact Hskn|]. split; [exact Hat|]. split; assumption. }
  intros secs Hsecs pre rest D fuel HD Hr HlD.
  apply (attachments_run g (map fst (mm_attachments m)) [] 0 (mm_attachments m) secs Hsecs [] pre rest D fuel);
    [reflexivity | exact Hnd | | exact HD | exact Hr | exact HlD].
  eapply Forall_impl; [|exact Hat]. intros x (_ & _ & X). exact X.
Qed.
(** ** Names that occur twice *)
Fixpoint assigned (names : list bytes) (done : list (bytes * mrm)) (l : list mrm) : option (list (bytes * mrm)) :=
  match l with
  | [] => Some done
  | x :: l' => match nth_N names (len done) with Some n => assigned names (set_attachment n x done) l' | None => None end
  end.
Lemma attachment_alpha n : forall l, Forall (fun x => mr_alpha (snd x) = 1) l -> mr_alpha (attachment n l) = 1.
Proof.
  induction l as [|[k v] l IH]; intros H; [reflexivity|]. cbn [attachment]. destruct (bytes_eqb k n).
  - exact (Forall_inv H).
  - apply IH, (Forall_inv_tail H).
Qed.
Lemma set_attachment_alpha n x : mr_alpha x = 1 -> forall l, Forall (fun x => mr_alpha (snd x) = 1) l ->
  Forall (fun x => mr_alpha (snd x) = 1) (set_attachment n x l).
Proof.
  intros Hx. induction l as [|[k v] l IH]; intros H; cbn [set_attachment]; [repeat constructor; exact Hx|].
  pose proof (Forall_inv H). pose proof (Forall_inv_tail H). destruct (bytes_eqb k n); constructor; try assumption. apply IH. assumption.
Qed.
Lemma assigned_run g names sk ck : forall l secs,
  Forall2 (fun x sec => mrm_section g 1 x sec /\ len sec < 2 ^ 32) l secs ->
  forall done att pre rest D fuel, assigned names done l = Some att -> Forall (fun x => mr_alpha (snd x) = 1) done ->
  Forall (fun x => mrm_ok g x /\ mr_alpha x = 1) l ->
  D = pre ++ flat_map (fun sec => chunk_bytes (45312, sec)) secs ++ rest -> rest <> [] -> len D < max_size ->
  read_chunked_t (length secs + fuel) mm_chunk (names, mkMM sk done ck) (mkR D (len pre)) =
  read_chunked_t fuel mm_chunk (names, mkMM sk att ck)
    (mkR D (len (pre ++ flat_map (fun sec => chunk_bytes (45312, sec)) secs))).
Proof.
  induction 1 as [|x sec l secs [Hs Hsl] Hr IH]; intros done att pre rest D fuel Ha Hd Hok HD Hrest Hl.
  - cbn [assigned] in Ha. injection Ha as <-. cbn [length Nat.add flat_map]. rewrite !app_nil_r. reflexivity.
  - cbn [flat_map length Nat.add assigned] in *. destruct (Forall_inv Hok) as [Hx Hxa]. pose proof (Forall_inv_tail Hok) as Hok'.
    destruct (nth_N names (len done)) as [name|] eqn:En; [|discriminate].
    erewrite (chunk_t_plain mm_chunk (length secs + fuel) (names, mkMM sk done ck) pre (45312, sec)
      (flat_map (fun sec => chunk_bytes (45312, sec)) secs ++ rest) D
      (let* x := mrm_section_load (attachment name done) in ret (names, mkMM sk (set_attachment name x done) ck))
      (names, mkMM sk (set_attachment name x done) ck)); cycle 1.
    + rewrite HD, <- !app_assoc. reflexivity.
    + destruct secs; [exact Hrest|]. cbn [flat_map]. unfold chunk_bytes. discriminate.
    + exact Hl.
    + split; [reflexivity | exact Hsl].
    + intros fin s. cbn [fst]. unfold mm_chunk.
      change (45312 =? O_HEADER) with false. change (45312 =? O_SOURCE) with false.
      change (45312 =? O_NODES) with false. change (45312 =? O_PROTO) with true. cbv iota.
      cbn [mm_attachments mm_skins mm_checksum]. rewrite En. rewrite bind_assoc. reflexivity.
    + cbn [snd]. eapply part_map.
      * eapply mrm_section_any; [exact Hx|]. rewrite attachment_alpha by exact Hd. exact Hs.
      * intros s. reflexivity.
    + rewrite (IH (set_attachment name x done) att (pre ++ chunk_bytes (45312, sec)) rest D fuel).
      * rewrite <- !app_assoc. reflexivity.
      * exact Ha.
      * apply set_attachment_alpha; assumption.
      * exact Hok'.
      * rewrite HD, <- !app_assoc. reflexivity.
      * exact Hrest.
      * exact Hl.
Qed.
Lemma mm_file_assigned g m f att : mm_fits g m -> Forall (fun x => mr_alpha (snd x) = 1) (mm_attachments m) ->
  mm_file g m f -> len f < max_size ->
  assigned (map fst (mm_attachments m)) [] (map snd (mm_attachments m)) = Some att ->
  of_file (mm_load mm_new) f = Ret (mkMM (mm_skins m) att (mm_checksum m)).
Proof.
  intros Hm Ha Hf Hl E. destruct (mm_loads_any g m att f [] Hm Hf Hl) as (q & R).
  - intros secs Hsecs pre rest D fuel HD Hr HlD.
    apply (assigned_run g _ [] 0 (map snd (mm_attachments m)) secs) with (rest := rest); [|exact E|constructor| |exact HD|exact Hr|exact HlD].
    + clear - Hsecs. induction Hsecs; cbn [map]; constructor; assumption.
    + destruct Hm as (_ & _ & Hat & _). rewrite Forall_forall in *. intros x Hx. apply in_map_iff in Hx as (y & <- & Hy).
      split; [apply (Hat y Hy) | apply (Ha y Hy)].
  - cbn [app] in R. change (len (@nil byte)) with 0 in R. unfold of_file. rewrite R. reflexivity.
Qed.
(** The second mesh of a name replaces the first, and then takes away the mesh of the next name. *)
Lemma names_twice g m f n n' x y z : mm_fits g m -> mm_attachments m = [(n, x); (n, y); (n', z)] ->
  mr_alpha x = 1 -> mr_alpha y = 1 -> mr_alpha z = 1 -> mm_file g m f -> len f < max_size ->
  of_file (mm_load mm_new) f = Ret (mkMM (mm_skins m) [(n, z)] (mm_checksum m)).
Proof.
  intros Hm E Hx Hy Hz Hf Hl. apply (mm_file_assigned g m f); [exact Hm| |exact Hf|exact Hl|].
  - rewrite E. repeat constructor; assumption.
  - rewrite E. cbn [map fst snd assigned]. change (nth_N _ (len [])) with (Some n). cbn [set_attachment].
    change (nth_N _ (len [(n, x)])) with (Some n). cbn [set_attachment assigned].
    rewrite (proj2 (bytes_eqb_spec n n) eq_refl). change (nth_N _ (len [(n, y)])) with (Some n). cbn [set_attachment assigned].
    rewrite (proj2 (bytes_eqb_spec n n) eq_refl). reflexivity.
Qed.
Lemma mm_file_loads g m f : mm_ok g m -> mm_file g m f -> len f < max_size -> of_file (mm_load mm_new) f = Ret m.
Proof.
  intros H1 H2 Hl. destruct (mm_loads g m f [] H1 H2 Hl) as (q & E). cbn [app] in E. change (len (@nil byte)) with 0 in E.
  unfold of_file. rewrite E. reflexivity.
Qed.
Lemma hier_size h : hier_ok h -> len (flat_map chunk_bytes (hier_chunks h)) < max_size.
Proof.
  intros H. pose proof (hier_fits h H) as F. unfold hier_chunks in *.
  pose proof (Forall_inv F) as [_ F1]. pose proof (Forall_inv (Forall_inv_tail F)) as [_ F2]. cbn [fst snd] in *.
  cbn [flat_map]. unfold chunk_bytes. cbn [fst snd]. rewrite !len_app, !len_le_enc, !len_nil in *. pows. lia.
Qed.
Lemma model_loads g h h0 m hb f : hier_ok h -> mm_ok g m -> mm_file g m f -> file_of (hier_save h) = Ret hb ->
  len (hb ++ f) < max_size -> of_file (model_load h0 mm_new) (hb ++ f) = Ret (h, m).
Proof.
  intros Hh Hm Hf Eh Hl. pose proof (hier_reads h h0 Hh) as R. pose proof (hier_writes h Hh) as W.
  pose proof (hier_size h Hh) as Hs. generalize dependent (flat_map chunk_bytes (hier_chunks h)). intros hc R W Hs.
  unfold file_of, w_empty in Eh. rewrite (W (mkW [] 0) eq_refl) in Eh by (cbn [wbuf]; rewrite len_nil; exact Hs).
  cbn [wbuf app] in Eh. injection Eh as Eh.
  assert (R' : hier_load h0 (mkR (hb ++ f) 0) = Ret (h, mkR (hb ++ f) (len hb))).
  { specialize (R [] f I). rewrite Eh in R. specialize (R Hl). change (len (@nil byte)) with 0 in R; rewrite N.add_0_l in R. exact R. }
  destruct (mm_loads g m f hb Hm Hf Hl) as (q & E). unfold of_file, model_load, bind. rewrite R', E. reflexivity.
Qed.
