(** Morph meshes and animations: loading files laid out as the formats say. *)

From Coq Require Import Lia ZifyN ZifyBool ZifyNat.
From Verif Require Import MBase MStream SStream MBoxes SBoxes MTexture STexture MText MClasses MArchive SArchive MVob
  MMaterial MModel SFormat SBsp MMesh SMesh MMrm SMrm SMorph LBase LStream LStreamHist LBoxes LFormat LModel LTexture LText
  LArchW LArchH LBsp LEnds LMesh LMeshMat LMeshIO LMrm LModelMesh.
Local Open Scope N_scope.
Local Open Scope m_scope.

(* ------------------------------------------------------------------ *)
(** * Chunks up to the end of the file *)

Inductive chunk_runs {A} (cb : N -> A -> rd (bool * A)) : A -> list chunk -> A -> Prop :=
| runs_none a : chunk_runs cb a [] a
| runs_more a c a1 cs a' : chunk_ok c -> reads_part (cb (fst c) a) (snd c) (false, a1) ->
    chunk_runs cb a1 cs a' -> chunk_runs cb a (c :: cs) a'.

Lemma read_chunked_eof {A} (cb : N -> A -> rd (bool * A)) a cs a' : chunk_runs cb a cs a' -> cs <> [] ->
  forall fuel pre, (length cs <= fuel)%nat -> len (pre ++ flat_map chunk_bytes cs) < max_size ->
  read_chunked fuel cb a (mkR (pre ++ flat_map chunk_bytes cs) (len pre)) =
  Ret (a', mkR (pre ++ flat_map chunk_bytes cs) (len (pre ++ flat_map chunk_bytes cs))).
Proof.
  induction 1 as [a | a c a1 cs a' [Hty Hsz] Hc Hr IH]; intros Hne fuel pre Hf Hl; [congruence|].
  destruct fuel as [|fuel]; [cbn [length] in Hf; lia|]. destruct c as [ty p]. cbn [fst snd] in *.
  set (rest := flat_map chunk_bytes cs) in *.
  cbn [flat_map]. cbn [flat_map] in Hl. fold rest in Hl |- *. unfold chunk_bytes at 1 in Hl. unfold chunk_bytes at 1 2 3. cbn [fst snd] in *.
  set (D := pre ++ (le_enc 2 ty ++ le_enc 4 (len p) ++ p) ++ rest) in *.
  assert (HD2 : D = ((pre ++ le_enc 2 ty) ++ le_enc 4 (len p)) ++ p ++ rest) by (unfold D; rewrite <- !app_assoc; reflexivity).
  cbn [read_chunked].
  rewrite (run_bind (fun _ => True) _ _ (le_enc 2 ty) ty pre (le_enc 4 (len p) ++ p ++ rest));
    [|apply reads_ushort, Hty | exact I | unfold D; rewrite <- !app_assoc; reflexivity | exact Hl].
  rewrite (run_bind (fun _ => True) _ _ (le_enc 4 (len p)) (len p) (pre ++ le_enc 2 ty) (p ++ rest));
    [|apply reads_uint, Hsz | exact I | rewrite HD2, <- !app_assoc; reflexivity | exact Hl].
  unfold bind at 1. unfold rd_tell at 1. cbn [rpos]. unfold bind at 1.
  destruct (Hc ((pre ++ le_enc 2 ty) ++ le_enc 4 (len p)) rest) as (q & E & Hq); [rewrite <- HD2; exact Hl|].
  rewrite <- HD2 in E, Hq. rewrite E.
  assert (E6 : len ((pre ++ le_enc 2 ty) ++ le_enc 4 (len p)) = len pre + 6) by (rewrite !len_app, !len_le_enc; lia).
  assert (HDl : len D = len pre + 6 + len p + len rest) by (rewrite HD2, !len_app, !len_le_enc; lia).
  rewrite E6. rewrite u64_small by (pows; lia). rewrite sint_small by (pows; lia).
  unfold bind at 1. rewrite rd_seek_beg by lia. cbn [fst snd]. unfold bind at 1. rewrite r_eof_at.
  destruct (N.leb_spec (len D) (len pre + 6 + len p)).
  - assert (rest = []) by (apply len_0; lia). assert (cs = []) as ->.
    { destruct cs as [|c2 cs]; [reflexivity|]. exfalso. unfold rest in *. cbn [flat_map] in *. unfold chunk_bytes at 1 in H0.
      destruct (le_enc 2 (fst c2)) eqn:X; [pose proof (len_le_enc 2 (fst c2)) as Y; rewrite X in Y; discriminate|]. discriminate. }
    inversion Hr; subst. unfold ret. do 3 f_equal. rewrite HDl. replace (len rest) with 0 by (symmetry; rewrite H0; reflexivity). lia.
  - assert (Hcs : cs <> []) by (intros ->; unfold rest in *; cbn [flat_map] in *; rewrite len_nil in HDl; lia).
    specialize (IH Hcs fuel (pre ++ chunk_bytes (ty, p))). 
    assert (ED : (pre ++ chunk_bytes (ty, p)) ++ rest = D) by (unfold D, chunk_bytes; cbn [fst snd]; rewrite <- !app_assoc; reflexivity).
    rewrite ED in IH. replace (len pre + 6 + len p) with (len (pre ++ chunk_bytes (ty, p))).
    + apply IH; [cbn [length] in Hf; lia | exact Hl].
    + unfold chunk_bytes. cbn [fst snd]. rewrite !len_app, !len_le_enc. lia.
Qed.
Lemma file_runs {A} (cb : N -> A -> rd (bool * A)) a cs a' : chunk_runs cb a cs a' -> cs <> [] ->
  len (flat_map chunk_bytes cs) < max_size ->
  of_file (fun s => read_chunked (S (N.to_nat (len (rdata s) - rpos s))) cb a s) (flat_map chunk_bytes cs) = Ret a'.
Proof.
  intros H Hne Hl. unfold of_file. cbn [rdata rpos]. rewrite N.sub_0_r.
  pose proof (read_chunked_eof cb a cs a' H Hne (S (N.to_nat (len (flat_map chunk_bytes cs)))) []) as E.
  cbn [app] in E. change (len (@nil byte)) with 0 in E. rewrite E; [reflexivity | | exact Hl].
  assert (G : len cs <= len (flat_map chunk_bytes cs)).
  { clear. induction cs as [|c cs IH]; [reflexivity|]. cbn [flat_map]. unfold chunk_bytes at 1. lens. lia. }
  unfold len in *. lia.
Qed.

(* ------------------------------------------------------------------ *)
(** * Lines *)

Lemma no_ws_chars c : ~ SFormat.is_ws c -> in_chars ws_chars c = false.
Proof.
  intros H. destruct (in_chars ws_chars c) eqn:E; [|reflexivity]. exfalso. apply H. revert E. clear.
  unfold SFormat.is_ws, in_chars. destruct c; vm_compute; intros X; try discriminate X; tauto.
Qed.
Definition follows (next : bytes) (post : bytes) : Prop := exists r, post = next ++ r.
Lemma line_next s t next : no_eol s -> ends_line t next -> reads_if (follows next) (read_line true) (s ++ [t]) s.
Proof.
  intros Hs [-> | (Ht & Hl & Hv)]; intros pre post (r & ->) Hm.
  - apply (reads_line0 true s Hs); [exact I | exact Hm].
  - rewrite <- app_assoc in *. cbn [app] in *.
    destruct next as [|c [|d next]]; [contradiction | rewrite len_cons, len_nil in Hl; lia|].
    cbn [app] in *. unfold read_line.
    pose proof (read_line_skip ws_chars s t [] (c :: d :: next ++ r) pre) as E. cbn [app] in E. rewrite E.
    + do 3 f_equal. rewrite len_app, len_cons, len_nil. lia.
    + discriminate.
    + exact Hs.
    + tauto.
    + constructor.
    + split; [apply no_ws_chars, Hv | discriminate].
    + exact Hm.
Qed.
(** The last line of a chunk. *)
Lemma line_end s t : no_eol s -> eol t -> reads_part (read_line true) (s ++ [t]) s.
Proof.
  intros Hs Ht. destruct Ht as [-> | Ht].
  { apply reads_part_of, reads_line0, Hs. }
  intros pre post Hl. rewrite <- app_assoc in *. cbn [app] in *. set (D := pre ++ s ++ t :: post) in *.
  unfold read_line, read_line_then_ignore. cbn [rdata rpos]. set (fuel := S (N.to_nat (len D - len pre))).
  assert (HDl : len D = len pre + len s + 1 + len post) by (unfold D; rewrite !len_app, len_cons; lia).
  unfold bind at 1. unfold D at 1.
  rewrite read_until_eol_at; [|exact Hs | destruct Ht; subst; reflexivity | unfold fuel; unfold len in *; lia | exact Hl].
  fold D. unfold bind at 1. rewrite r_eof_at. cbn [fst snd].
  destruct ((match ws_chars with [] => true | _ => false end) || beq t x00 || (len D <=? len pre + len s + 1)) eqn:C.
  { eexists. split; [reflexivity|]. lia. }
  unfold bind at 1.
  destruct (skip_run_fw fuel ws_chars (mkR D (len pre + len s + 1))) as (c2 & q & E2 & Hq).
  { split; cbn [rdata rpos]; lia. }
  { cbn [rdata rpos]. unfold fuel. lia. }
  cbn [rdata rpos] in *. rewrite E2. unfold bind at 1. rewrite r_eof_at.
  destruct ((len D <=? q) && beq c2 x00) eqn:C2.
  { eexists. split; [reflexivity|]. lia. }
  destruct Hq as [Hq | (-> & ->)].
  - unfold bind. rewrite rd_seek_back by lia. eexists. split; [reflexivity|]. lia.
  - rewrite N.leb_refl in C2. discriminate.
Qed.
Lemma line_plain s t : no_eol s -> eol t -> reads (read_line false) (s ++ [t]) s.
Proof. intros Hs Ht. apply reads_line_nows; [exact Hs|]. destruct Ht as [->|[->| ->]]; reflexivity. Qed.
Lemma date_any d pad : date_ok d -> pad < 2 ^ 16 -> reads date_load (date_bytes d pad) d.
Proof.
  intros (H1 & H2 & H3 & H4 & H5 & H6) Hp. unfold date_load, date_bytes. destruct d; cbn -[N.pow] in *. do 6 rstep.
  eapply reads_if_last; [apply reads_ushort, Hp|]. apply reads_ret.
Qed.

(* ------------------------------------------------------------------ *)
(** * Morph meshes *)

Lemma sources_reads : forall l bs, sources_bytes l bs -> Forall msource_ok l ->
  reads_part (repM (length l) msource_load) bs l.
Proof.
  induction 1 as [| s pad t Hp Ht | s pad t s2 l bs Hp Ht Hr IH]; intros Hok.
  - apply reads_part_ret.
  - destruct (Forall_inv Hok) as [H1 H2]. cbn [length repM]. unfold msource_load.
    intros pre post Hl. rewrite bind_assoc. revert pre post Hl.
    change (reads_part (let* d := date_load in bind (let* n := read_line true in ret (mkMsource d n)) (fun x => let* l := ret [] in ret (x :: l)))
              (date_bytes (so_date s) pad ++ so_name s ++ [t]) [s]).
    eapply part_bind with (P := fun _ => True); [apply date_any; assumption | intros; exact I|].
    eapply part_map with (a := s); [|reflexivity]. eapply part_map; [apply line_end; assumption|]. intros x. destruct s; reflexivity.
  - destruct (Forall_inv Hok) as [H1 H2]. cbn [length repM]. unfold msource_load at 1.
    intros pre post Hl. rewrite bind_assoc. revert pre post Hl.
    change (reads_part (let* d := date_load in bind (let* n := read_line true in ret (mkMsource d n))
              (fun x => let* l := repM (length (s2 :: l)) msource_load in ret (x :: l)))
              (date_bytes (so_date s) pad ++ so_name s ++ [t] ++ bs) (s :: s2 :: l)).
    eapply part_bind with (P := fun _ => True); [apply date_any; assumption | intros; exact I|].
    rewrite app_assoc.
    eapply part_bind with (P := follows bs) (a := s).
    + eapply reads_if_last; [apply line_next; [exact H2 | exact Ht]|]. apply reads_ret_eq. destruct s; reflexivity.
    + intros post. exists post. reflexivity.
    + eapply part_map; [apply IH, (Forall_inv_tail Hok) | reflexivity].
Qed.
Lemma manim_reads a t : manim_ok a -> eol t -> len (an_samples a) < 2 ^ 32 -> reads manim_load (manim_bytes (a, t)) a.
Proof.
  intros (H1 & H2 & H3 & H4 & H5 & H6 & H7 & H8 & H9 & H10 & H11 & H12) Ht Hs. unfold manim_load, manim_bytes. cbn [fst snd].
  rewrite (app_assoc (an_name a)).
  eapply reads_bind; [apply line_plain; assumption|]. cbv beta.
  eapply reads_bind; [apply reads_float, H3|]. cbv beta. eapply reads_bind; [apply reads_float, H4|]. cbv beta.
  eapply reads_bind; [apply reads_float, H5|]. cbv beta. eapply reads_bind; [apply reads_int, H2|]. cbv beta.
  eapply reads_bind; [apply reads_float, H6|]. cbv beta. eapply reads_bind; [apply reads_ubyte, H7|]. cbv beta.
  eapply reads_bind; [apply reads_uint, H9|]. cbv beta. eapply reads_bind; [apply reads_uint, H8|]. cbv beta.
  eapply reads_bind; [apply reads_uints; [reflexivity | exact H10]|]. cbv beta.
  eapply reads_if_last; [apply (all_reads read_vec3 v3_bytes vec3_ok); [apply v3_reads | exact H12|]|].
  - rewrite H11. unfold u32. apply N.mod_small. rewrite <- H11. exact Hs.
  - apply reads_ret_eq. destruct a; reflexivity.
Qed.
Lemma len_v3_bytes v : len (v3_bytes v) = 12.
Proof. unfold v3_bytes. rewrite !len_app, !len_le_enc. reflexivity. Qed.
Lemma len_v3s l : len (flat_map v3_bytes l) = 12 * len l.
Proof. induction l as [|v l IH]; [reflexivity|]. cbn [flat_map]. rewrite len_app, len_cons, len_v3_bytes, IH. lia. Qed.
Lemma manims_reads : forall l ts, Forall manim_ok l -> Forall eol ts -> len ts = len l ->
  len (flat_map manim_bytes (combine l ts)) < 2 ^ 32 ->
  reads (repM (length l) manim_load) (flat_map manim_bytes (combine l ts)) l.
Proof.
  induction l as [|a l IH]; intros ts Ha Ht Hn Hl; cbn [length repM combine flat_map]; [apply reads_ret|].
  destruct ts as [|t ts]; [rewrite len_cons, len_nil in Hn; lia|]. cbn [combine flat_map] in *.
  rewrite len_app in Hl. rewrite !len_cons in Hn.
  eapply reads_bind; [apply manim_reads; [apply (Forall_inv Ha) | apply (Forall_inv Ht)|]|].
  - unfold manim_bytes in Hl at 1. cbn [fst snd] in Hl. rewrite !len_app, len_v3s in Hl. lia.
  - eapply reads_if_last; [apply IH; [apply (Forall_inv_tail Ha) | apply (Forall_inv_tail Ht) | lia | lia]|]. apply reads_ret.
Qed.

Lemma morph_file_loads_over g m m0 f : morph_ok g m -> morph_file g m f -> len f < max_size -> mr_alpha (mo_mesh m0) = 1 ->
  of_file (morph_load m0) f = Ret (mkMorph (mo_name m) (mo_mesh m) (mo_positions m) (mo_anims m0 ++ mo_anims m) (mo_sources m)).
Proof.
  intros (H1 & H2 & H3 & H4 & H5 & H6 & H7 & H8) (src & ver & t & sec & ts & F1 & F2 & F3 & F4 & F5 & F6 & L1 & L2 & L3 & L4 & L5 & ->) Hl Halpha.
  cbv zeta in *.
  match goal with |- of_file _ (chunk_bytes ?a ++ chunk_bytes ?b ++ chunk_bytes ?c ++ chunk_bytes ?d ++ chunk_bytes ?e) = _ =>
    assert (E : chunk_bytes a ++ chunk_bytes b ++ chunk_bytes c ++ chunk_bytes d ++ chunk_bytes e = flat_map chunk_bytes [a; b; c; d; e])
      by (cbn [flat_map]; rewrite app_nil_r; reflexivity) end.
  rewrite E in *. clear E. unfold morph_load. apply file_runs; [|discriminate | exact Hl].
  eapply runs_more with (a1 := mkMorph (mo_name m0) (mo_mesh m0) (mo_positions m0) (mo_anims m0) (mo_sources m)); [split; [reflexivity | exact L1]| |].
  { cbn [fst snd]. change (morph_chunk 57360 m0) with (let* n := read_ushort in let* l := repM (N.to_nat n) msource_load in
      ret (false, mkMorph (mo_name m0) (mo_mesh m0) (mo_positions m0) (mo_anims m0) l)).
    eapply part_bind with (P := fun _ => True); [apply reads_ushort, H7 | intros; exact I|].
    replace (N.to_nat (len (mo_sources m))) with (length (mo_sources m)) by (unfold len; lia).
    eapply part_map; [apply sources_reads; assumption | reflexivity]. }
  eapply runs_more with (a1 := mkMorph (mo_name m) (mo_mesh m0) (mo_positions m0) (mo_anims m0) (mo_sources m)); [split; [reflexivity | exact L2]| |].
  { cbn [fst snd]. match goal with |- reads_part (morph_chunk _ ?x) _ _ => change (morph_chunk 57376 x) with (let* _ := read_uint in
      let* n := read_line true in ret (false, mkMorph n (mo_mesh m0) (mo_positions m0) (mo_anims m0) (mo_sources m))) end.
    eapply part_bind with (P := fun _ => True); [apply reads_uint, F2 | intros; exact I|].
    eapply part_map; [apply line_end; assumption | reflexivity]. }
  eapply runs_more with (a1 := mkMorph (mo_name m) (mo_mesh m) (resize (len (mr_positions (mo_mesh m))) (mo_positions m0) zero3) (mo_anims m0) (mo_sources m));
    [split; [reflexivity | exact L3]| |].
  { cbn [fst snd]. match goal with |- reads_part (morph_chunk _ ?x) _ _ => change (morph_chunk 45312 x) with (let* y := mrm_section_load (mo_mesh m0) in
      ret (false, mkMorph (mo_name m) y (resize (len (mr_positions y)) (mo_positions m0) zero3) (mo_anims m0) (mo_sources m))) end.
    eapply part_map; [eapply mrm_section_any; [exact H2 | rewrite Halpha; exact F4] | reflexivity]. }
  eapply runs_more with (a1 := mkMorph (mo_name m) (mo_mesh m) (mo_positions m) (mo_anims m0) (mo_sources m)); [split; [reflexivity | exact L4]| |].
  { cbn [fst snd]. match goal with |- reads_part (morph_chunk _ ?x) _ _ => change (morph_chunk 45567 x) with
      (let* l := repM (length (resize (len (mr_positions (mo_mesh m))) (mo_positions m0) zero3)) read_vec3 in
      ret (false, mkMorph (mo_name m) (mo_mesh m) l (mo_anims m0) (mo_sources m))) end.
    eapply part_map; [|reflexivity].
    replace (length (resize (len (mr_positions (mo_mesh m))) (mo_positions m0) zero3)) with (N.to_nat (len (mo_positions m))).
    - apply reads_part_of, (all_reads read_vec3 v3_bytes vec3_ok); [apply v3_reads | exact H4 | reflexivity].
    - rewrite H3. unfold resize. rewrite app_length, repeat_length. unfold take. rewrite firstn_length. unfold len. lia. }
  eapply runs_more with (a1 := mkMorph (mo_name m) (mo_mesh m) (mo_positions m) (mo_anims m0 ++ mo_anims m) (mo_sources m)); [split; [reflexivity | exact L5]| |apply runs_none].
  { cbn [fst snd]. match goal with |- reads_part (morph_chunk _ ?x) _ _ => change (morph_chunk 57392 x) with
      (let* n := read_ushort in let* l := repM (N.to_nat n) manim_load in
      ret (false, mkMorph (mo_name m) (mo_mesh m) (mo_positions m) (mo_anims m0 ++ l) (mo_sources m))) end.
    eapply part_bind with (P := fun _ => True); [apply reads_ushort, H5 | intros; exact I|].
    replace (N.to_nat (len (mo_anims m))) with (length (mo_anims m)) by (unfold len; lia).
    eapply part_map; [apply reads_part_of, manims_reads; [assumption | assumption | assumption|] |].
    - rewrite len_app in L5. lia.
    - intros s. reflexivity. }
Qed.
Lemma morph_file_loads g m f : morph_ok g m -> morph_file g m f -> len f < max_size -> of_file (morph_load morph_new) f = Ret m.
Proof.
  intros H1 H2 H3. rewrite (morph_file_loads_over g m morph_new f H1 H2 H3 eq_refl). destruct m; reflexivity.
Qed.

(* ------------------------------------------------------------------ *)
(** * Animations *)

Lemma lines_reads : forall l rest bs, lines_bytes l rest bs -> Forall no_eol l ->
  exists text, bs = text ++ rest /\ reads_if (follows rest) (repM (length l) (read_line true)) text l.
Proof.
  induction 1 as [rest | s t l rest bs Hr IH Ht]; intros Hok.
  - exists []. split; [reflexivity | apply reads_ret].
  - destruct (IH (Forall_inv_tail Hok)) as (text & -> & R). exists ((s ++ [t]) ++ text). split; [rewrite <- !app_assoc; reflexivity|].
    cbn [length repM]. eapply reads_if_bind with (P1 := follows (text ++ rest)); [apply line_next; [apply (Forall_inv Hok) | exact Ht]| |].
    + eapply reads_if_last; [exact R|]. apply reads_ret.
    + intros post (r & ->). exists r. rewrite <- app_assoc. reflexivity.
Qed.
Lemma reads_known {A} next (m : rd A) bs a b (k : A -> rd b) bs2 x : reads_if (follows (bs2)) m bs a -> reads (k a) bs2 x -> next = bs ++ bs2 ->
  reads (bind m k) next x.
Proof.
  intros H Hk ->. eapply reads_if_bind; [exact H | exact Hk|]. intros post _. exists post. reflexivity.
Qed.
Lemma aevent_reads e bs : aevent_ok e -> aevent_bytes e bs -> reads aevent_load bs e.
Proof.
  intros (H1 & H2 & H3 & H4 & H5 & H6 & H7 & H8) (text & Hl & ->). unfold aevent_load.
  eapply reads_bind; [apply reads_uint, H1|]. cbv beta. eapply reads_bind; [apply reads_uint, H2|]. cbv beta.
  inversion Hl as [|s t l rest bs Hr Ht]; subst.
  destruct (lines_reads _ _ _ Hr H5) as (tx & -> & R).
  eapply reads_known; [apply line_next; [exact H3 | exact Ht] | | rewrite <- app_assoc; reflexivity]. cbv beta.
  replace (length (ev_content e)) with 4%nat in R by (unfold len in H4; lia).
  eapply reads_known; [exact R | | reflexivity]. cbv beta.
  change 4%nat with (N.to_nat 4) at 1. eapply reads_bind; [apply (all_reads read_float (le_enc 4) f32); [intros x Hx; apply reads_float, Hx | exact H7 | symmetry; exact H6]|].
  cbv beta. eapply reads_if_last; [apply reads_float, H8|]. apply reads_ret_eq. destruct e; reflexivity.
Qed.
Lemma aevents_reads : forall l bss, Forall aevent_ok l -> Forall2 aevent_bytes l bss -> reads (repM (length l) aevent_load) (concat bss) l.
Proof.
  induction l as [|e l IH]; intros bss Hok H; inversion H as [|? bs ? bss' H1 H2]; subst; cbn [length repM concat]; [apply reads_ret|].
  eapply reads_bind; [apply (aevent_reads e bs); [apply (Forall_inv Hok) | exact H1]|].
  eapply reads_if_last; [apply IH; [apply (Forall_inv_tail Hok) | exact H2]|]. apply reads_ret.
Qed.

Section Floats.
Variable position_of : N -> N -> N -> N.
Variable rotation_of : N -> N -> N -> quat.
Let sample_load := sample_load position_of rotation_of.
Let sample_of := sample_of position_of rotation_of.

Lemma sample_reads scale mi s : stored_ok s -> reads (sample_load scale mi) (stored_bytes s) (sample_of scale mi s).
Proof.
  intros (H1 & H2 & H3 & H4 & H5 & H6). unfold sample_load, MMrm.sample_load, stored_bytes.
  eapply reads_bind; [apply reads_ushort, H1|]. cbv beta. eapply reads_bind; [apply reads_ushort, H2|]. cbv beta.
  eapply reads_bind; [apply reads_ushort, H3|]. cbv beta. eapply reads_bind; [apply reads_ushort, H4|]. cbv beta.
  eapply reads_bind; [apply reads_ushort, H5|]. cbv beta. eapply reads_if_last; [apply reads_ushort, H6|]. apply reads_ret.
Qed.
Lemma len_stored_bytes l : len (flat_map stored_bytes l) = 12 * len l.
Proof.
  induction l as [|v l IH]; [reflexivity|]. cbn [flat_map]. rewrite len_app, len_cons, IH. unfold stored_bytes. rewrite !len_app, !len_le_enc. lia.
Qed.

Lemma ani_file_loads a0 a f : animation_ok a -> ani_file position_of rotation_of a f -> len f < max_size ->
  of_file (ani_load position_of rotation_of a0) f = Ret a.
Proof.
  intros (H1 & H2 & H3 & H4 & H5 & H6 & H7 & H8 & H9 & H10 & H11 & H12 & H13 & H14 & H15 & H16 & H17 & H18 & H19).
  intros (marker & pad & t1 & t2 & ver & t3 & t4 & evs & raw & P1 & P2 & T1 & T2 & T3 & T4 & FE & FR & ES & L1 & L2 & L3 & L4 & L5 & ->) Hl.
  cbv zeta in *.
  match goal with |- of_file _ (chunk_bytes ?a ++ chunk_bytes ?b ++ chunk_bytes ?c ++ chunk_bytes ?d ++ chunk_bytes ?e) = _ =>
    assert (E : chunk_bytes a ++ chunk_bytes b ++ chunk_bytes c ++ chunk_bytes d ++ chunk_bytes e = flat_map chunk_bytes [a; b; c; d; e])
      by (cbn [flat_map]; rewrite app_nil_r; reflexivity) end.
  rewrite E in *. clear E. unfold ani_load. apply file_runs; [|discriminate | exact Hl].
  set (a1 := mkAnimation (ani_name a0) (ani_next a0) (ani_layer a0) (ani_frames a0) (ani_nodes a0) (ani_fps a0) (ani_fps_source a0) (ani_min a0) (ani_scale a0) (ani_bbox a0) (ani_checksum a0) (ani_path a) (ani_date a) (ani_script a) (ani_samples a0) (ani_events a0) (ani_indices a0)).
  set (a2 := mkAnimation (ani_name a) (ani_next a) (ani_layer a) (ani_frames a) (ani_nodes a) (ani_fps a) (ani_fps_source a)
    (ani_min a) (ani_scale a) (ani_bbox a) (ani_checksum a0) (ani_path a) (ani_date a) (ani_script a) (ani_samples a0) (ani_events a0) (ani_indices a0)).
  set (a3 := mkAnimation (ani_name a) (ani_next a) (ani_layer a) (ani_frames a) (ani_nodes a) (ani_fps a) (ani_fps_source a)
    (ani_min a) (ani_scale a) (ani_bbox a) (ani_checksum a0) (ani_path a) (ani_date a) (ani_script a) (ani_samples a0) (ani_events a) (ani_indices a0)).
  eapply runs_more with (a1 := a0); [split; [reflexivity | exact L1]| |].
  { apply reads_part_ret. }
  eapply runs_more with (a1 := a1); [split; [reflexivity | exact L2]| |].
  { cbn [fst snd]. change (ani_chunk position_of rotation_of 40976 a0) with
     (let* d := date_load in let* p := read_line false in let* s := read_line false in
      ret (false, mkAnimation (ani_name a0) (ani_next a0) (ani_layer a0) (ani_frames a0) (ani_nodes a0) (ani_fps a0) (ani_fps_source a0) (ani_min a0) (ani_scale a0) (ani_bbox a0) (ani_checksum a0) p d s (ani_samples a0) (ani_events a0) (ani_indices a0))).
    apply reads_part_of. eapply reads_bind; [apply date_any; assumption|]. cbv beta.
    rewrite (app_assoc (ani_path a)). eapply reads_bind; [apply line_plain; assumption|]. cbv beta.
    eapply reads_if_last; [apply line_plain; assumption|]. apply reads_ret. }
  eapply runs_more with (a1 := a2); [split; [reflexivity | exact L3]| |].
  { cbn [fst snd]. change (ani_chunk position_of rotation_of 40992 a1) with
     (let* _ := read_ushort in let* n := read_line false in let* l := read_uint in let* f := read_uint in let* k := read_uint in
      let* fps := read_float in let* src := read_float in let* mi := read_float in let* sc := read_float in
      let* b := aabb_load in let* nx := read_line false in
      ret (false, mkAnimation n nx l f k fps src mi sc b (ani_checksum a0) (ani_path a) (ani_date a) (ani_script a) (ani_samples a0) (ani_events a0) (ani_indices a0))).
    apply reads_part_of. eapply reads_bind; [apply reads_ushort, P2|]. cbv beta.
    rewrite (app_assoc (ani_name a)). eapply reads_bind; [apply line_plain; assumption|]. cbv beta.
    eapply reads_bind; [apply reads_uint, H3|]. cbv beta. eapply reads_bind; [apply reads_uint, H4|]. cbv beta.
    eapply reads_bind; [apply reads_uint, H5|]. cbv beta. eapply reads_bind; [apply reads_float, H6|]. cbv beta.
    eapply reads_bind; [apply reads_float, H7|]. cbv beta. eapply reads_bind; [apply reads_float, H8|]. cbv beta.
    eapply reads_bind; [apply reads_float, H9|]. cbv beta.
    eapply reads_bind; [apply (aabb_reads (ani_bbox a)); exact H10|]. cbv beta.
    eapply reads_if_last; [apply line_plain; assumption|]. apply reads_ret. }
  eapply runs_more with (a1 := a3); [split; [reflexivity | exact L4]| |].
  { cbn [fst snd]. change (ani_chunk position_of rotation_of 41008 a2) with
     (let* n := read_uint in let* l := repM (N.to_nat n) aevent_load in
      ret (false, mkAnimation (ani_name a) (ani_next a) (ani_layer a) (ani_frames a) (ani_nodes a) (ani_fps a) (ani_fps_source a)
    (ani_min a) (ani_scale a) (ani_bbox a) (ani_checksum a0) (ani_path a) (ani_date a) (ani_script a) (ani_samples a0) l (ani_indices a0))).
    apply reads_part_of. eapply reads_bind; [apply reads_uint, H15|]. cbv beta.
    replace (N.to_nat (len (ani_events a))) with (length (ani_events a)) by (unfold len; lia).
    eapply reads_if_last; [apply aevents_reads; assumption|]. apply reads_ret. }
  eapply runs_more with (a1 := a); [split; [reflexivity | exact L5]| |apply runs_none].
  { cbn [fst snd]. change (ani_chunk position_of rotation_of 41104 a3) with
     (let* c := read_uint in
      let* is_ := repM (N.to_nat (ani_nodes a)) read_uint in
      let* ss := repM (N.to_nat (u32 (ani_nodes a * ani_frames a))) (sample_load (ani_scale a) (ani_min a)) in
      ret (false, mkAnimation (ani_name a) (ani_next a) (ani_layer a) (ani_frames a) (ani_nodes a) (ani_fps a) (ani_fps_source a)
    (ani_min a) (ani_scale a) (ani_bbox a) c (ani_path a) (ani_date a) (ani_script a) ss (ani_events a) is_)).
    apply reads_part_of. eapply reads_bind; [apply reads_uint, H11|]. cbv beta.
    eapply reads_bind; [apply reads_uints; [symmetry; exact H17 | exact H18]|]. cbv beta.
    assert (Er : len (ani_samples a) = len raw) by (rewrite ES; unfold len; rewrite map_length; reflexivity).
    eapply reads_if_last; [eapply (reads_count_map (sample_of (ani_scale a) (ani_min a))) with (enc := stored_bytes) (l := raw)|].
    - rewrite <- H19, Er. unfold u32. apply N.mod_small. rewrite !len_app, len_stored_bytes in L5. lia.
    - intros x Hx. apply sample_reads. rewrite Forall_forall in FR. apply FR, Hx.
    - unfold sample_of. rewrite <- ES. apply reads_ret_eq. destruct a; reflexivity. }
Qed.
End Floats.
