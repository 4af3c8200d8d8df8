(** Fonts and skeletons: round trips, and loading arbitrary bytes. *)

From Coq Require Import Lia ZifyN ZifyBool ZifyNat.
From Verif Require Import MBase MStream SStream MBoxes SBoxes MModel SFormat LBase LStream LStreamHist LBoxes LFormat.
Local Open Scope N_scope.

Lemma zip_glyphs_map l : zip_glyphs (map gl_width l) (map gl_uv0 l) (map gl_uv1 l) = l.
Proof. induction l as [|[w a b] l IH]; [reflexivity|]. cbn [map zip_glyphs gl_width gl_uv0 gl_uv1]. rewrite IH. reflexivity. Qed.

Lemma reads_count_map {A B} (g : B -> A) (f : rd A) (enc : B -> bytes) l n : n = len l ->
  (forall x, In x l -> reads f (enc x) (g x)) -> reads (repM (N.to_nat n) f) (flat_map enc l) (map g l).
Proof.
  intros -> H. unfold len. rewrite Nnat.Nat2N.id.
  induction l as [|x l IH]; cbn [repM flat_map length map]; [apply reads_ret|].
  eapply reads_bind; [apply H; left; reflexivity|].
  rewrite <- (app_nil_r (flat_map enc l)). eapply reads_bind; [apply IH; intros y Hy; apply H; right; exact Hy|].
  apply reads_ret.
Qed.

Definition v2_enc (v : vec2) : bytes := le_enc 4 (v2x v) ++ le_enc 4 (v2y v).
Definition glyph_bytes (l : list glyph) : bytes :=
  flat_map (fun g => le_enc 1 (gl_width g)) l ++ flat_map (fun g => v2_enc (gl_uv0 g)) l ++
  flat_map (fun g => v2_enc (gl_uv1 g)) l.
Definition font_tail (f : font) : bytes :=
  le_enc 4 (fo_height f) ++ le_enc 4 (len (fo_glyphs f)) ++ glyph_bytes (fo_glyphs f).
Definition font_bytes (f : font) : bytes :=
  (lit "1" ++ [x0a]) ++ (fo_name f ++ [x0a]) ++ font_tail f.

Lemma font_writes f : len (fo_glyphs f) < 2 ^ 32 -> writes (font_save f) (font_bytes f).
Proof.
  intros Hl. unfold font_save, font_bytes, font_tail, glyph_bytes. rewrite (u32_small _ Hl).
  apply writes_seq; [apply writes_line|]. apply writes_seq; [apply writes_line|].
  apply writes_seq; [apply writes_uint|]. apply writes_seq; [apply writes_uint|].
  apply writes_seq; [apply writes_iter; intros; apply writes_ubyte|].
  apply writes_seq; apply writes_iter; intros; apply writes_vec2.
Qed.


Lemma font_reads f : font_ok f -> starts_visible (fo_name f) -> reads font_load (font_bytes f) f.
Proof.
  intros (Hn & Hh & Hc & Hg) Hv. unfold font_load, font_bytes.
  assert (R : reads_if (fun post => exists post', post = (fo_name f ++ [x0a]) ++ font_tail f ++ post')
     (read_line true) (lit "1" ++ [x0a]) (lit "1")).
  { intros pre post (post' & ->) Hl. unfold read_line.
    change (pre ++ (lit "1" ++ [x0a]) ++ (fo_name f ++ [x0a]) ++ font_tail f ++ post') with
      (pre ++ lit "1" ++ x0a :: [] ++ ((fo_name f ++ [x0a]) ++ font_tail f ++ post')) in *.
    rewrite read_line_skip; [do 3 f_equal; change (len (lit "1")) with 1; change (len (lit "1" ++ [x0a])) with 2; rewrite len_nil; lia | discriminate | | right; reflexivity | constructor | | exact Hl].
    - unfold no_eol. apply Forall_cons; [|apply Forall_nil]. repeat split; discriminate.
    - destruct (fo_name f) as [|c nm]; [destruct Hv|]. inversion Hn as [|? ? (H0 & _) _]; subst.
      cbn [app]. split.
      + destruct (in_chars ws_chars c) eqn:E; [|reflexivity]. exfalso. apply Hv.
        unfold in_chars in E. apply andb_true_iff in E. destruct E as [_ E]. apply existsb_exists in E.
        destruct E as (x & Hx & E). apply beq_spec in E. subst x. exact Hx.
      + intros E. congruence. }
  eapply reads_if_bind; [exact R| |].
  2:{ intros post _. exists post. rewrite <- !app_assoc. reflexivity. }
  cbv beta. replace (negb (bytes_eqb (lit "1") (lit "1"))) with false by reflexivity.
  eapply reads_bind; [apply reads_line_nows; [exact Hn | reflexivity]|]. cbv beta.
  unfold font_tail, glyph_bytes.
  eapply reads_bind; [apply reads_uint, Hh|]. eapply reads_bind; [apply reads_uint, Hc|]. cbv beta.
  rewrite Forall_forall in Hg.
  eapply reads_bind; [apply (reads_count_map gl_width); [reflexivity|]; intros x Hx; apply reads_ubyte; apply (Hg x Hx)|].
  cbv beta.
  eapply reads_bind; [apply (reads_count_map gl_uv0); [reflexivity|]; intros x Hx; apply reads_vec2; apply (Hg x Hx)|].
  cbv beta.
  rewrite <- (app_nil_r (flat_map _ _)).
  eapply reads_bind; [apply (reads_count_map gl_uv1); [reflexivity|]; intros x Hx; apply reads_vec2; apply (Hg x Hx)|].
  cbv beta. rewrite zip_glyphs_map. apply reads_ret_eq. destruct f; reflexivity.
Qed.

Lemma font_round_trip : round_trips font_save font_load (fun f => font_ok f /\ starts_visible (fo_name f)).
Proof.
  intros f [Hf Hv]. exists (font_bytes f). split; [apply font_writes, Hf | apply font_reads; assumption].
Qed.

Lemma font_forward : forward font_load.
Proof. unfold font_load. fsteps. Qed.

(** ** Skeletons *)
Definition hnode_bytes (n : hnode) : bytes :=
  (hn_name n ++ [x0a]) ++ le_enc 2 (uint 16 (hn_parent n)) ++ words_le (transpose4 (hn_transform n)).
Definition hier_payload (h : hierarchy) : bytes :=
  le_enc 4 3 ++ le_enc 2 (len (hi_nodes h)) ++ flat_map hnode_bytes (hi_nodes h) ++
  aabb_enc (hi_bbox h) ++ aabb_enc (hi_collision h) ++ v3_enc (hi_root h) ++ le_enc 4 (hi_checksum h).
Definition date_enc (d : date) : bytes :=
  le_enc 4 (d_year d) ++ le_enc 2 (d_month d) ++ le_enc 2 (d_day d) ++ le_enc 2 (d_hour d) ++
  le_enc 2 (d_minute d) ++ le_enc 2 (d_second d) ++ le_enc 2 0.
Definition hier_chunks (h : hierarchy) : list chunk :=
  [(H_HIERARCHY, hier_payload h); (H_SOURCE, date_enc (hi_date h) ++ hi_path h ++ [x0a]); (H_END, [])].

Lemma date_writes d : writes (date_save d) (date_enc d).
Proof. unfold date_save, date_enc. wsteps. Qed.
Lemma date_reads d : date_ok d -> reads date_load (date_enc d) d.
Proof.
  intros (H1 & H2 & H3 & H4 & H5 & H6). unfold date_load, date_enc. destruct d; cbn -[N.pow] in *. do 6 rstep.
  eapply reads_if_last; [apply reads_ushort; reflexivity|]. apply reads_ret.
Qed.
Lemma hnode_writes n : writes (hnode_save n) (hnode_bytes n).
Proof. unfold hnode_save, hnode_bytes. wsteps. Qed.
Lemma hnode_reads n : hnode_ok n -> reads hnode_load (hnode_bytes n) n.
Proof.
  intros (H1 & H2 & H3 & H4). unfold hnode_load, hnode_bytes.
  eapply reads_bind; [apply reads_line_nows; [exact H1 | reflexivity]|]. rsteps. rdone.
Qed.

Lemma len_hnodes l : Forall hnode_ok l -> len (flat_map hnode_bytes l) = names_len l + 67 * len l.
Proof.
  induction l as [|n l IH]; intros H; [reflexivity|]. inversion H as [|? ? (H1 & H2 & H3 & H4) Hl]; subst.
  change (names_len (n :: l)) with (len (hn_name n) + names_len l). cbn [flat_map]. rewrite len_app, (IH Hl). unfold hnode_bytes.
  assert (E : len (words_le (transpose4 (hn_transform n))) = 64) by (rewrite len_words_le; reflexivity).
  rewrite !len_app, len_le_enc, E, !len_cons, len_nil. lia.
Qed.

Lemma hier_fits h : hier_ok h -> Forall chunk_ok (hier_chunks h).
Proof.
  intros (H1 & H2 & H3 & _ & _ & _ & _ & _ & _ & H10). unfold hier_chunks.
  repeat apply Forall_cons; try apply Forall_nil; split; cbn [fst snd]; try reflexivity.
  - unfold hier_payload, aabb_enc, v3_enc. rewrite !len_app, !len_le_enc, len_hnodes by exact H1. cbn -[N.mul N.add N.lt N.pow].
    pows. lia.
  - unfold date_enc. rewrite !len_app, !len_le_enc. change (len [x0a]) with 1. pows. lia.
Qed.

Lemma hier_writes h : hier_ok h -> writes (hier_save h) (flat_map chunk_bytes (hier_chunks h)).
Proof.
  intros H. pose proof (hier_fits h H) as F. unfold hier_chunks in *.
  inversion F as [|? ? [_ F1] F']; subst. inversion F' as [|? ? [_ F2] F'']; subst. cbn [fst snd] in *.
  destruct H as (H1 & H2 & _). unfold hier_save. cbn [flat_map]. rewrite (u16_small _ H2).
  apply writes_seq; [apply write_chunk_writes; [|exact F1]|].
  { unfold hier_payload, v3_enc. apply writes_seq; [apply writes_uint|]. apply writes_seq; [apply writes_ushort|].
    apply writes_seq; [apply writes_iter; intros; apply hnode_writes|]. wsteps. }
  apply writes_seq; [apply write_chunk_writes; [|exact F2]|].
  { apply writes_seq; [apply date_writes | apply writes_line]. }
  rewrite app_nil_r. apply write_chunk_writes; [apply writes_ret | reflexivity].
Qed.

Lemma hier_reads h h0 : hier_ok h -> reads (hier_load h0) (flat_map chunk_bytes (hier_chunks h)) h.
Proof.
  intros H. pose proof (hier_fits h H) as F. apply read_chunked_run_left. unfold hier_chunks in *.
  inversion F as [|? ? F1 F']; subst. inversion F' as [|? ? F2 F'']; subst. inversion F'' as [|? ? F3 _]; subst.
  destruct H as (H1 & H2 & H3 & H4 & H5 & H6 & H7 & H8 & H9 & H10). rewrite Forall_forall in H1.
  eapply run_more; [exact F1 | apply reads_part_of | ]; cbn [fst snd].
  { unfold hier_chunk. replace (H_HIERARCHY =? H_HIERARCHY) with true by reflexivity. cbv iota. unfold hier_payload.
    eapply reads_bind; [apply reads_uint; reflexivity|]. eapply reads_bind; [apply reads_ushort, H2|]. cbv beta.
    eapply reads_bind; [apply reads_count; [reflexivity|]; intros x Hx; apply hnode_reads, H1, Hx|]. cbv beta.
    unfold v3_enc. rsteps. }
  eapply run_more; [exact F2 | apply reads_part_of | ]; cbn [fst snd].
  { unfold hier_chunk. replace (H_SOURCE =? H_HIERARCHY) with false by reflexivity.
    replace (H_SOURCE =? H_SOURCE) with true by reflexivity. cbv iota.
    eapply reads_bind; [apply date_reads, H8|]. cbv beta.
    rewrite <- (app_nil_r (hi_path h ++ [x0a])).
    eapply reads_bind; [apply reads_line_nows; [exact H9 | reflexivity]|]. apply reads_ret. }
  apply run_last; [exact F3|]. cbn [fst snd].
  unfold hier_chunk. replace (H_END =? H_HIERARCHY) with false by reflexivity.
  replace (H_END =? H_SOURCE) with false by reflexivity. replace (H_END =? H_END) with true by reflexivity. cbv iota.
  apply reads_part_of. cbn [hi_nodes hi_bbox hi_collision hi_root hi_checksum]. apply reads_ret_eq. destruct h; reflexivity.
Qed.

Lemma hier_round_trip h0 : round_trips hier_save (hier_load h0) hier_ok.
Proof. intros h H. eexists. split; [apply hier_writes, H | apply hier_reads, H]. Qed.

Lemma fw_hnode : forward hnode_load.
Proof. unfold hnode_load. fsteps. Qed.
Global Hint Resolve fw_hnode : forward.
Lemma hier_forward h : forward (hier_load h).
Proof. apply fw_chunked. intros ty a. unfold hier_chunk. fsteps. Qed.
