(** Lemmas: what a mesh file holds. *)

From Coq Require Import Lia ZifyN ZifyBool ZifyNat Sorted Permutation String.
From Verif Require Import MBase MStream SStream MBoxes SBoxes MTexture STexture MText MClasses MArchive SArchive MVob
  MMaterial MMesh SMesh SFormat SBsp LBase LStream LStreamHist LBoxes LFormat LModel LTexture LBsp LEnds LMesh LMeshMat.
Local Open Scope N_scope.
Local Open Scope m_scope.

Lemma len_flat_ge {A} (f : A -> bytes) l : (forall x, 1 <= len (f x)) -> len l <= len (flat_map f l).
Proof.
  intros H. induction l as [|x l IH]; [reflexivity|]. cbn [flat_map]. rewrite len_cons, len_app. specialize (H x). lia.
Qed.
Lemma writes_count n : writes (write_uint (u32 n)) (le_enc 4 n).
Proof.
  unfold u32. change (2 ^ 32) with (256 ^ N.of_nat 4). eapply writes_cast; [apply writes_uint|]. apply le_enc_mod.
Qed.
(** A chunk of any size: the size field holds the low 32 bits. *)
Lemma write_chunk_any ty cb payload : writes cb payload -> writes (write_chunk ty cb) (chunk_bytes (ty, payload)).
Proof.
  intros Hcb st Hp Hl. unfold chunk_bytes in *. cbn [fst snd] in *.
  rewrite !len_app, !len_le_enc in *. change (N.of_nat 2) with 2 in *. change (N.of_nat 4) with 4 in *.
  pows.
  unfold write_chunk.
  rewrite (writes_bind _ _ _ _ (writes_ushort ty) Hp) by (lens; pows; lia).
  unfold bind at 1. unfold wr_tell at 1. cbn [wpos].
  rewrite len_le_enc. change (N.of_nat 2) with 2.
  rewrite (writes_bind _ _ _ _ (writes_uint 0)); cbn [wbuf wpos]; [|lens; lia|lens; pows; lia].
  rewrite (writes_bind _ _ _ _ Hcb); cbn [wbuf wpos]; [|lens; lia|lens; pows; lia].
  unfold bind at 1. unfold wr_tell at 1. cbn [wpos].
  set (B := ((wbuf st ++ le_enc 2 ty) ++ le_enc 4 0) ++ payload).
  assert (En : (Z.of_N (len ((wbuf st ++ le_enc 2 ty) ++ le_enc 4 0) + len payload)
               - Z.of_N (len (wbuf st) + 2) - 4 = Z.of_N (len payload))%Z) by (lens; lia).
  rewrite En.
  unfold bind at 1. rewrite LStreamHist.wr_seek_beg by (pows; lia).
  unfold bind. unfold write_uint at 1, wr_write. cbn [wbuf wpos].
  assert (EL : le_enc 4 (uint 32 (Z.of_N (len payload))) = le_enc 4 (len payload)).
  { unfold uint. rewrite <- N2Z.inj_mod, N2Z.id. change (2 ^ 32) with (256 ^ N.of_nat 4). apply le_enc_mod. }
  rewrite EL.
  rewrite len_le_enc. change (N.of_nat 4) with 4.
  assert (HB : len B = len (wbuf st) + 6 + len payload) by (unfold B; lens; lia).
  destruct (N.ltb_spec (len (wbuf st) + 2 + 4) max_size); [|pows; lia].
  destruct (N.ltb_spec (len B) (len (wbuf st) + 2 + 4)); [lia|].
  unfold wr_seek, seek_internal. cbn [wbuf wpos].
  rewrite sint_small by (pows; lia). rewrite ssize_add_ok by (pows; lia). cbn [obind].
  rewrite uint_small by (pows; lia).
  do 2 f_equal. f_equal; [|lia].
  unfold overwrite. rewrite len_le_enc.
  assert (T : take (len (wbuf st) + 2) B = wbuf st ++ le_enc 2 ty).
  { unfold B. rewrite <- (app_assoc (wbuf st ++ le_enc 2 ty)).
    apply take_app_exact. lens. lia. }
  assert (D : drop (len (wbuf st) + 2 + N.of_nat 4) B = payload).
  { unfold B. apply drop_app_exact. lens. lia. }
  rewrite T, D, <- !app_assoc. reflexivity.
Qed.

(* ------------------------------------------------------------------ *)
(** * Polygons *)

Definition flag_byte (g : game) (f : pflags) : N :=
  match g with
  | G2 => pf_portal f mod 4 + bit (pf_occluder f) 2 + bit (pf_sector f) 3 + bit (pf_relight f) 4 +
          bit (pf_outdoor f) 5 + bit (pf_ghost f) 6 + bit (pf_lit f) 7
  | G1 => pf_portal f mod 4 + bit (pf_occluder f) 2 + bit (pf_sector f) 3 + bit (pf_lod f) 4 +
          bit (pf_outdoor f) 5 + bit (pf_ghost f) 6 + 128 * (pf_axis f mod 2)
  end.
Definition flags_enc (g : game) (f : pflags) : bytes :=
  match g with
  | G2 => le_enc 1 (flag_byte G2 f) ++ le_enc 2 (uint 16 (pf_sector_index f))
  | G1 => le_enc 1 (flag_byte G1 f) ++ le_enc 1 (N.land (pf_axis f) 2) ++ le_enc 2 (uint 16 (pf_sector_index f))
  end.
Lemma flags_writes g f : writes (flags_save g f) (flags_enc g f).
Proof.
  destruct g; unfold flags_save, flags_enc.
  - apply writes_seq; [apply writes_ubyte|]. apply writes_seq; [apply writes_ubyte | apply writes_short].
  - apply writes_seq; [apply writes_ubyte | apply writes_short].
Qed.
Definition flag_sum (p : N) (b2 b3 b4 b5 b6 b7 : bool) : N :=
  p mod 4 + bit b2 2 + bit b3 3 + bit b4 4 + bit b5 5 + bit b6 6 + bit b7 7.
Definition flag_sum_ok (p : N) (b2 b3 b4 b5 b6 b7 : bool) : bool :=
  let f := flag_sum p b2 b3 b4 b5 b6 b7 in
  (f <? 256) && (f mod 4 =? p) && Bool.eqb (N.testbit f 2) b2 && Bool.eqb (N.testbit f 3) b3 && Bool.eqb (N.testbit f 4) b4 &&
  Bool.eqb (N.testbit f 5) b5 && Bool.eqb (N.testbit f 6) b6 && Bool.eqb (N.testbit f 7) b7 &&
  (N.shiftr (N.land f 128) 7 =? bit b7 0).
Definition both (k : bool -> bool) : bool := k true && k false.
Definition all_flag_sums : bool :=
  forallb (fun p => both (fun b2 => both (fun b3 => both (fun b4 => both (fun b5 => both (fun b6 => both (fun b7 =>
    flag_sum_ok p b2 b3 b4 b5 b6 b7))))))) [0; 1; 2; 3].
Lemma all_flag_sums_ok : all_flag_sums = true.
Proof. vm_compute. reflexivity. Qed.
Lemma both_spec (k : bool -> bool) b : both k = true -> k b = true.
Proof. intros H. apply andb_prop in H as [H1 H2]. destruct b; assumption. Qed.
Lemma bits_ok p (b2 b3 b4 b5 b6 b7 : bool) : p < 4 ->
  let f := p mod 4 + bit b2 2 + bit b3 3 + bit b4 4 + bit b5 5 + bit b6 6 + bit b7 7 in
  f < 2 ^ 8 /\ f mod 4 = p /\ N.testbit f 2 = b2 /\ N.testbit f 3 = b3 /\ N.testbit f 4 = b4 /\ N.testbit f 5 = b5 /\
  N.testbit f 6 = b6 /\ N.testbit f 7 = b7 /\ N.shiftr (N.land f 128) 7 = bit b7 0.
Proof.
  intros H. pose proof all_flag_sums_ok as A. unfold all_flag_sums in A. rewrite forallb_forall in A.
  assert (Hp : In p [0; 1; 2; 3]).
  { assert (p = 0 \/ p = 1 \/ p = 2 \/ p = 3) as [-> | [-> | [-> | ->]]] by lia; cbn [In]; auto. }
  specialize (A p Hp). cbv beta in A.
  apply (both_spec _ b2) in A. apply (both_spec _ b3) in A. apply (both_spec _ b4) in A. apply (both_spec _ b5) in A.
  apply (both_spec _ b6) in A. apply (both_spec _ b7) in A. clear H Hp.
  unfold flag_sum_ok in A. cbv zeta in A. fold (flag_sum p b2 b3 b4 b5 b6 b7).
  set (f := flag_sum p b2 b3 b4 b5 b6 b7) in *. cbv zeta. clearbody f.
  repeat (apply andb_prop in A as [A ?]).
  repeat match goal with
  | E : Bool.eqb _ _ = true |- _ => apply Bool.eqb_prop in E
  | E : (_ =? _) = true |- _ => apply N.eqb_eq in E
  | E : (_ <? _) = true |- _ => apply N.ltb_lt in E
  end.
  change (2 ^ 8) with 256. repeat split; assumption.
Qed.
Lemma flags_reads g f : pflags_ok g f ->
  reads (flags_load (mesh_version g) (po_flags poly_new)) (flags_enc g f) f.
Proof.
  destruct f as [p b2 b3 b4 b5 b6 b7 si lod ax]. unfold pflags_ok. cbn [pf_portal pf_sector_index pf_relight pf_lit pf_axis pf_lod].
  intros (Hp & Hs & Hg). destruct g.
  - destruct Hg as (-> & -> & Ha). unfold flags_load, flags_enc, flag_byte.
    change (mesh_version G1 =? 265) with false. cbv iota.
    cbn [pf_portal pf_occluder pf_sector pf_relight pf_outdoor pf_ghost pf_lit pf_sector_index pf_lod pf_axis].
    assert (Hx : 128 * (ax mod 2) = bit (ax =? 1) 7 /\ N.land ax 2 = 0 /\ bit (ax =? 1) 0 = ax).
    { assert (ax = 0 \/ ax = 1) as [-> | ->] by lia; repeat split; reflexivity. }
    destruct Hx as (Hx1 & Hx2 & Hx3). rewrite Hx1, Hx2.
    destruct (bits_ok p b2 b3 lod b5 b6 (ax =? 1) Hp) as (B0 & B1 & B2 & B3 & B4 & B5 & B6 & B7 & B8).
    set (w := p mod 4 + _ + _ + _ + _ + _ + _) in *.
    eapply reads_bind; [apply reads_ubyte; exact B0|]. eapply reads_bind; [apply reads_ubyte; reflexivity|].
    eapply reads_if_last; [apply reads_short; exact Hs|]. apply reads_ret_eq.
    cbn [po_flags poly_new pf_relight pf_lit]. rewrite B1, B2, B3, B4, B5, B6, B8, Hx3.
    change (N.land 0 1) with 0. rewrite N.lor_0_r. reflexivity.
  - destruct Hg as (-> & ->). unfold flags_load, flags_enc, flag_byte.
    change (mesh_version G2 =? 265) with true. cbv iota.
    cbn [pf_portal pf_occluder pf_sector pf_relight pf_outdoor pf_ghost pf_lit pf_sector_index pf_lod pf_axis].
    destruct (bits_ok p b2 b3 b4 b5 b6 b7 Hp) as (B0 & B1 & B2 & B3 & B4 & B5 & B6 & B7 & B8).
    set (w := p mod 4 + _ + _ + _ + _ + _ + _) in *.
    eapply reads_bind; [apply reads_ubyte; exact B0|].
    eapply reads_if_last; [apply reads_short; exact Hs|]. apply reads_ret_eq.
    cbn [po_flags poly_new pf_lod pf_axis]. rewrite B1, B2, B3, B4, B5, B6, B7. reflexivity.
Qed.

Lemma firstn_snoc (l : list N) k : (k < length l)%nat -> firstn (S k) l = firstn k l ++ [nth k l 0].
Proof.
  revert k. induction l as [|x l IH]; intros k H; [cbn in H; lia|]. destruct k as [|k]; [reflexivity|].
  cbn [length] in H. change (firstn (S (S k)) (x :: l)) with (x :: firstn (S k) l). rewrite IH by lia. reflexivity.
Qed.

Lemma indices_in off n i : In i (indices off n) -> off <= i < off + n.
Proof. unfold indices. intros H. apply in_map_iff in H as (k & <- & Hk). apply in_seq in Hk. lia. Qed.
Lemma len_indices off n : len (indices off n) = n.
Proof. unfold indices, len. rewrite map_length, seq_length. lia. Qed.


Section Polys.
  Variables (g : game) (V F : list N).
  Hypothesis HV : Forall (fun v => v < match g with G1 => 2 ^ 16 | G2 => 2 ^ 32 end) V.
  Hypothesis HF : Forall f32 F.
  Hypothesis HVF : len V = len F.

  Definition at_ (l : list N) (i : N) : N := nth (N.to_nat i) l 0.
  Definition corner_enc (i : N) : bytes :=
    (match g with G1 => le_enc 2 (at_ V i) | G2 => le_enc 4 (at_ V i) end) ++ le_enc 4 (at_ F i).
  Definition poly_enc (p : polygon) : bytes :=
    le_enc 2 (po_material p) ++ le_enc 2 (uint 16 (po_lightmap p)) ++ le_enc 4 (po_distance p) ++ v3_enc (po_normal p) ++
    flags_enc g (po_flags p) ++ le_enc 1 (po_count p) ++ flat_map corner_enc (indices (po_offset p) (po_count p)).

  Lemma poly_writes m p : me_vindices m = V -> me_findices m = F ->
    (g = G2 -> tr_vertices (me_tris m) = V /\ tr_features (me_tris m) = F) ->
    polygon_ok g p -> po_offset p + po_count p <= len V ->
    writes (poly_save g m p) (poly_enc p).
  Proof.
    intros E1 E2 E3 (H1 & H2 & H3 & H4 & H5 & H6) Hc. unfold poly_save, poly_enc.
    rewrite LFormat.u16_small by exact H1.
    assert (E8 : u8 (po_count p) = po_count p) by (apply N.mod_small; exact H4). rewrite E8.
    apply writes_seq; [apply writes_ushort|]. apply writes_seq; [apply writes_short|]. apply writes_seq; [apply writes_float|].
    apply writes_seq; [apply writes_vec3|]. apply writes_seq; [apply flags_writes|]. apply writes_seq; [apply writes_ubyte|].
    apply writes_iter. intros i Hi. apply indices_in in Hi. unfold corner_save, corner_enc, at_.
    rewrite Forall_forall in HV.
    assert (Hv : nth (N.to_nat i) V 0 < match g with G1 => 2 ^ 16 | G2 => 2 ^ 32 end).
    { apply HV, nth_In. unfold len in Hc. lia. }
    destruct g.
    - rewrite E1, E2, (nth_N_some V i 0), (nth_N_some F i 0) by lia.
      apply writes_seq; [|apply writes_uint]. rewrite LFormat.u16_small by exact Hv. apply writes_ushort.
    - destruct (E3 eq_refl) as [-> ->]. rewrite (nth_N_some V i 0), (nth_N_some F i 0) by lia.
      apply writes_seq; apply writes_uint.
  Qed.

  Lemma take_slice (l : list N) off n : off + n <= len l ->
    take off l ++ map (at_ l) (indices off n) = take (off + n) l.
  Proof.
    intros H. unfold take, indices. rewrite map_map. unfold len in H.
    assert (H' : (N.to_nat off + N.to_nat n <= length l)%nat) by lia.
    assert (E : forall k, (k <= N.to_nat n)%nat -> firstn (N.to_nat off) l ++ map (fun x => at_ l (off + N.of_nat x)) (seq 0 k) = firstn (N.to_nat off + k) l).
    { clear -H'. induction k as [|k IH]; intros Hk.
      - cbn [seq map]. rewrite app_nil_r, Nat.add_0_r. reflexivity.
      - rewrite seq_S, map_app, app_assoc, IH by lia. cbn [map Nat.add].
        replace (N.to_nat off + S k)%nat with (S (N.to_nat off + k)) by lia.
        rewrite (firstn_snoc l (N.to_nat off + k)) by lia. unfold at_.
        replace (N.to_nat (off + N.of_nat k)) with (N.to_nat off + k)%nat by lia. reflexivity. }
    rewrite !N.min_l by (unfold len; lia).
    replace (N.to_nat (off + n)) with (N.to_nat off + N.to_nat n)%nat by lia. apply E. lia.
  Qed.

  Variable wide : bool.
  Hypothesis Hw : g = G1 -> wide = false.

  Lemma corner_reads i : i < len V ->
    reads (corner_load ((mesh_version g =? 265) || wide)) (corner_enc i) (at_ V i, at_ F i).
  Proof.
    intros Hi. unfold corner_load, corner_enc, at_.
    assert (Hv : nth (N.to_nat i) V 0 < match g with G1 => 2 ^ 16 | G2 => 2 ^ 32 end).
    { rewrite Forall_forall in HV. apply HV, nth_In. unfold len in Hi. lia. }
    assert (Hf : f32 (nth (N.to_nat i) F 0)).
    { rewrite Forall_forall in HF. apply HF, nth_In. rewrite HVF in Hi. unfold len in Hi. lia. }
    destruct g.
    - rewrite Hw by reflexivity. change ((mesh_version G1 =? 265) || false) with false. cbv iota.
      eapply reads_bind; [apply reads_ushort, Hv|].
      eapply reads_if_last; [apply reads_uint, Hf|]. apply reads_ret.
    - change ((mesh_version G2 =? 265) || wide) with true. cbv iota.
      eapply reads_bind; [apply reads_uint, Hv|].
      eapply reads_if_last; [apply reads_uint, Hf|]. apply reads_ret.
  Qed.

  Lemma polys_reads : len V < 2 ^ 32 -> forall ps off, Forall (polygon_ok g) ps -> consecutive off ps ->
    off + corner_count ps <= len V ->
    reads (polys_load (mesh_version g) wide (repeat poly_new (length ps)) off (take off V) (take off F))
      (flat_map poly_enc ps) (ps, take (off + corner_count ps) V, take (off + corner_count ps) F).
  Proof.
    intros HL. induction ps as [|p ps IH]; intros off Hok Hc Hl.
    - cbn [length repeat polys_load flat_map corner_count fold_right]. rewrite N.add_0_r. apply reads_ret.
    - inversion Hok as [|? ? Hp Hps]; subst. destruct Hp as (H1 & H2 & H3 & H4 & H5 & H6).
      destruct Hc as [Ho Hc]. cbn [corner_count fold_right] in *. fold (corner_count ps) in *.
      cbn [length repeat polys_load flat_map]. unfold poly_enc at 1. rewrite <- !app_assoc.
      eapply reads_bind; [apply reads_ushort, H1|]. eapply reads_bind; [apply reads_short, H2|].
      eapply reads_bind; [apply reads_float, H5|]. eapply reads_bind; [apply vec3_reads, H6|].
      eapply reads_bind; [apply flags_reads, H3|]. eapply reads_bind; [apply reads_ubyte, H4|]. cbv beta.
      eapply reads_bind.
      { apply (reads_count_map (fun i => (at_ V i, at_ F i)) _ corner_enc); [rewrite len_indices; reflexivity|].
        intros i Hi. apply indices_in in Hi. apply corner_reads. lia. }
      cbv beta. rewrite !map_map. cbn [fst snd]. rewrite Ho.
      change (map (fun x => at_ V x)) with (map (at_ V)). change (map (fun x => at_ F x)) with (map (at_ F)).
      rewrite !take_slice by lia.
      assert (E32 : u32 (off + po_count p) = off + po_count p) by (apply N.mod_small; pows; lia). rewrite E32.
      eapply reads_if_last; [apply (IH (off + po_count p) Hps Hc); lia|]. cbv beta iota. apply reads_ret_eq.
      replace (off + (po_count p + corner_count ps)) with (off + po_count p + corner_count ps) by lia.
      f_equal. f_equal. f_equal. destruct p as [a b c d e f h]. cbn [po_offset] in Ho. subst e. reflexivity.
  Qed.

  Lemma polys_reads_all ps : len V < 2 ^ 32 -> Forall (polygon_ok g) ps -> consecutive 0 ps -> corner_count ps = len V ->
    reads (polys_load (mesh_version g) wide (repeat poly_new (length ps)) 0 [] []) (flat_map poly_enc ps) (ps, V, F).
  Proof.
    intros HL Hok Hc Hl. pose proof (polys_reads HL ps 0 Hok Hc) as R. rewrite N.add_0_l, Hl, !take_0 in R.
    rewrite (take_all (len V) V), (take_all (len V) F) in R by lia. apply R. lia.
  Qed.
  Lemma corners_len ps : corner_count ps <= len (flat_map poly_enc ps).
  Proof using Type.
    clear wide Hw HV HF HVF.
    induction ps as [|p ps IH]; [apply N.le_0_l|]. cbn [corner_count fold_right flat_map]. fold (corner_count ps).
    rewrite len_app. unfold poly_enc at 1. rewrite !len_app.
    assert (po_count p <= len (flat_map corner_enc (indices (po_offset p) (po_count p)))).
    { pose proof (len_flat_ge corner_enc (indices (po_offset p) (po_count p))) as G. rewrite len_indices in G. apply G.
      intros x. unfold corner_enc. rewrite len_app, (len_le_enc 4). lia. }
    lia.
  Qed.
  Lemma polys_len ps : len ps <= len (flat_map poly_enc ps).
  Proof using Type. clear wide Hw HV HF HVF. apply len_flat_ge. intros p. unfold poly_enc. rewrite len_app, len_le_enc. lia. Qed.
End Polys.

Lemma consecutive_in p l : In p l -> forall off, consecutive off l -> po_offset p + po_count p <= off + corner_count l.
Proof.
  induction l as [|q l IH]; intros Hp off Hc; [contradiction|].
  destruct Hc as [Ho Hc]. cbn [corner_count fold_right]. fold (corner_count l). destruct Hp as [->|Hp]; [lia|].
  specialize (IH Hp _ Hc). lia.
Qed.
Lemma polys_writes g m : mesh_ok g m ->
  writes (write_uint (u32 (len (me_geometry m))) ;; iterM (poly_save g m) (me_geometry m))
    (le_enc 4 (len (me_geometry m)) ++ flat_map (poly_enc g (me_vindices m) (me_findices m)) (me_geometry m)).
Proof.
  intros (_ & _ & _ & _ & _ & _ & _ & _ & _ & _ & _ & Hg & Hc & Lv & Lf & HV & HF & Ht).
  apply writes_seq; [apply writes_count|]. apply writes_iter. intros p Hp.
  apply poly_writes; try assumption; try reflexivity.
  - congruence.
  - intros ->. exact Ht.
  - rewrite Forall_forall in Hg. apply Hg, Hp.
  - rewrite Lv. apply (consecutive_in p _ Hp 0 Hc).
Qed.

(* ------------------------------------------------------------------ *)
(** * Lightmaps *)

Lemma place_lt x l : In x l -> place x l < len l.
Proof.
  induction l as [|y l IH]; [contradiction|]. intros H. cbn [place]. rewrite len_cons.
  destruct (N.eqb_spec y x) as [_|Hn]; [lia|]. destruct H as [H|H]; [congruence|]. specialize (IH H). lia.
Qed.
Lemma place_at x l : In x l -> nth_N l (place x l) = Some x.
Proof.
  induction l as [|y l IH]; [contradiction|]. intros H. cbn [place].
  destruct (N.eqb_spec y x) as [->|Hn].
  - rewrite nth_N_error. reflexivity.
  - destruct H as [H|H]; [congruence|]. specialize (IH H). rewrite nth_N_error in *.
    replace (N.to_nat (1 + place x l)) with (S (N.to_nat (place x l))) by lia. exact IH.
Qed.
Lemma place_inj x y l : In x l -> In y l -> place x l = place y l -> x = y.
Proof. intros Hx Hy E. apply place_at in Hx, Hy. congruence. Qed.

Definition blank : texture := tex_new.
Definition image_at (m : mesh) (k : N) : texture := nth (N.to_nat k) (me_images m) blank.
Definition lm_enc (ks : list N) (l : lightmap) : bytes :=
  v3_enc (lm_origin l) ++ v3_enc (lm_normal_a l) ++ v3_enc (lm_normal_b l) ++ le_enc 4 (place (lm_image l) ks).
Definition lms_bytes (ks : list N) (m : mesh) : bytes :=
  le_enc 4 (len ks) ++ flat_map (fun k => tex_bytes (image_at m k)) ks ++
  le_enc 4 (len (me_lightmaps m)) ++ flat_map (lm_enc ks) (me_lightmaps m).
Definition placed (ks : list N) (l : lightmap) : lightmap :=
  mkLightmap (place (lm_image l) ks) (lm_normal_a l) (lm_normal_b l) (lm_origin l).

Section Lms.
  Variables (m : mesh) (ks : list N).
  Hypothesis Hks : forall k, In k ks <-> In k (map lm_image (me_lightmaps m)).
  Hypothesis Hi : Forall loadable (me_images m).
  Hypothesis Hl : Forall (lightmap_ok m) (me_lightmaps m).

  Lemma key_lt k : In k ks -> k < len (me_images m).
  Proof.
    intros H. apply Hks in H. apply in_map_iff in H as (l & <- & H). rewrite Forall_forall in Hl. apply (Hl l H).
  Qed.
  Lemma lms_writes order : order (images_used (me_lightmaps m)) = ks -> writes (lightmaps_save order m) (lms_bytes ks m).
  Proof.
    intros E. unfold lightmaps_save, lms_bytes. rewrite E. cbv zeta.
    apply writes_seq; [apply writes_count|]. apply writes_seq.
    { apply writes_iter. intros k Hk. rewrite (nth_N_some _ _ blank (key_lt k Hk)). apply tex_writes. }
    apply writes_seq; [apply writes_count|]. apply writes_iter. intros l _. unfold lm_enc.
    do 3 (apply writes_seq; [apply writes_vec3|]). apply writes_uint.
  Qed.
  Lemma image_ok k : In k ks -> tex_ok (image_at m k).
  Proof.
    intros H. apply key_lt in H. assert (L : loadable (image_at m k)).
    { rewrite Forall_forall in Hi. apply Hi, nth_In. unfold len in H. lia. }
    destruct L as (s & s' & E). exact (tex_load_ok _ _ _ E).
  Qed.
  Lemma lms_reads : len (lms_bytes ks m) < 2 ^ 32 -> forall A (k : list texture -> list lightmap -> A) base,
    reads (let* n := read_uint in
           let* ts := repM (N.to_nat n) (tex_load tex_new) in
           let* c := read_uint in
           let* ls := repM (N.to_nat c) (lightmap_load base n) in
           ret (k ts ls)) (lms_bytes ks m)
      (k (map (image_at m) ks) (map (fun l => mkLightmap (base + lm_image l) (lm_normal_a l) (lm_normal_b l) (lm_origin l))
                                    (map (placed ks) (me_lightmaps m)))).
  Proof.
    intros Hs A k base. unfold lms_bytes in *. rewrite !len_app in Hs.
    pose proof (len_flat_ge (fun k => tex_bytes (image_at m k)) ks) as L1.
    pose proof (len_flat_ge (lm_enc ks) (me_lightmaps m)) as L2.
    assert (L1' : len ks <= len (flat_map (fun k => tex_bytes (image_at m k)) ks)).
    { apply L1. intros x. unfold tex_bytes. rewrite len_app. change (len (lit "ZTEX")) with 4. lia. }
    assert (L2' : len (me_lightmaps m) <= len (flat_map (lm_enc ks) (me_lightmaps m))).
    { apply L2. intros x. unfold lm_enc. rewrite len_app, len_v3. lia. }
    clear L1 L2.
    eapply reads_bind; [apply reads_uint; lia|]. cbv beta.
    eapply reads_bind.
    { apply (reads_count_map (image_at m) _ (fun k => tex_bytes (image_at m k))); [reflexivity|].
      intros x Hx. eapply reads_cast; [apply tex_reads; [apply image_ok, Hx | reflexivity] | reflexivity |].
      cbn [tx_maps tex_new app]. destruct (image_at m x); reflexivity. }
    cbv beta. eapply reads_bind; [apply reads_uint; lia|]. cbv beta.
    rewrite <- (app_nil_r (flat_map (lm_enc ks) _)). rewrite map_map.
    eapply reads_bind; [|cbv beta; apply reads_ret].
    apply reads_count_map; [reflexivity|]. intros l Hin. unfold lightmap_load, lm_enc.
    rewrite Forall_forall in Hl. destruct (Hl l Hin) as (H1 & H2 & H3 & H4).
    assert (Hp : place (lm_image l) ks < len ks) by (apply place_lt, Hks, in_map, Hin).
    eapply reads_bind; [apply vec3_reads, H3|]. eapply reads_bind; [apply vec3_reads, H1|].
    eapply reads_bind; [apply vec3_reads, H2|].
    eapply reads_if_last; [apply reads_uint; lia|]. cbv beta.
    destruct (N.ltb_spec (place (lm_image l) ks) (len ks)); [|lia]. apply reads_ret_eq. reflexivity.
  Qed.
End Lms.

Lemma forall2_map {A B} (R : A -> B -> Prop) (f : A -> B) l : (forall x, In x l -> R x (f x)) -> Forall2 R l (map f l).
Proof.
  induction l as [|x l IH]; intros H; cbn [map]; constructor; [apply H; left; reflexivity|].
  apply IH. intros y Hy. apply H. right. exact Hy.
Qed.

(* ------------------------------------------------------------------ *)
(** * Whole meshes *)

Definition feature_enc (f : feature) : bytes := v2_enc (fe_texture f) ++ le_enc 4 (fe_light f) ++ v3_enc (fe_normal f).
Definition mesh_chunks (ks : list N) (e : wenv) (g : game) (m : mesh) : list chunk :=
  [(M_MARKER, le_enc 2 (mesh_version g) ++ date_enc (me_date m) ++ me_name m ++ [x0a]);
   (M_BBOX, aabb_enc (me_bbox m) ++ obb_enc (me_obb m));
   (M_MATERIAL, mats_file g e (me_materials m));
   (M_LIGHTMAPS_SHARED, lms_bytes ks m);
   (M_VERTICES, le_enc 4 (len (me_vertices m)) ++ flat_map v3_enc (me_vertices m));
   (M_FEATURES, le_enc 4 (len (me_features m)) ++ flat_map feature_enc (me_features m));
   (M_POLYGONS, le_enc 4 (len (me_geometry m)) ++ flat_map (poly_enc g (me_vindices m) (me_findices m)) (me_geometry m));
   (M_END, [])].

Lemma payload_ok ty p : chunk_ok (ty, p) -> len p < 2 ^ 32.
Proof. intros H. apply H. Qed.

Section MeshFile.
  Variables (order : list N -> list N) (e1 e2 : wenv) (g : game) (m : mesh) (wide : bool).
  Hypothesis Ho : some_order order.
  Hypothesis He : env_ok e2.
  Hypothesis Hd : len (we_date e1) = len (we_date e2).
  Hypothesis Hu : len (we_user e1) = len (we_user e2).
  Hypothesis Hok : mesh_ok g m.
  Hypothesis Hw : g = G1 -> wide = false.
  (** The mesh that is loaded into. *)
  Variable m0 : mesh.
  Hypothesis E0 : me_images m0 = [] /\ me_lightmaps m0 = [] /\ me_geometry m0 = [] /\ me_vindices m0 = [] /\ me_findices m0 = [].
  Let ks := order (images_used (me_lightmaps m)).
  Let bs := flat_map chunk_bytes (mesh_chunks ks e2 g m).

  Lemma ks_spec k : In k ks <-> In k (map lm_image (me_lightmaps m)).
  Proof.
    unfold ks. split; intros H.
    - apply (Permutation_in _ (Ho _)) in H. unfold images_used in H. apply nodup_In in H. exact H.
    - apply (Permutation_in _ (Permutation_sym (Ho _))). unfold images_used. apply nodup_In. exact H.
  Qed.

  Lemma mesh_writes : writes (mesh_save order e1 e2 g m) bs.
  Proof.
    pose proof Hok as (H1 & H2 & H3 & H4 & H5 & H6 & H7 & H8 & H9 & H10 & H11 & _).
    unfold mesh_save, bs, mesh_chunks. cbn [flat_map].
    apply writes_seq.
    { apply write_chunk_any. apply writes_seq; [apply writes_ushort|]. apply writes_seq; [apply date_writes | apply writes_line]. }
    apply writes_seq. { apply write_chunk_any. apply writes_seq; [apply aabb_writes | apply obb_writes, H4]. }
    apply writes_seq. { apply write_chunk_any. apply mats_save_writes; assumption. }
    apply writes_seq. { apply write_chunk_any. apply lms_writes; [exact ks_spec | exact H11 | reflexivity]. }
    apply writes_seq.
    { apply write_chunk_any. apply writes_seq; [apply writes_count|]. apply writes_iter. intros v _. apply writes_vec3. }
    apply writes_seq.
    { apply write_chunk_any. apply writes_seq; [apply writes_count|]. apply writes_iter. intros f _.
      unfold feature_save, feature_enc. apply writes_seq; [apply writes_vec2|]. apply writes_seq; [apply writes_uint | apply writes_vec3]. }
    apply writes_seq. { apply write_chunk_any. apply polys_writes, Hok. }
    rewrite app_nil_r. apply write_chunk_any. apply writes_ret.
  Qed.

  Definition loaded : mesh :=
    mkMesh (me_date m) (me_name m) (me_bbox m) (me_obb m) (me_materials m) (me_vertices m) (me_features m)
      (map (image_at m) ks) (map (placed ks) (me_lightmaps m)) (me_geometry m) (me_vindices m) (me_findices m) (me_tris m0).

  Lemma chunk_len c : In c (mesh_chunks ks e2 g m) -> len (snd c) <= len bs.
  Proof.
    unfold bs. induction (mesh_chunks ks e2 g m) as [|x l IH]; [contradiction|]. cbn [flat_map]. rewrite len_app.
    intros [->|H]; [|specialize (IH H); lia]. destruct c as [ty p]. unfold chunk_bytes. cbn [fst snd]. rewrite !len_app. lia.
  Qed.
  Lemma resize_new {A} n (x : A) : resize n [] x = repeat x (N.to_nat n).
  Proof. unfold resize. rewrite len_nil, N.sub_0_r. unfold take. rewrite firstn_nil. reflexivity. Qed.

  Ltac at_chunk := unfold mesh_chunk; cbv beta iota;
    repeat match goal with |- context [?a =? ?b] =>
      let r := eval vm_compute in (a =? b) in change (a =? b) with r; cbv iota end.
  Lemma mesh_reads : len bs < 2 ^ 32 -> reads (mesh_load m0 wide) bs loaded.
  Proof.
    intros Hs. destruct E0 as (E1 & E2 & E3 & E4 & E5).
    pose proof Hok as (H1 & H2 & H3 & H4 & H5 & H6 & H7 & H8 & H9 & H10 & H11 & H12 & H13 & H14 & H15 & H16 & H17 & _).
    assert (F : Forall chunk_ok (mesh_chunks ks e2 g m)).
    { apply Forall_forall. intros c Hc. split; [|apply chunk_len in Hc; lia].
      unfold mesh_chunks in Hc. cbn [In] in Hc. repeat destruct Hc as [<-|Hc]; try reflexivity. contradiction. }
    intros pre post HP Hl. unfold mesh_load.
    assert (R : chunk_run (mesh_chunk wide) (0, m0) (mesh_chunks ks e2 g m) (mesh_version g, loaded)).
    2:{ unfold bind. pose proof (read_chunked_run_left _ _ _ _ R pre post HP Hl) as X. cbv beta in X. 
        unfold bs in *. rewrite X. reflexivity. }
    clear pre post HP Hl. unfold mesh_chunks in F |- *.
    assert (Hc : forall c, In c (mesh_chunks ks e2 g m) -> len (snd c) < 2 ^ 32) by (intros c Hc; apply chunk_len in Hc; lia).
    unfold mesh_chunks in Hc.
    pose proof (Forall_inv F) as F1. apply Forall_inv_tail in F. pose proof (Forall_inv F) as F2. apply Forall_inv_tail in F.
    pose proof (Forall_inv F) as F3. apply Forall_inv_tail in F. pose proof (Forall_inv F) as F4. apply Forall_inv_tail in F.
    pose proof (Forall_inv F) as F5. apply Forall_inv_tail in F. pose proof (Forall_inv F) as F6. apply Forall_inv_tail in F.
    pose proof (Forall_inv F) as F7. apply Forall_inv_tail in F. pose proof (Forall_inv F) as F8. clear F Hc.

    eapply run_more; [exact F1 | apply reads_part_of | ]; cbn [fst snd].
    { at_chunk. eapply reads_bind; [apply reads_ushort; destruct g; reflexivity|].
      eapply reads_bind; [apply date_reads, H1|].
      eapply reads_if_last; [apply reads_line_nows; [exact H2 | reflexivity]|]. apply reads_ret. }
    eapply run_more; [exact F2 | apply reads_part_of | ]; cbn [fst snd].
    { at_chunk. eapply reads_bind; [apply aabb_reads, H3|]. eapply reads_if_last; [apply obb_reads, H4|]. apply reads_ret. }
    eapply run_more; [exact F3 | apply reads_part_of | ]; cbn [fst snd].
    { at_chunk. eapply reads_if_last; [apply mats_load_reads; try assumption; apply F3|]. apply reads_ret. }
    eapply run_more; [exact F4 | apply reads_part_of | ]; cbn [fst snd].
    { at_chunk. eapply (lms_reads m ks ks_spec H10 H11 (proj2 F4)
        (bool * (N * mesh)) (fun ts ls => (false, (mesh_version g, with_lightmaps (_ ++ ts) (_ ++ ls) _)))). }
    eapply run_more; [exact F5 | apply reads_part_of | ]; cbn [fst snd].
    { at_chunk. eapply reads_bind.
      { apply reads_uint. apply payload_ok in F5. rewrite len_app, (len_flat_const _ 12) in F5 by apply len_v3. lia. }
      eapply reads_if_last; [|apply reads_ret]. rewrite Forall_forall in H8.
      apply reads_count; [reflexivity|]. intros v Hv. apply vec3_reads, H8, Hv. }
    eapply run_more; [exact F6 | apply reads_part_of | ]; cbn [fst snd].
    { at_chunk. eapply reads_bind.
      { apply reads_uint. apply payload_ok in F6. rewrite len_app in F6.
        pose proof (len_flat_ge feature_enc (me_features m)) as G. 
        assert (len (me_features m) <= len (flat_map feature_enc (me_features m))).
        { apply G. intros f. unfold feature_enc. rewrite !len_app, len_v3. lia. } lia. }
      eapply reads_if_last; [|apply reads_ret]. rewrite Forall_forall in H9.
      apply reads_count; [reflexivity|]. intros f Hf. destruct (H9 f Hf) as (X1 & X2 & X3). unfold feature_load, feature_enc.
      eapply reads_bind; [apply vec2_reads, X1|]. eapply reads_bind; [apply reads_uint, X2|].
      eapply reads_if_last; [apply vec3_reads, X3|]. apply reads_ret_eq. destruct f; reflexivity. }
    eapply run_more; [exact F7 | apply reads_part_of | ]; cbn [fst snd].
    { at_chunk. apply payload_ok in F7. rewrite len_app in F7.
      pose proof (polys_len g (me_vindices m) (me_findices m) (me_geometry m)) as L1.
      pose proof (corners_len g (me_vindices m) (me_findices m) (me_geometry m)) as L2.
      eapply reads_bind; [apply reads_uint; lia|]. cbv beta.
      cbn [with_features with_vertices with_lightmaps with_materials with_boxes with_marker me_geometry me_vindices me_findices].
      rewrite E3, E4, E5.
      rewrite resize_new.
      assert (EN : N.to_nat (len (me_geometry m)) = length (me_geometry m)) by (unfold len; lia). rewrite EN.
      assert (HVF : len (me_vindices m) = len (me_findices m)) by congruence.
      eapply reads_if_last; [apply (polys_reads_all g (me_vindices m) (me_findices m)); try assumption; try lia|].
      cbv beta iota. apply reads_ret. }
    apply run_last; [exact F8|]. cbn [fst snd]. apply reads_part_of. at_chunk. apply reads_ret_eq.
    assert (EM : map (fun l => mkLightmap (len (me_images m0) + lm_image l) (lm_normal_a l) (lm_normal_b l) (lm_origin l))
                   (map (placed ks) (me_lightmaps m)) = map (placed ks) (me_lightmaps m)).
    { rewrite map_map, E1. apply map_ext. intros l. reflexivity. }
    cbn [with_marker with_boxes with_materials me_images me_lightmaps]. rewrite EM, E1, E2. reflexivity.
  Qed.

  Lemma loaded_same : same_mesh m loaded.
  Proof.
    pose proof Hok as (_ & _ & _ & _ & _ & _ & _ & _ & _ & H10 & H11 & _).
    unfold same_mesh, loaded, same_lightmaps. repeat split; cbn [me_images me_lightmaps].
    - apply forall2_map. intros l Hl. repeat split. cbn [placed lm_image].
      rewrite Forall_forall in H11. destruct (H11 l Hl) as (_ & _ & _ & Hi).
      exists (image_at m (lm_image l)). split; [apply nth_N_some, Hi|].
      rewrite nth_N_error. apply map_nth_error. rewrite <- nth_N_error. apply place_at, ks_spec, in_map, Hl.
    - intros E. rewrite nth_N_error in H, H0, H1, H2. cbn [me_lightmaps] in *.
      rewrite (map_nth_error _ _ _ H) in H1. rewrite (map_nth_error _ _ _ H0) in H2.
      injection H1 as <-. injection H2 as <-. cbn [placed lm_image]. congruence.
    - intros E. rewrite nth_N_error in H, H0, H1, H2. cbn [me_lightmaps] in *.
      pose proof (nth_error_In _ _ H) as I1. pose proof (nth_error_In _ _ H0) as I2.
      rewrite (map_nth_error _ _ _ H) in H1. rewrite (map_nth_error _ _ _ H0) in H2.
      injection H1 as <-. injection H2 as <-. cbn [placed lm_image] in E.
      apply (place_inj _ _ ks); [apply ks_spec, in_map, I1 | apply ks_spec, in_map, I2 | exact E].
  Qed.
End MeshFile.

Lemma mesh_round_trip order e1 e2 g m wide m0 : some_order order -> env_ok e2 ->
  len (we_date e1) = len (we_date e2) -> len (we_user e1) = len (we_user e2) ->
  mesh_ok g m -> (g = G1 -> wide = false) ->
  me_images m0 = [] -> me_lightmaps m0 = [] -> me_geometry m0 = [] -> me_vindices m0 = [] -> me_findices m0 = [] ->
  exists bs, writes (mesh_save order e1 e2 g m) bs /\
    (len bs < 2 ^ 32 -> exists m', reads (mesh_load m0 wide) bs m' /\ same_mesh m m').
Proof.
  intros Ho He Hd Hu Hok Hw E1 E2 E3 E4 E5. eexists. split; [apply mesh_writes; assumption|].
  intros Hl. eexists. split; [eapply mesh_reads; try eassumption; auto | eapply loaded_same; eassumption].
Qed.

(** Every section but the materials: reading it ends. *)
Lemma own_lightmaps_ends n : forall base, ends (own_lightmaps n base).
Proof.
  induction n as [|n IH]; intros base; cbn [own_lightmaps]; [apply ends_forward, fw_ret|].
  esteps; first [apply IH | apply ends_forward, tex_forward].
Qed.
Lemma vec3_at s : r_ok s -> exists v, read_vec3 s = Ret (v, mkR (rdata s) (N.min (rpos s + 12) (len (rdata s)))).
Proof.
  intros Hs. unfold read_vec3. unfold bind. destruct (rd_fixed_safe 12 s Hs ltac:(discriminate)) as [b ->].
  unfold ret. eexists. reflexivity.
Qed.
Lemma ushort_end d : len d < max_size -> read_ushort (mkR d (len d)) = Ret (0, mkR d (len d)).
Proof.
  intros Hl. unfold read_ushort, rd_fixed. unfold bind at 1 2.
  rewrite rd_read_spec; cbn [rdata rpos]; [|split; cbn [rdata rpos]; lia | pows; lia].
  rewrite N.sub_diag. change (N.min 2 0) with 0. rewrite take_0, N.add_0_r. reflexivity.
Qed.
Lemma ef_repM {A} d lim n (m : rd A) : ends_from d lim m -> ends_from d lim (repM n m).
Proof.
  intros H. induction n as [|n IH]; cbn [repM]; [apply ef_ends, ends_forward, fw_ret|].
  apply ef_bind; [exact H|]. intros a. apply ef_bind; [exact IH|]. intros. apply ef_ends, ends_forward, fw_ret.
Qed.
Lemma obb_f_ends : forall fuel d lim, (N.to_nat (len d - lim) < fuel)%nat -> ends_from d lim (obb_load_f fuel).
Proof.
  induction fuel as [|fuel IH]; intros d lim Hf s Hs Hd Hlim; [lia|]. cbn [obb_load_f].
  unfold bind at 1. destruct (vec3_at s Hs) as [c ->]. rewrite Hd in *.
  set (s1 := mkR d (N.min (rpos s + 12) (len d))).
  assert (Hs1 : r_ok s1) by (destruct Hs; rewrite Hd in *; split; cbn [s1 rdata rpos]; lia).
  destruct (N.eq_dec (rpos s) (len d)) as [He|Hne].
  - assert (E1 : s1 = mkR d (len d)) by (unfold s1; f_equal; lia). rewrite E1.
    assert (Hx : r_ok (mkR d (len d))) by (rewrite <- E1; exact Hs1).
    assert (Em : N.min (len d + 12) (len d) = len d) by lia.
    do 4 (unfold bind at 1; destruct (vec3_at _ Hx) as [? ->]; cbn [rdata rpos]; rewrite Em).
    unfold bind at 1. rewrite ushort_end by apply Hx. cbn [N.to_nat repM].
    change (N.to_nat 0) with O. cbn [repM]. unfold bind, ret. cbn [rdata rpos]. split; [reflexivity|]. split; [exact Hx|]. lia.
  - assert (Hlt : rpos s < rpos s1) by (destruct Hs; rewrite Hd in *; cbn [s1 rpos]; lia).
    assert (Hle : rpos s1 <= len d) by (apply Hs1).
    match goal with |- match ?r s1 with _ => _ end => assert (R : ends_from d (rpos s1) r) end.
    { assert (IH' : ends_from d (rpos s1) (obb_load_f fuel)) by (apply IH; lia).
      repeat first [efstep | apply ef_repM]; apply IH'. }
    specialize (R s1 Hs1 eq_refl ltac:(lia)).
    match goal with |- match ?r s1 with _ => _ end => destruct (r s1) as [[r' s']| | |] end; try exact R.
    destruct R as (R1 & R2 & R3). split; [exact R1|]. split; [exact R2|]. lia.
Qed.
Lemma obb_ends : ends obb_load.
Proof. intros s Hs. apply (obb_f_ends _ (rdata s) (rpos s)); [lia | exact Hs | reflexivity | lia]. Qed.
Lemma corner_forward w : forward (corner_load w).
Proof. unfold corner_load. destruct w; fsteps. Qed.
Lemma polys_ends version wide old : forall off vs fs, ends (polys_load version wide old off vs fs).
Proof.
  induction old as [|p old IH]; intros off vs fs; cbn [polys_load]; [apply ends_forward, fw_ret|].
  unfold flags_load. esteps; first [apply IH | apply ends_forward, corner_forward].
Qed.
Lemma feature_forward : forward feature_load. Proof. unfold feature_load. fsteps. Qed.
Lemma lightmap_ends base n : ends (lightmap_load base n). Proof. unfold lightmap_load. esteps. Qed.
Lemma section_ends wide ty st : ty <> M_MATERIAL -> ends (mesh_chunk wide ty st).
Proof.
  intros Hty. destruct st as [version m]. unfold mesh_chunk.
  destruct (N.eqb_spec ty M_MATERIAL); [congruence|].
  esteps; first [apply obb_ends | apply ends_forward, feature_forward | apply polys_ends | apply ends_forward, tex_forward
                | apply lightmap_ends | apply own_lightmaps_ends | idtac].
Qed.
