(** Lemmas used by PropertiesStream only: refutation witnesses and small corollaries. *)

From Coq Require Import QArith QArith.Qminmax Lqa.
From Verif Require Import MBase MStream MZipped MBoxes SStream SZipped SBoxes
  LBase LStream LStreamHist LZipped LBoxes.
Local Open Scope N_scope.

Lemma reader_wraps : exists os data, Forall arg_ok os /\ mapM r_step os (r_from data) = Undef.
Proof.
  exists [ORead 1; ORead (2 ^ 64 - 1)], [x01; x02]. split; [|vm_compute; reflexivity].
  repeat (apply Forall_cons; [vm_compute; congruence|]). apply Forall_nil.
Qed.

Lemma static_seek_overflows : exists buf os,
  Forall (fun o => match o with OWSeek off _ => (- 2 ^ 63 <= off < 2 ^ 63)%Z | OWrite b => len b < 2 ^ 64 end) os /\
  mapM s_step os (mkS buf 0) = Undef.
Proof.
  exists [x00; x00], [OWrite [x01]; OWSeek (2 ^ 63 - 1) CUR]. split; [|vm_compute; reflexivity].
  repeat (apply Forall_cons; [vm_compute; try split; congruence|]). apply Forall_nil.
Qed.

Lemma line_round_trip s : no_eol s ->
  exists bs, writes (write_line s) bs /\ bs = s ++ [x0a] /\ reads (read_line false) bs s.
Proof.
  intros H. exists (s ++ [x0a]). split; [apply writes_line|]. split; [reflexivity|].
  apply reads_line_nows; [exact H|reflexivity].
Qed.

Lemma line_any_terminator s c : no_eol s -> c = x0a \/ c = x0d \/ c = x00 ->
  reads (read_line false) (s ++ [c]) s.
Proof. intros H Hc. apply reads_line_nows; [exact H|]. destruct Hc as [->|[->| ->]]; reflexivity. Qed.

Lemma in_chars_In l c : in_chars l c = true <-> (In c l /\ c <> x00).
Proof.
  unfold in_chars. rewrite andb_true_iff, negb_true_iff, existsb_exists. split.
  - intros [H0 (x & Hx & E)]. apply Byte.byte_dec_bl in E. subst x. split; [exact Hx|].
    intros ->. discriminate.
  - intros [H H0]. split.
    + destruct c; try reflexivity. congruence.
    + exists c. split; [exact H|]. apply Byte.byte_dec_lb. reflexivity.
Qed.

Lemma ws_not_nul c : In c ws_chars -> c <> x00.
Proof. intros H ->. cbn in H. repeat destruct H as [H|H]; try discriminate. contradiction. Qed.

Lemma line_skip s run rest pre : no_eol s ->
  Forall (fun c => In c ws_chars) run ->
  (match rest with [] => True | c :: r => ~ In c ws_chars /\ (c = x00 -> r <> []) end) ->
  len (pre ++ s ++ x0a :: run ++ rest) < max_size ->
  read_line true (mkR (pre ++ s ++ x0a :: run ++ rest) (len pre)) =
  Ret (s, mkR (pre ++ s ++ x0a :: run ++ rest) (len pre + len s + 1 + len run)).
Proof.
  intros Hs Hrun Hrest Hl. unfold read_line. apply read_line_skip; auto.
  - discriminate.
  - eapply Forall_impl; [|exact Hrun]. intros c H. apply in_chars_In. split; [exact H|apply ws_not_nul, H].
  - destruct rest as [|c r]; [exact I|]. destruct Hrest as [H1 H2]. split; [|exact H2].
    destruct (in_chars ws_chars c) eqn:E; [|reflexivity]. apply in_chars_In in E. tauto.
Qed.

Lemma line_skip_swallows_nul : exists s run rest, no_eol s /\
  Forall (fun c => In c ws_chars) run /\ (match rest with [] => True | c :: _ => ~ In c ws_chars end) /\
  read_line true (r_from (s ++ x0a :: run ++ rest)) <>
  Ret (s, mkR (s ++ x0a :: run ++ rest) (len s + 1 + len run)).
Proof.
  exists (lit "ab"), [x20], [x00]. split; [repeat constructor; cbn; discriminate|].
  split; [repeat constructor|]. split; [cbn; intuition congruence|].
  intros H. vm_compute in H. discriminate.
Qed.

Lemma rd_fixed_forward n s : r_ok s -> n <= 2 ^ 63 ->
  exists b s', rd_fixed n s = Ret (b, s') /\ rdata s' = rdata s /\ r_ok s' /\ rpos s <= rpos s'.
Proof.
  intros Hs Hn. destruct (rd_fixed_safe n s Hs Hn) as [b E]. exists b. eexists. split; [exact E|].
  destruct Hs as [H1 H2]. unfold r_ok. cbn [rdata rpos]. repeat split; lia || assumption.
Qed.
Lemma read_ubyte_forward s : r_ok s ->
  exists b s', read_ubyte s = Ret (b, s') /\ rdata s' = rdata s /\ r_ok s' /\ rpos s <= rpos s'.
Proof.
  intros Hs. destruct (rd_fixed_forward 1 s Hs) as (b & s' & E & H); [vm_compute; discriminate|].
  unfold read_ubyte, bind. rewrite E. exists (le_dec b), s'. split; [reflexivity|exact H].
Qed.

Lemma collect_forward : cb_forward collect.
Proof.
  intros ty a s Hs. unfold collect. destruct (read_ubyte_forward s Hs) as (b & s' & E & H).
  unfold bind. rewrite E. exact H.
Qed.
Lemma collect_keeps : cb_keeps collect.
Proof.
  intros ty a s r s' Hs. unfold collect. destruct (read_ubyte_forward s Hs) as (b & s1 & E & H1 & H2 & _).
  unfold bind. rewrite E. unfold ret. intros [= <- <-]. split; assumption.
Qed.

Lemma zipped_empty_fails : exists c bs,
  codec_ok c /\ writes (write_zipped c []) bs /\ from_zipped (r_from bs) = Ret None.
Proof.
  exists id_codec, (le_enc 4 0 ++ le_enc 4 8192 ++ le_enc 4 0). split; [|split].
  - intros b Hb. cbn. rewrite N.leb_refl. split; [reflexivity|]. pows. lia.
  - unfold write_zipped. cbn [len length N.of_nat]. change (zip_count 0) with 0. change (u32 0) with 0.
    cbn [N.to_nat seq iterM].
    apply writes_seq; [apply writes_uint|]. apply writes_seq; [apply writes_uint|].
    rewrite <- (app_nil_r (le_enc 4 0)).
    apply writes_seq; [apply writes_uint|]. apply writes_ret.
  - vm_compute. reflexivity.
Qed.

Lemma id_codec_ok : codec_ok id_codec.
Proof. intros b Hb. cbn. rewrite N.leb_refl. split; [reflexivity|]. pows. lia. Qed.

Lemma zipped_seek_differs : exists c data os bs z,
  codec_ok c /\ Forall arg_ok os /\ writes (write_zipped c data) bs /\
  from_zipped (r_from bs) = Ret (Some z) /\
  forall z', mapM (z_step c) os z <> Ret (fst (cursor_run data 0 os), z').
Proof.
  exists id_codec, [x01; x02; x03], [OSeek 4 BEG; OTell].
  eexists (zip_bytes id_codec [x01; x02; x03]), _.
  split; [exact id_codec_ok|]. split; [apply Forall_cons; [vm_compute; split; congruence|]; repeat constructor|].
  split; [apply write_zipped_writes; [exact id_codec_ok | vm_compute; reflexivity]|].
  split; [vm_compute; reflexivity|].
  intros z' H. vm_compute in H. discriminate.
Qed.

Lemma transposes_twice m :
  (length m = 9%nat -> transpose3 (transpose3 m) = m) /\ (length m = 16%nat -> transpose4 (transpose4 m) = m).
Proof. split; [apply transpose3_twice | apply transpose4_twice]. Qed.

Lemma words_le_at l : Forall f32 l -> forall i, (i < length l)%nat ->
  le_dec (take 4 (drop (4 * N.of_nat i) (words_le l))) = nth i l 0.
Proof.
  induction 1 as [|x l Hx Hl IH]; intros i Hi; [cbn in Hi; lia|].
  destruct i as [|i].
  - change (4 * N.of_nat 0) with 0. rewrite drop_0. cbn [words_le flat_map nth].
    rewrite take_app_exact by (rewrite len_le_enc; reflexivity).
    apply le_dec_enc_small. exact Hx.
  - cbn [nth]. rewrite <- IH by (cbn in Hi; lia).
    unfold words_le. cbn [flat_map].
    replace (4 * N.of_nat (S i)) with (len (le_enc 4 x) + 4 * N.of_nat i) by (rewrite len_le_enc; lia).
    rewrite drop_app_r by lia. do 3 f_equal. lia.
Qed.

Lemma matrix_storage m : Forall f32 m ->
  (length m = 9%nat -> exists bs, writes (write_mat3 m) bs /\ reads read_mat3 bs m /\
     forall r c, (r < 3)%nat -> (c < 3)%nat ->
       le_dec (take 4 (drop (4 * (3 * N.of_nat r + N.of_nat c)) bs)) = nth (3 * c + r) m 0) /\
  (length m = 16%nat -> exists bs, writes (write_mat4 m) bs /\ reads read_mat4 bs m /\
     forall r c, (r < 4)%nat -> (c < 4)%nat ->
       le_dec (take 4 (drop (4 * (4 * N.of_nat r + N.of_nat c)) bs)) = nth (4 * c + r) m 0).
Proof.
  intros Hf. split; intros Hlen.
  - eexists. split; [apply writes_mat3|]. split; [apply reads_mat3; assumption|]. intros r c Hr Hc.
    replace (3 * N.of_nat r + N.of_nat c) with (N.of_nat (3 * r + c)) by lia.
    rewrite words_le_at; [|apply transpose3_f32, Hf|cbn; lia].
    do 3 (destruct r as [|r]; [do 3 (destruct c as [|c]; [reflexivity|]); lia|]). lia.
  - eexists. split; [apply writes_mat4|]. split; [apply reads_mat4; assumption|]. intros r c Hr Hc.
    replace (4 * N.of_nat r + N.of_nat c) with (N.of_nat (4 * r + c)) by lia.
    rewrite words_le_at; [|apply transpose4_f32, Hf|cbn; lia].
    do 4 (destruct r as [|r]; [do 4 (destruct c as [|c]; [reflexivity|]); lia|]). lia.
Qed.

(** *** Tightness of the enclosing box *)
Local Open Scope Q_scope.

Lemma fold_min_x o l : forall b (lo : Q), lo <= qx (fst b) -> (forall s, In s l -> lo <= qx (bbox_point o s)) ->
  lo <= qx (fst (fold_left (fun b sg => bbox_add b (bbox_point o sg)) l b)).
Proof.
  induction l as [|s l IH]; intros b lo H1 H2; cbn [fold_left]; [exact H1|].
  apply IH; [|intros; apply H2; right; assumption]. unfold bbox_add; cbn [fst qx].
  apply Q.min_glb; [exact H1|apply H2; left; reflexivity].
Qed.
Lemma fold_min_y o l : forall b (lo : Q), lo <= qy (fst b) -> (forall s, In s l -> lo <= qy (bbox_point o s)) ->
  lo <= qy (fst (fold_left (fun b sg => bbox_add b (bbox_point o sg)) l b)).
Proof.
  induction l as [|s l IH]; intros b lo H1 H2; cbn [fold_left]; [exact H1|].
  apply IH; [|intros; apply H2; right; assumption]. unfold bbox_add; cbn [fst qy].
  apply Q.min_glb; [exact H1|apply H2; left; reflexivity].
Qed.
Lemma fold_min_z o l : forall b (lo : Q), lo <= qz (fst b) -> (forall s, In s l -> lo <= qz (bbox_point o s)) ->
  lo <= qz (fst (fold_left (fun b sg => bbox_add b (bbox_point o sg)) l b)).
Proof.
  induction l as [|s l IH]; intros b lo H1 H2; cbn [fold_left]; [exact H1|].
  apply IH; [|intros; apply H2; right; assumption]. unfold bbox_add; cbn [fst qz].
  apply Q.min_glb; [exact H1|apply H2; left; reflexivity].
Qed.
Lemma fold_max_x o l : forall b (hi : Q), qx (snd b) <= hi -> (forall s, In s l -> qx (bbox_point o s) <= hi) ->
  qx (snd (fold_left (fun b sg => bbox_add b (bbox_point o sg)) l b)) <= hi.
Proof.
  induction l as [|s l IH]; intros b lo H1 H2; cbn [fold_left]; [exact H1|].
  apply IH; [|intros; apply H2; right; assumption]. unfold bbox_add; cbn [snd qx].
  apply Q.max_lub; [exact H1|apply H2; left; reflexivity].
Qed.
Lemma fold_max_y o l : forall b (hi : Q), qy (snd b) <= hi -> (forall s, In s l -> qy (bbox_point o s) <= hi) ->
  qy (snd (fold_left (fun b sg => bbox_add b (bbox_point o sg)) l b)) <= hi.
Proof.
  induction l as [|s l IH]; intros b lo H1 H2; cbn [fold_left]; [exact H1|].
  apply IH; [|intros; apply H2; right; assumption]. unfold bbox_add; cbn [snd qy].
  apply Q.max_lub; [exact H1|apply H2; left; reflexivity].
Qed.
Lemma fold_max_z o l : forall b (hi : Q), qz (snd b) <= hi -> (forall s, In s l -> qz (bbox_point o s) <= hi) ->
  qz (snd (fold_left (fun b sg => bbox_add b (bbox_point o sg)) l b)) <= hi.
Proof.
  induction l as [|s l IH]; intros b lo H1 H2; cbn [fold_left]; [exact H1|].
  apply IH; [|intros; apply H2; right; assumption]. unfold bbox_add; cbn [snd qz].
  apply Q.max_lub; [exact H1|apply H2; left; reflexivity].
Qed.

Lemma signs_all s : In s bbox_signs -> exists s0 s1 s2, s = (s0, s1, s2) /\ is_sign s0 /\ is_sign s1 /\ is_sign s2.
Proof.
  unfold bbox_signs, is_sign. intros H.
  repeat (destruct H as [<-|H]; [do 3 eexists; split; [reflexivity|]; tauto|]). contradiction.
Qed.

Lemma as_bbox_tight o : has_positive_corners o ->
  (forall s0 s1 s2, is_sign s0 -> is_sign s1 -> is_sign s2 -> box_contains float_box (corner o s0 s1 s2)) ->
  box_tight o (as_bbox o).
Proof.
  intros (Hx & Hy & Hz) Hf b' Hb.
  assert (Hp : forall s, In s bbox_signs ->
    box_contains b' (bbox_point o s) /\ box_contains float_box (bbox_point o s)).
  { intros s Hs. destruct (signs_all s Hs) as (s0 & s1 & s2 & -> & H0 & H1 & H2).
    destruct (bbox_point_corner o s0 s1 s2) as (Ex & Ey & Ez).
    pose proof (Hb _ _ _ H0 H1 H2) as A. pose proof (Hf _ _ _ H0 H1 H2) as B.
    unfold box_contains in *. rewrite Ex, Ey, Ez. split; assumption. }
  assert (H1 : is_sign 1) by (left; reflexivity).
  pose proof (Hb 1 1 1 H1 H1 H1) as (Bx & By & Bz). pose proof (Hf 1 1 1 H1 H1 H1) as (Fx & Fy & Fz).
  unfold float_box in Fx, Fy, Fz. cbn [fst snd qx qy qz] in Fx, Fy, Fz.
  destruct Hx as (a0 & a1 & a2 & Ha0 & Ha1 & Ha2 & Ha).
  destruct Hy as (b0 & b1 & b2 & Hb0 & Hb1 & Hb2 & Hbb).
  destruct Hz as (c0 & c1 & c2 & Hc0 & Hc1 & Hc2 & Hc).
  pose proof (Hb _ _ _ Ha0 Ha1 Ha2) as (Ax & _). pose proof (Hb _ _ _ Hb0 Hb1 Hb2) as (_ & Ay & _).
  pose proof (Hb _ _ _ Hc0 Hc1 Hc2) as (_ & _ & Az).
  unfold as_bbox. repeat split.
  - apply fold_min_x; [cbn [fst qx]; eapply Qle_trans; [apply Bx|apply Fx]|].
    intros s Hs. apply (proj1 (Hp s Hs)).
  - apply fold_min_y; [cbn [fst qy]; eapply Qle_trans; [apply By|apply Fy]|].
    intros s Hs. apply (proj1 (Hp s Hs)).
  - apply fold_min_z; [cbn [fst qz]; eapply Qle_trans; [apply Bz|apply Fz]|].
    intros s Hs. apply (proj1 (Hp s Hs)).
  - apply fold_max_x; [cbn [snd qx]; eapply Qle_trans; [apply Ha|apply Ax]|].
    intros s Hs. apply (proj1 (Hp s Hs)).
  - apply fold_max_y; [cbn [snd qy]; eapply Qle_trans; [apply Hbb|apply Ay]|].
    intros s Hs. apply (proj1 (Hp s Hs)).
  - apply fold_max_z; [cbn [snd qz]; eapply Qle_trans; [apply Hc|apply Az]|].
    intros s Hs. apply (proj1 (Hp s Hs)).
Qed.

Lemma unit_obb_positive : has_positive_corners unit_obb.
Proof.
  assert (H1 : is_sign 1) by (left; reflexivity).
  repeat split; exists 1, 1, 1; repeat (split; [exact H1|]); vm_compute; discriminate.
Qed.

Lemma as_bbox_not_tight : exists o,
  (forall s0 s1 s2, is_sign s0 -> is_sign s1 -> is_sign s2 -> box_contains float_box (corner o s0 s1 s2)) /\
  ~ box_tight o (as_bbox o).
Proof.
  exists far_obb. split.
  - intros s0 s1 s2 [->| ->] [->| ->] [->| ->]; vm_compute; repeat split; discriminate.
  - intros H. specialize (H (mkQ3 (-20) (-20) (-20), mkQ3 (-5) (-5) (-5))).
    assert (A : forall s0 s1 s2, is_sign s0 -> is_sign s1 -> is_sign s2 ->
      box_contains (mkQ3 (-20) (-20) (-20), mkQ3 (-5) (-5) (-5)) (corner far_obb s0 s1 s2)).
    { intros s0 s1 s2 [->| ->] [->| ->] [->| ->]; vm_compute; repeat split; discriminate. }
    destruct (H A) as (_ & _ & _ & Hx & _). vm_compute in Hx. apply Hx. reflexivity.
Qed.
