(** Textures. *)

From Coq Require Import Lia ZifyN ZifyBool ZifyNat.
From Verif Require Import MBase MStream SStream MTexture STexture LBase LStream LStreamHist MModel SFormat LBoxes LFormat.
Local Open Scope N_scope.

(** ** Sizes *)
Lemma level_dim_eq x l : level_dim x l = dim x l.
Proof.
  unfold level_dim, dim. induction l as [|l IH] using N.peano_ind.
  - rewrite N.pow_0_r, N.div_1_r. reflexivity.
  - rewrite N.iter_succ, IH, N.pow_succ_r'. unfold halve.
    rewrite N.mul_comm, <- N.div_div by (try discriminate; apply N.pow_nonzero; discriminate).
    generalize (x / 2 ^ l). intros y. destruct (N.ltb_spec 1 (N.max 1 y)); [|].
    + replace (N.max 1 y) with y by lia. pose proof (N.div_le_mono 2 y 2 ltac:(discriminate) ltac:(lia)).
      change (2 / 2) with 1 in H0. lia.
    + assert (y = 0 \/ y = 1) as [-> | ->] by lia; reflexivity.
Qed.

Lemma dim_pos x l : 1 <= dim x l.
Proof. unfold dim. lia. Qed.
Lemma dim_0 x : dim x 0 = N.max 1 x.
Proof. unfold dim. rewrite N.pow_0_r, N.div_1_r. reflexivity. Qed.
Lemma dim_succ x l : dim x (l + 1) <= dim x l.
Proof.
  unfold dim. rewrite N.add_1_r, N.pow_succ_r', N.mul_comm, <- N.div_div by (try discriminate; apply N.pow_nonzero; discriminate).
  generalize (x / 2 ^ l). intros y. pose proof (N.div_le_upper_bound y 2 y ltac:(discriminate)). lia.
Qed.
Lemma dim_le x l : dim x l <= dim x 0.
Proof. induction l as [|l IH] using N.peano_ind; [lia|]. rewrite <- N.add_1_r. pose proof (dim_succ x l). lia. Qed.
Lemma dim_shift x i : dim (x / 2 ^ i) 0 = dim x i.
Proof. rewrite dim_0. reflexivity. Qed.

Lemma blocks_pos x : 1 <= x -> 1 <= blocks x.
Proof.
  intros H. unfold blocks. pose proof (N.div_le_mono 4 (x + 3) 4 ltac:(discriminate) ltac:(lia)). change (4 / 4) with 1 in H0. lia. Qed.
Lemma blocks_mono x y : x <= y -> blocks x <= blocks y.
Proof. intros H. unfold blocks. apply N.div_le_mono; [discriminate | lia]. Qed.
Lemma quarter_le x : 1 <= x -> N.max 1 (x / 4) <= blocks x.
Proof.
  intros H. pose proof (blocks_pos x H). unfold blocks in *.
  pose proof (N.div_le_mono x (x + 3) 4 ltac:(discriminate) ltac:(lia)). lia. Qed.
Lemma quarter_blocky x : 1 <= x -> blocky x -> N.max 1 (x / 4) = blocks x.
Proof.
  intros H1 [H|H]; unfold blocks.
  - assert (x = 1 \/ x = 2 \/ x = 3 \/ x = 4) as [-> | [-> | [-> | ->]]] by lia; reflexivity.
  - pose proof (N.div_mod x 4 ltac:(discriminate)) as D. rewrite H, N.add_0_r in D.
    assert (E : (x + 3) / 4 = x / 4).
    { rewrite D at 1. rewrite N.mul_comm, N.div_add_l by discriminate. change (3 / 4) with 0. lia. }
    rewrite E. lia.
Qed.

(** The eight formats cases, by number. *)
Ltac formats H := 
  match type of H with known ?f =>
    let E := fresh "E" in
    assert (E : In f [0;1;2;3;4;5;6;7;8;9;10;11;12;13;14])
      by (unfold known, DXT5 in H; cbn [In]; lia);
    cbn [In] in E; repeat (destruct E as [E|E]; [subst f|]); [..|destruct E]
  end.

(** What the library computes, without wrap-around. *)
Definition raw_size (fmt w h level : N) : N :=
  if is_dxt fmt then N.max 1 (dim w level / 4) * N.max 1 (dim h level / 4) * block_bytes fmt
  else dim w level * dim h level * pixel_bytes fmt.

Lemma u32_mul a b c : a <= a * b -> u32 (u32 (a * c) * b) = u32 (a * c * b).
Proof. intros _. unfold u32. rewrite N.mul_mod_idemp_l by discriminate. reflexivity. Qed.
Lemma mipmap_size_raw fmt w h l : known fmt -> mipmap_size fmt w h l = u32 (raw_size fmt w h l).
Proof.
  intros H. unfold mipmap_size, raw_size. rewrite !level_dim_eq.
  formats H; cbn [is_dxt N.eqb Pos.eqb orb DXT1 DXT2 DXT3 DXT4 DXT5 B8G8R8A8 R8G8B8A8 A8B8G8R8 A8R8G8B8 B8G8R8 R8G8B8 A4R4G4B4 A1R5G5B5 R5G6B5 P8 pixel_bytes block_bytes];
    unfold u32; rewrite ?N.mul_mod_idemp_l by discriminate; rewrite ?N.mul_1_r; reflexivity.
Qed.
Lemma raw_le_required fmt w h l : raw_size fmt w h l <= required_size fmt w h l.
Proof.
  unfold raw_size, required_size. destruct (is_dxt fmt); [|lia].
  apply N.mul_le_mono_r. apply N.mul_le_mono; apply quarter_le, dim_pos.
Qed.
Lemma required_le fmt w h l : required_size fmt w h l <= required_size fmt w h 0.
Proof.
  unfold required_size. destruct (is_dxt fmt); apply N.mul_le_mono_r; apply N.mul_le_mono;
    try apply blocks_mono; apply dim_le.
Qed.
Lemma mipmap_size_fits fmt w h l : known fmt -> required_size fmt w h 0 < 2 ^ 32 ->
  mipmap_size fmt w h l = raw_size fmt w h l.
Proof.
  intros H F. rewrite mipmap_size_raw by exact H. apply u32_small.
  pose proof (raw_le_required fmt w h l). pose proof (required_le fmt w h l). lia.
Qed.
Lemma mipmap_size_required fmt w h l : known fmt -> required_size fmt w h 0 < 2 ^ 32 ->
  (is_dxt fmt = true -> blocky (dim w l) /\ blocky (dim h l)) ->
  mipmap_size fmt w h l = required_size fmt w h l.
Proof.
  intros H F B. rewrite mipmap_size_fits by assumption. unfold raw_size, required_size.
  destruct (is_dxt fmt); [|reflexivity]. destruct B as [B1 B2]; [reflexivity|].
  rewrite !quarter_blocky by (assumption || apply dim_pos). reflexivity.
Qed.
Lemma mipmap_size_pos fmt w h l : known fmt -> required_size fmt w h 0 < 2 ^ 32 -> 0 < mipmap_size fmt w h l.
Proof.
  intros H F. rewrite mipmap_size_fits by assumption. unfold raw_size, block_bytes.
  pose proof (dim_pos w l). pose proof (dim_pos h l).
  destruct (is_dxt fmt); repeat apply N.mul_pos_pos; try lia.
  - destruct (fmt =? DXT1); lia.
  - formats H; reflexivity.
Qed.
Lemma mipmap_size_mono fmt w h l : known fmt -> required_size fmt w h 0 < 2 ^ 32 ->
  mipmap_size fmt w h (l + 1) <= mipmap_size fmt w h l.
Proof.
  intros H F. rewrite !mipmap_size_fits by assumption. unfold raw_size.
  pose proof (dim_succ w l). pose proof (dim_succ h l).
  assert (Q : forall a b, a <= b -> N.max 1 (a / 4) <= N.max 1 (b / 4)).
  { intros a b Hab. pose proof (N.div_le_mono a b 4 ltac:(discriminate) Hab). lia. }
  destruct (is_dxt fmt); apply N.mul_le_mono_r; apply N.mul_le_mono; auto.
Qed.
Lemma mipmap_size_bound fmt w h l : mipmap_size fmt w h l < 2 ^ 32.
Proof.
  unfold mipmap_size, u32.
  repeat match goal with |- context [if ?c then _ else _] => destruct c end; try reflexivity;
    apply N.mod_lt; discriminate.
Qed.
Lemma blocky_pow a l : blocky (dim (2 ^ a) l).
Proof.
  unfold dim, blocky. destruct (N.le_gt_cases l a) as [Hl|Hl].
  - replace a with (l + (a - l)) by lia. rewrite N.pow_add_r, N.mul_comm, N.div_mul by (apply N.pow_nonzero; discriminate).
    pose proof (pow2_pos (a - l)). replace (N.max 1 (2 ^ (a - l))) with (2 ^ (a - l)) by lia.
    destruct (N.le_gt_cases (a - l) 2) as [Hs|Hs].
    + left. pose proof (N.pow_le_mono_r 2 (a - l) 2 ltac:(discriminate) Hs). exact H0.
    + right. replace (a - l) with (2 + (a - l - 2)) by lia. rewrite N.pow_add_r. change (2 ^ 2) with 4.
      rewrite N.mul_comm. apply N.mod_mul. discriminate.
  - left. rewrite N.div_small; [cbn; lia|]. apply N.pow_lt_mono_r; lia.
Qed.

(** ** Saving and loading *)
Lemma reads_mapM {A B} (f : A -> rd B) (enc : B -> bytes) la lb :
  Forall2 (fun a b => reads (f a) (enc b) b) la lb -> reads (mapM f la) (flat_map enc lb) lb.
Proof.
  intros H. induction H as [|a b la lb H HF IH]; cbn [mapM flat_map]; [apply reads_ret|].
  eapply reads_bind; [exact H|]. rewrite <- (app_nil_r (flat_map enc lb)).
  eapply reads_bind; [exact IH|]. apply reads_ret.
Qed.

Lemma color_writes c : writes (color_save c) (color_enc c).
Proof. unfold color_save, color_enc. wsteps. Qed.
Lemma color_reads c : color_ok c -> reads color_load (color_enc c) c.
Proof. intros (H1 & H2 & H3 & H4). unfold color_load, color_enc. rsteps. rdone. Qed.

Record tex_ok (t : texture) : Prop := {
  to_format : tx_format t < 2 ^ 32;
  to_width : tx_width t < 2 ^ 32;
  to_height : tx_height t < 2 ^ 32;
  to_rw : tx_ref_width t < 2 ^ 32;
  to_rh : tx_ref_height t < 2 ^ 32;
  to_avg : tx_average t < 2 ^ 32;
  to_count : 1 <= tx_count t < 2 ^ 32;
  to_palette : if tx_format t =? P8 then length (tx_palette t) = 256%nat /\ Forall color_ok (tx_palette t)
               else tx_palette t = tx_palette tex_new;
  to_maps : Forall2 (fun l (m : bytes) => len m = mipmap_size (tx_format t) (tx_width t) (tx_height t) l)
              (levels_down (tx_count t)) (tx_maps t) }.

Definition tex_bytes (t : texture) : bytes :=
  lit "ZTEX" ++ le_enc 4 0 ++ le_enc 4 (tx_format t) ++ le_enc 4 (tx_width t) ++ le_enc 4 (tx_height t) ++
  le_enc 4 (tx_count t) ++ le_enc 4 (tx_ref_width t) ++ le_enc 4 (tx_ref_height t) ++ le_enc 4 (tx_average t) ++
  (if tx_format t =? P8 then flat_map color_enc (tx_palette t) else []) ++ flat_map (fun m => m) (tx_maps t).

Lemma tex_writes t : writes (tex_save t) (tex_bytes t).
Proof.
  unfold tex_save, tex_bytes. do 9 (eapply writes_seq; [solve [eauto with writes]|]).
  apply writes_seq; [|apply writes_iter; intros; apply writes_raw].
  destruct (tx_format t =? P8); [apply writes_iter; intros; apply color_writes | apply writes_ret].
Qed.

Lemma tex_reads t0 t : tex_ok t -> tx_palette t0 = tx_palette tex_new ->
  reads (tex_load t0) (tex_bytes t)
    (mkTex (tx_format t) (tx_palette t) (tx_width t) (tx_height t) (tx_ref_width t) (tx_ref_height t)
       (tx_count t) (tx_average t) (tx_maps t0 ++ tx_maps t)).
Proof.
  intros [H1 H2 H3 H4 H5 H6 H7 H8 H9] E0. unfold tex_load, tex_bytes.
  eapply reads_bind; [apply reads_string_n; reflexivity|]. cbv beta.
  replace (negb (bytes_eqb (lit "ZTEX") (lit "ZTEX"))) with false by reflexivity. cbv iota.
  eapply reads_bind; [apply reads_uint; reflexivity|]. cbv beta.
  replace (negb (0 =? 0)) with false by reflexivity. cbv iota.
  do 3 rstep. eapply reads_bind; [apply reads_uint, H7|]. do 3 rstep. cbv zeta.
  replace (N.max 1 (tx_count t)) with (tx_count t) by lia.
  eapply reads_bind with (a := tx_palette t).
  { destruct (tx_format t =? P8).
    - destruct H8 as [Hl Hc]. rewrite Forall_forall in Hc. apply reads_repM; [symmetry; exact Hl|].
      intros x Hx. apply color_reads, Hc, Hx.
    - rewrite H8, E0. apply reads_ret. }
  cbv beta. rewrite <- (app_nil_r (flat_map _ (tx_maps t))).
  eapply reads_bind; [apply reads_mapM|].
  { clear -H9. induction H9 as [|l m ll ml Hm HF IH]; constructor; [|exact IH]. apply reads_fixed. symmetry. exact Hm. }
  apply reads_ret.
Qed.

(** What the loader makes. *)
Lemma mapM_Forall2 {A B} (f : A -> rd B) (Q : A -> B -> Prop) :
  (forall a s b s', f a s = Ret (b, s') -> Q a b) ->
  forall l s bs s', mapM f l s = Ret (bs, s') -> Forall2 Q l bs.
Proof.
  intros H. induction l as [|a l IH]; intros s bs s' E; cbn [mapM] in E.
  - injection E as <- _. constructor.
  - unfold bind in E. destruct (f a s) as [[b s1]| | |] eqn:E1; try discriminate.
    destruct (mapM f l s1) as [[bs1 s2]| | |] eqn:E2; try discriminate.
    injection E as <- _. constructor; [eapply H, E1 | eapply IH, E2].
Qed.
Lemma repM_Forall {B} (f : rd B) (Q : B -> Prop) :
  (forall s b s', f s = Ret (b, s') -> Q b) ->
  forall n s bs s', repM n f s = Ret (bs, s') -> length bs = n /\ Forall Q bs.
Proof.
  intros H. induction n as [|n IH]; intros s bs s' E; cbn [repM] in E.
  - injection E as <- _. auto.
  - unfold bind in E. destruct (f s) as [[b s1]| | |] eqn:E1; try discriminate.
    destruct (repM n f s1) as [[bs1 s2]| | |] eqn:E2; try discriminate.
    injection E as <- _. destruct (IH _ _ _ E2) as [Hl HF]. cbn [length]. split; [lia|]. constructor; [eapply H, E1 | exact HF].
Qed.
Lemma bind_inv {A B} (m : rd A) (k : A -> rd B) s b s' : bind m k s = Ret (b, s') ->
  exists a s1, m s = Ret (a, s1) /\ k a s1 = Ret (b, s').
Proof. unfold bind. destruct (m s) as [[a s1]| | |]; try discriminate. eauto. Qed.
Lemma rd_read_len n s b s' : rd_read n s = Ret (b, s') -> len b <= n.
Proof.
  unfold rd_read. cbv zeta.
  set (n' := if len (rdata s) <? u64 (rpos s + n) then u64 (2 ^ 64 + len (rdata s) - rpos s) else n).
  destruct (len (rdata s) <? rpos s + n') eqn:E; [discriminate|]. intros E1. injection E1 as <- _.
  rewrite len_take, len_drop.
  destruct (len (rdata s) <? u64 (rpos s + n)) eqn:E2; unfold n' in *; [|lia].
  unfold u64 in *. pose proof (N.mod_le (rpos s + n) (2 ^ 64) ltac:(discriminate)). lia.
Qed.
Lemma rd_fixed_len n s b s' : rd_fixed n s = Ret (b, s') -> len b = n.
Proof.
  intros E. apply bind_inv in E. destruct E as (a & s1 & E1 & E2). injection E2 as <- _.
  apply rd_read_len in E1. unfold pad_to. rewrite len_app, len_zeros. lia.
Qed.
Lemma read_le_bound n s v s' : bind (rd_fixed n) (fun b => ret (le_dec b)) s = Ret (v, s') -> v < 256 ^ n.
Proof.
  intros E. apply bind_inv in E. destruct E as (a & s1 & E1 & E2). injection E2 as <- _.
  apply rd_fixed_len in E1. pose proof (le_dec_bound a). rewrite E1 in H. exact H.
Qed.
Lemma read_uint_bound s v s' : read_uint s = Ret (v, s') -> v < 2 ^ 32.
Proof. apply read_le_bound. Qed.
Lemma read_ushort_bound s v s' : read_ushort s = Ret (v, s') -> v < 2 ^ 16.
Proof. apply read_le_bound. Qed.
Lemma read_ubyte_bound s v s' : read_ubyte s = Ret (v, s') -> v < 2 ^ 8.
Proof. apply read_le_bound. Qed.

Tactic Notation "peel" hyp(E) ident(a) ident(s) ident(H) := apply bind_inv in E; destruct E as (a & s & H & E).

Lemma tex_load_ok s t s' : tex_load tex_new s = Ret (t, s') -> tex_ok t.
Proof.
  unfold tex_load. intros E.
  peel E sig s0 E0. destruct (negb (bytes_eqb sig (lit "ZTEX"))); [discriminate|].
  peel E v s1 E1. destruct (negb (v =? 0)); [discriminate|].
  peel E fmt s2 E2. peel E w s3 E3. peel E h s4 E4. peel E c s5 E5. peel E rw s6 E6. peel E rh s7 E7. peel E avg s8 E8.
  cbv zeta in E. peel E pal s9 E9. peel E maps s10 E10. injection E as <- _.
  constructor; cbn [tx_format tx_palette tx_width tx_height tx_ref_width tx_ref_height tx_count tx_average tx_maps];
    try (eapply read_uint_bound; eassumption).
  - apply read_uint_bound in E5. pows. lia.
  - destruct (fmt =? P8).
    + eapply repM_Forall in E9; [exact E9|]. clear. intros s c s' E. unfold color_load in E.
      peel E b s1 E1. peel E g s2 E2. peel E r s3 E3. peel E a s4 E4. injection E as <- _.
      apply read_ubyte_bound in E1, E2, E3, E4. repeat split; assumption.
    + injection E9 as <- _. reflexivity.
  - change (tx_maps tex_new ++ maps) with maps. eapply mapM_Forall2 in E10; [exact E10|]. cbv beta. intros l t0 b t1 Eb. eapply rd_fixed_len, Eb.
Qed.

Lemma tex_loaded_round_trip s t s' : tex_load tex_new s = Ret (t, s') ->
  exists bs, writes (tex_save t) bs /\ reads (tex_load tex_new) bs t.
Proof.
  intros E. apply tex_load_ok in E. exists (tex_bytes t). split; [apply tex_writes|].
  eapply reads_cast; [apply (tex_reads tex_new t E eq_refl) | reflexivity|]. destruct t; reflexivity.
Qed.

(** Loading into an object that already holds a texture. *)
Lemma tex_load_onto t0 s t s' : tex_load tex_new s = Ret (t, s') ->
  tex_load t0 s = Ret (mkTex (tx_format t) (if tx_format t =? P8 then tx_palette t else tx_palette t0)
     (tx_width t) (tx_height t) (tx_ref_width t) (tx_ref_height t)
     (tx_count t) (tx_average t) (tx_maps t0 ++ tx_maps t), s').
Proof.
  unfold tex_load. intros E.
  peel E sig s0 E0. destruct (negb (bytes_eqb sig (lit "ZTEX"))) eqn:C1; [discriminate|].
  peel E v s1 E1. destruct (negb (v =? 0)) eqn:C2; [discriminate|].
  peel E fmt s2 E2. peel E w s3 E3. peel E h s4 E4. peel E c s5 E5. peel E rw s6 E6. peel E rh s7 E7. peel E avg s8 E8.
  cbv zeta in E. peel E pal s9 E9. peel E maps s10 E10. injection E as <- <-.
  cbn [tx_format tx_palette tx_width tx_height tx_ref_width tx_ref_height tx_count tx_average tx_maps].
  unfold bind. rewrite E0, C1, E1, C2, E2, E3, E4, E5, E6, E7, E8.
  destruct (fmt =? P8) eqn:C3.
  - rewrite E9, E10. reflexivity.
  - unfold ret at 1. injection E9 as <- <-. rewrite E10. reflexivity.
Qed.

(** Accessing the levels of a loaded texture. *)
Lemma levels_down_nth c k : k < c -> nth_N (levels_down c) k = Some (c - 1 - k).
Proof.
  intros H. rewrite nth_N_error. unfold levels_down. rewrite <- map_rev.
  assert (E : nth_error (rev (seq 0 (N.to_nat c))) (N.to_nat k) = Some (N.to_nat (c - 1 - k))).
  { rewrite nth_error_nth' with (d := O) by (rewrite rev_length, seq_length; lia).
    rewrite rev_nth by (rewrite seq_length; lia). rewrite seq_length, seq_nth by lia. f_equal. lia. }
  erewrite map_nth_error by exact E. f_equal. lia.
Qed.
Lemma len_levels_down c : len (levels_down c) = c.
Proof. unfold levels_down. rewrite len_rev, len_map. unfold len. rewrite seq_length. lia. Qed.
Lemma Forall2_nth {A B} (Q : A -> B -> Prop) la lb k a : Forall2 Q la lb -> nth_N la k = Some a ->
  exists b, nth_N lb k = Some b /\ Q a b.
Proof.
  rewrite nth_N_error. intros H. revert k. 
  assert (G : forall k, nth_error la k = Some a -> exists b, nth_error lb k = Some b /\ Q a b).
  { induction H as [|x y la lb Hxy H IH]; intros k E; [destruct k; discriminate|].
    destruct k as [|k]; [injection E as ->; exists y; auto | apply IH, E]. }
  intros k E. destruct (G _ E) as (b & E1 & E2). exists b. rewrite nth_N_error. auto.
Qed.
Lemma Forall2_len {A B} (Q : A -> B -> Prop) la lb : Forall2 Q la lb -> len la = len lb.
Proof. intros H. induction H; [reflexivity|]. rewrite !len_cons, IHForall2. reflexivity. Qed.
Lemma data_index c level : 1 <= c < 2 ^ 32 -> level < c ->
  u32 (2 ^ 32 + u32 (2 ^ 32 + c - 1) - level) = c - 1 - level.
Proof.
  intros H Hl. unfold u32. pows.
  replace (4294967296 + c - 1) with (c - 1 + 1 * 4294967296) by lia. rewrite N.mod_add by discriminate.
  rewrite (N.mod_small (c - 1)) by lia.
  replace (4294967296 + (c - 1) - level) with (c - 1 - level + 1 * 4294967296) by lia. rewrite N.mod_add by discriminate.
  apply N.mod_small. lia.
Qed.
Lemma tex_data_loaded t level : tex_ok t -> level < tx_count t ->
  exists b, tex_data t level = Ret b /\ len b = mipmap_size (tx_format t) (tx_width t) (tx_height t) level.
Proof.
  intros [H1 H2 H3 H4 H5 H6 H7 H8 H9] Hl. unfold tex_data. rewrite data_index by assumption.
  destruct (@Forall2_nth N bytes _ _ _ _ _ H9 (levels_down_nth (tx_count t) (tx_count t - 1 - level) ltac:(lia))) as (b & E & Eb).
  rewrite E. exists b. split; [reflexivity|]. rewrite Eb. f_equal. lia.
Qed.

Lemma tex_forward t : forward (tex_load t).
Proof.
  unfold tex_load. fsteps.
  - apply fw_string. pows. lia.
  - unfold color_load. fsteps.
  - apply fw_mapM. intros l. apply fw_fixed. match goal with |- mipmap_size ?f ?w ?h ?x <= _ => pose proof (mipmap_size_bound f w h x) end. pows. lia.
Qed.
