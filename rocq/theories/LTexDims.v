From Coq Require Import Lia ZifyN ZifyBool ZifyNat.
From Verif Require Import MBase MStream MTexture MTexDims STexture STexDims LBase LTexture LPixels LDds.
Local Open Scope N_scope.

Lemma dims_exact s t s' level : tex_load tex_new s = Ret (t, s') -> known (tx_format t) -> required_size (tx_format t) (tx_width t) (tx_height t) 0 < 2 ^ 32 ->
  level < tx_count t -> level < 32 -> 2 ^ level <= tx_width t -> 2 ^ level <= tx_height t ->
  (is_dxt (tx_format t) = true -> blocky (tx_width t / 2 ^ level) /\ blocky (tx_height t / 2 ^ level)) ->
  exists w h b, mipmap_width t level = Ret w /\ mipmap_height t level = Ret h /\ tex_data t level = Ret b /\ 0 < w /\ 0 < h /\
    w = tx_width t / 2 ^ level /\ h = tx_height t / 2 ^ level /\ len b = image_bytes (tx_format t) w h.
Proof.
  intros E K R Hl H32 Hw Hh B. apply tex_load_ok in E. destruct (tex_data_loaded t level E Hl) as (b & Eb & Lb).
  assert (P : 2 ^ level <> 0) by (apply N.pow_nonzero; discriminate).
  assert (W : 0 < tx_width t / 2 ^ level) by (apply N.div_str_pos; lia).
  assert (H : 0 < tx_height t / 2 ^ level) by (apply N.div_str_pos; lia).
  assert (Dw : dim (tx_width t) level = tx_width t / 2 ^ level) by (unfold dim; lia).
  assert (Dh : dim (tx_height t) level = tx_height t / 2 ^ level) by (unfold dim; lia).
  exists (tx_width t / 2 ^ level), (tx_height t / 2 ^ level), b. unfold mipmap_width, mipmap_height, shift_dim.
  destruct (N.ltb_spec level 32); [|lia]. do 2 (split; [reflexivity|]). split; [exact Eb|]. split; [exact W|]. split; [exact H|]. do 2 (split; [reflexivity|]).
  rewrite Lb, mipmap_size_required; [unfold required_size, image_bytes; rewrite Dw, Dh; reflexivity|exact K|exact R|rewrite Dw, Dh; exact B].
Qed.
Lemma thin s t s' level : tex_load tex_new s = Ret (t, s') -> known (tx_format t) -> required_size (tx_format t) (tx_width t) (tx_height t) 0 < 2 ^ 32 ->
  level < tx_count t -> level < 32 -> tx_width t < 2 ^ level \/ tx_height t < 2 ^ level ->
  (mipmap_width t level = Ret 0 \/ mipmap_height t level = Ret 0) /\ exists b, tex_data t level = Ret b /\ 0 < len b.
Proof.
  intros E K R Hl H32 Hd. apply tex_load_ok in E. destruct (tex_data_loaded t level E Hl) as (b & Eb & Lb). split.
  - unfold mipmap_width, mipmap_height, shift_dim. destruct (N.ltb_spec level 32); [|lia].
    destruct Hd as [Hd|Hd]; [left|right]; rewrite N.div_small by exact Hd; reflexivity.
  - exists b. split; [exact Eb|]. rewrite Lb. apply mipmap_size_pos; assumption.
Qed.
Lemma rgba_empty sq src w h fmt : fmt < P8 -> fmt <> A1R5G5B5 -> w * h = 0 -> to_rgba sq src w h fmt = Ret [].
Proof.
  intros Hf Hne Hn. unfold to_rgba. rewrite Hn. unfold P8, A1R5G5B5 in *.
  assert (fmt = 0 \/ fmt = 1 \/ fmt = 2 \/ fmt = 3 \/ fmt = 4 \/ fmt = 5 \/ fmt = 6 \/ fmt = 8) as C by lia. clear Hf Hne.
  destruct C as [-> | [-> | [-> | [-> | [-> | [-> | [-> | ->]]]]]]]; try reflexivity.
  cbn [N.eqb Pos.eqb orb DXT1 DXT3 DXT5 B8G8R8A8 R8G8B8A8]. unfold assign_from. change (u32 (u32 0 * 4)) with 0. destruct (N.leb_spec 0 (len src)); [destruct src; reflexivity|lia].
Qed.
Lemma thin_pixels sq s t s' level : tex_load tex_new s = Ret (t, s') -> tx_format t < P8 -> tx_format t <> A1R5G5B5 ->
  level < tx_count t -> level < 32 -> tx_width t < 2 ^ level \/ tx_height t < 2 ^ level -> as_rgba8 sq t level = Ret [].
Proof.
  intros E Hf Hne Hl H32 Hd. apply tex_load_ok in E. destruct (tex_data_loaded t level E Hl) as (b & Eb & Lb).
  unfold as_rgba8. rewrite Eb. cbn [obind]. unfold shift_dim. destruct (N.ltb_spec level 32); [|lia]. cbn [obind].
  destruct (N.eqb_spec (tx_format t) P8) as [C|_]; [lia|]. apply rgba_empty; [exact Hf|exact Hne|].
  destruct Hd as [Hd|Hd]; rewrite (N.div_small _ _ Hd); [apply N.mul_0_l|apply N.mul_0_r].
Qed.
Lemma missing_level s t s' level : tex_load tex_new s = Ret (t, s') -> tx_count t <= level -> level < 2 ^ 32 -> tex_data t level = Undef.
Proof.
  intros E Hl H32. apply tex_load_ok in E. destruct E as [H1 H2 H3 H4 H5 H6 H7 H8 H9]. unfold tex_data.
  assert (L : len (tx_maps t) = tx_count t).
  { rewrite <- (len_levels_down (tx_count t)). unfold len. f_equal. clear - H9. induction H9 as [|x y l l' _ _ IH]; [reflexivity|]. cbn [length]. rewrite IH. reflexivity. }
  rewrite nth_N_None; [reflexivity|]. rewrite L. unfold u32. change (2 ^ 32) with 4294967296 in *.
  replace (4294967296 + tx_count t - 1) with (tx_count t - 1 + 1 * 4294967296) by lia. rewrite N.mod_add by discriminate. rewrite (N.mod_small (tx_count t - 1)) by lia.
  rewrite (N.mod_small (4294967296 + (tx_count t - 1) - level)) by lia. lia.
Qed.
Lemma deep_level t level : 32 <= level -> mipmap_width t level = Undef /\ mipmap_height t level = Undef.
Proof. intros H. unfold mipmap_width, mipmap_height, shift_dim. destruct (N.ltb_spec level 32); [lia|]. split; reflexivity. Qed.
