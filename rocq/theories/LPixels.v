(** Pixel conversion, texture building and the DDS export. *)

From Coq Require Import Lia ZifyN ZifyBool ZifyNat.
From Verif Require Import MBase MStream SStream MTexture STexture LBase LStream LStreamHist MModel SFormat LBoxes LFormat LTexture.
Local Open Scope N_scope.

(** ** Pixel loops *)
Lemma overwrite_at A z R c d : d < len z -> 
  overwrite (A ++ z ++ R) (len A + d) [c] = A ++ overwrite z d [c] ++ R.
Proof.
  intros H. unfold overwrite. rewrite take_app_r by lia. replace (len A + d - len A) with d by lia.
  rewrite take_app_l by lia. rewrite drop_app_r by (rewrite len_cons, len_nil; lia).
  rewrite len_cons, len_nil. replace (len A + d + (1 + 0) - len A) with (d + 1) by lia.
  rewrite drop_app_l by lia. replace (d + (1 + 0)) with (d + 1) by lia. rewrite <- !app_assoc. reflexivity.
Qed.
Lemma len_overwrite z d c : d < len z -> len (overwrite z d [c]) = len z.
Proof. intros H. unfold overwrite. rewrite !len_app, len_take, len_drop, len_cons, len_nil. lia. Qed.

Lemma pixels_fill body (px : N -> bytes) (k n : N) :
  (forall i A z R, i < n -> len A = i * k -> len z = k -> body i (A ++ z ++ R) = Ret (A ++ px i ++ R)) ->
  (forall i, len (px i) = k) ->
  forall m i A z, len A = i * k -> len z = N.of_nat m * k -> i + N.of_nat m <= n ->
    pixels body i m (A ++ z) = Ret (A ++ flat_map px (map N.of_nat (seq (N.to_nat i) m))).
Proof.
  intros Hb Hk. induction m as [|m IH]; intros i A z HA Hz Hn; cbn [pixels seq map flat_map].
  - assert (z = []) as -> by (apply len_0; lia). reflexivity.
  - rewrite <- (take_drop k z). rewrite Hb; [|lia|exact HA|rewrite len_take; lia]. cbn [obind].
    rewrite app_assoc. rewrite IH.
    + rewrite <- app_assoc. do 3 f_equal; [f_equal; lia|]. do 3 f_equal. lia.
    + rewrite len_app, HA, Hk. lia.
    + rewrite len_drop. lia.
    + lia.
Qed.
Lemma pixels_all body px k n : 
  (forall i A z R, i < n -> len A = i * k -> len z = k -> body i (A ++ z ++ R) = Ret (A ++ px i ++ R)) ->
  (forall i, len (px i) = k) ->
  pixels body 0 (N.to_nat n) (zeros (n * k)) = Ret (flat_map px (map N.of_nat (seq 0 (N.to_nat n)))).
Proof.
  intros Hb Hk. rewrite <- (app_nil_l (zeros (n * k))).
  rewrite (pixels_fill body px k n Hb Hk); [reflexivity | reflexivity | rewrite len_zeros; lia | lia].
Qed.

(** ** Images as lists of pixels *)
Definition quad := (byte * byte * byte * byte)%type.
Definition q4 (q : quad) : bytes := let '(a, b, c, d) := q in [a; b; c; d].
Definition nth_q (l : list quad) (i : N) : quad := nth (N.to_nat i) l (x00, x00, x00, x00).

Lemma quads n : forall px : bytes, length px = (4 * n)%nat -> exists l, px = flat_map q4 l /\ length l = n.
Proof.
  induction n as [|n IH]; intros px H.
  - destruct px; [|discriminate]. exists []. auto.
  - do 4 (destruct px as [|? px]; [cbn [length] in H; lia|]). cbn [length] in H.
    destruct (IH px) as (l & -> & Hl); [lia|]. exists ((b, b0, b1, b2) :: l). cbn [flat_map q4 app length]. split; [reflexivity | lia].
Qed.

Lemma map_flat_seq {A} (f : N -> bytes) (g : A -> bytes) (l : list A) (d : A) :
  (forall i, i < len l -> f i = g (nth (N.to_nat i) l d)) ->
  flat_map f (map N.of_nat (seq 0 (length l))) = flat_map g l.
Proof.
  assert (G : forall l pre, (forall i, i < len (pre ++ l) -> f i = g (nth (N.to_nat i) (pre ++ l) d)) ->
    flat_map f (map N.of_nat (seq (length pre) (length l))) = flat_map g l).
  { clear l. induction l as [|x l IH]; intros pre H; [reflexivity|].
    cbn [length seq map flat_map]. f_equal.
    - rewrite H by (rewrite len_app, len_cons; unfold len; lia).
      f_equal. rewrite Nnat.Nat2N.id, app_nth2 by lia. rewrite Nat.sub_diag. reflexivity.
    - specialize (IH (pre ++ [x])). rewrite app_length in IH. cbn [length] in IH.
      replace (length pre + 1)%nat with (S (length pre)) in IH by lia. apply IH. intros i Hi.
      rewrite <- app_assoc in *. apply H, Hi. }
  intros H. apply (G l []). exact H.
Qed.

Definition comp (q : quad) (s : N) : byte := nth (N.to_nat s) (q4 q) x00.
Lemma elem_q4 l i s : i < len l -> s < 4 -> elem (flat_map q4 l) (i * 4 + s) = Ret (comp (nth_q l i) s).
Proof.
  intros Hi Hs. unfold elem. rewrite nth_N_error.
  assert (E : nth_error (flat_map q4 l) (N.to_nat (i * 4 + s)) = Some (comp (nth_q l i) s)).
  { revert i Hi. induction l as [|[[[a b] c] d] l IH]; intros i Hi; [rewrite len_nil in Hi; lia|].
    rewrite len_cons in Hi. destruct (N.eq_dec i 0) as [->|Hn].
    - unfold nth_q, comp. change (N.to_nat 0) with O. cbn [nth flat_map]. rewrite nth_error_app1 by (cbn [q4 length]; lia).
      assert (s = 0 \/ s = 1 \/ s = 2 \/ s = 3) as [-> | [-> | [-> | ->]]] by lia; reflexivity.
    - replace (N.to_nat (i * 4 + s)) with (4 + N.to_nat ((i - 1) * 4 + s))%nat by lia.
      cbn [flat_map q4 app plus nth_error]. rewrite IH by lia. unfold nth_q.
      replace (N.to_nat i) with (S (N.to_nat (i - 1))) by lia. reflexivity. }
  rewrite E. reflexivity.
Qed.
Definition t3 (q : quad) : bytes := let '(a, b, c, d) := q in [a; b; c].
Lemma elem_t3 l i s : i < len l -> s < 3 -> elem (flat_map t3 l) (i * 3 + s) = Ret (comp (nth_q l i) s).
Proof.
  intros Hi Hs. unfold elem. rewrite nth_N_error.
  assert (E : nth_error (flat_map t3 l) (N.to_nat (i * 3 + s)) = Some (comp (nth_q l i) s)).
  { revert i Hi. induction l as [|[[[a b] c] d] l IH]; intros i Hi; [rewrite len_nil in Hi; lia|].
    rewrite len_cons in Hi. destruct (N.eq_dec i 0) as [->|Hn].
    - unfold nth_q, comp. change (N.to_nat 0) with O. cbn [nth flat_map]. rewrite nth_error_app1 by (cbn [t3 length]; lia).
      assert (s = 0 \/ s = 1 \/ s = 2) as [-> | [-> | ->]] by lia; reflexivity.
    - replace (N.to_nat (i * 3 + s)) with (3 + N.to_nat ((i - 1) * 3 + s))%nat by lia.
      cbn [flat_map t3 app plus nth_error]. rewrite IH by lia. unfold nth_q.
      replace (N.to_nat i) with (S (N.to_nat (i - 1))) by lia. reflexivity. }
  rewrite E. reflexivity.
Qed.

Lemma u32_at i m d : i * m + d < 2 ^ 32 -> u32 (u32 (i * m) + d) = i * m + d.
Proof. intros H. rewrite (u32_small (i * m)) by lia. apply u32_small, H. Qed.

(** One assignment inside the bytes of the current pixel. *)
Lemma set_from_at dm d src sm s i A z R c : len A = i * dm -> d < len z -> i * dm + d < 2 ^ 32 -> i * sm + s < 2 ^ 32 ->
  elem src (i * sm + s) = Ret c ->
  set_from dm d src sm s i (A ++ z ++ R) = Ret (A ++ overwrite z d [c] ++ R).
Proof.
  intros HA Hd H1 H2 E. unfold set_from. rewrite !u32_at by assumption. rewrite E. cbn [obind].
  unfold set_elem. rewrite !len_app. destruct (N.ltb_spec (i * dm + d) (len A + (len z + len R))); [|lia].
  rewrite <- HA, overwrite_at by exact Hd. reflexivity.
Qed.
Lemma set_const_at dm d i A z R c : len A = i * dm -> d < len z -> i * dm + d < 2 ^ 32 ->
  set_const dm d c i (A ++ z ++ R) = Ret (A ++ overwrite z d [c] ++ R).
Proof.
  intros HA Hd H1. unfold set_const. rewrite !u32_at by assumption.
  unfold set_elem. rewrite !len_app. destruct (N.ltb_spec (i * dm + d) (len A + (len z + len R))); [|lia].
  rewrite <- HA, overwrite_at by exact Hd. reflexivity.
Qed.
Lemma len4 (z : bytes) : len z = 4 -> exists a b c d, z = [a; b; c; d].
Proof.
  intros H. do 4 (destruct z as [|? z]; [rewrite ?len_cons, len_nil in H; lia|]).
  destruct z; [eauto 8|]. rewrite !len_cons in H. lia.
Qed.
Lemma len3 (z : bytes) : len z = 3 -> exists a b c, z = [a; b; c].
Proof.
  intros H. do 3 (destruct z as [|? z]; [rewrite ?len_cons, len_nil in H; lia|]).
  destruct z; [eauto 8|]. rewrite !len_cons in H. lia.
Qed.

(** A whole pixel from four (three) components of the source pixel. *)
Lemma body44 l src n (HS : forall i s, i < n -> s < 4 -> elem src (i * 4 + s) = Ret (comp (nth_q l i) s)) s0 s1 s2 s3 :
  n * 4 < 2 ^ 32 -> s0 < 4 -> s1 < 4 -> s2 < 4 -> s3 < 4 ->
  forall i A z R, i < n -> len A = i * 4 -> len z = 4 ->
  seq2 (set_from 4 0 src 4 s0) (seq2 (set_from 4 1 src 4 s1) (seq2 (set_from 4 2 src 4 s2) (set_from 4 3 src 4 s3))) i (A ++ z ++ R) =
  Ret (A ++ [comp (nth_q l i) s0; comp (nth_q l i) s1; comp (nth_q l i) s2; comp (nth_q l i) s3] ++ R).
Proof.
  intros Hn H0 H1 H2 H3 i A z R Hi HA Hz. destruct (len4 z Hz) as (a & b & c & d & ->). unfold seq2.
  rewrite (set_from_at 4 0 src 4 s0 i A _ R (comp (nth_q l i) s0)); [|exact HA|reflexivity|lia|lia|apply HS; assumption]. cbn [obind].
  rewrite (set_from_at 4 1 src 4 s1 i A _ R (comp (nth_q l i) s1)); [|exact HA|reflexivity|lia|lia|apply HS; assumption]. cbn [obind].
  rewrite (set_from_at 4 2 src 4 s2 i A _ R (comp (nth_q l i) s2)); [|exact HA|reflexivity|lia|lia|apply HS; assumption]. cbn [obind].
  rewrite (set_from_at 4 3 src 4 s3 i A _ R (comp (nth_q l i) s3)); [|exact HA|reflexivity|lia|lia|apply HS; assumption]. reflexivity.
Qed.
Lemma body34 l src n (HS : forall i s, i < n -> s < 4 -> elem src (i * 4 + s) = Ret (comp (nth_q l i) s)) s0 s1 s2 :
  n * 4 < 2 ^ 32 -> s0 < 4 -> s1 < 4 -> s2 < 4 ->
  forall i A z R, i < n -> len A = i * 3 -> len z = 3 ->
  seq2 (set_from 3 0 src 4 s0) (seq2 (set_from 3 1 src 4 s1) (set_from 3 2 src 4 s2)) i (A ++ z ++ R) =
  Ret (A ++ [comp (nth_q l i) s0; comp (nth_q l i) s1; comp (nth_q l i) s2] ++ R).
Proof.
  intros Hn H0 H1 H2 i A z R Hi HA Hz. destruct (len3 z Hz) as (a & b & c & ->). unfold seq2.
  rewrite (set_from_at 3 0 src 4 s0 i A _ R (comp (nth_q l i) s0)); [|exact HA|reflexivity|lia|lia|apply HS; assumption]. cbn [obind].
  rewrite (set_from_at 3 1 src 4 s1 i A _ R (comp (nth_q l i) s1)); [|exact HA|reflexivity|lia|lia|apply HS; assumption]. cbn [obind].
  rewrite (set_from_at 3 2 src 4 s2 i A _ R (comp (nth_q l i) s2)); [|exact HA|reflexivity|lia|lia|apply HS; assumption]. reflexivity.
Qed.
Lemma body43 l src n (HS : forall i s, i < n -> s < 3 -> elem src (i * 3 + s) = Ret (comp (nth_q l i) s)) s0 s1 s2 :
  n * 4 < 2 ^ 32 -> s0 < 3 -> s1 < 3 -> s2 < 3 ->
  forall i A z R, i < n -> len A = i * 4 -> len z = 4 ->
  seq2 (set_from 4 0 src 3 s0) (seq2 (set_from 4 1 src 3 s1) (seq2 (set_from 4 2 src 3 s2) (set_const 4 3 xff))) i (A ++ z ++ R) =
  Ret (A ++ [comp (nth_q l i) s0; comp (nth_q l i) s1; comp (nth_q l i) s2; xff] ++ R).
Proof.
  intros Hn H0 H1 H2 i A z R Hi HA Hz. destruct (len4 z Hz) as (a & b & c & d & ->). unfold seq2.
  rewrite (set_from_at 4 0 src 3 s0 i A _ R (comp (nth_q l i) s0)); [|exact HA|reflexivity|lia|lia|apply HS; assumption]. cbn [obind].
  rewrite (set_from_at 4 1 src 3 s1 i A _ R (comp (nth_q l i) s1)); [|exact HA|reflexivity|lia|lia|apply HS; assumption]. cbn [obind].
  rewrite (set_from_at 4 2 src 3 s2 i A _ R (comp (nth_q l i) s2)); [|exact HA|reflexivity|lia|lia|apply HS; assumption]. cbn [obind].
  rewrite (set_const_at 4 3 i A _ R xff); [|exact HA|reflexivity|lia]. reflexivity.
Qed.

Definition swz (s0 s1 s2 s3 : N) (q : quad) : quad := (comp q s0, comp q s1, comp q s2, comp q s3).

Lemma pixels44 l s0 s1 s2 s3 : len l * 4 < 2 ^ 32 -> s0 < 4 -> s1 < 4 -> s2 < 4 -> s3 < 4 ->
  pixels (seq2 (set_from 4 0 (flat_map q4 l) 4 s0) (seq2 (set_from 4 1 (flat_map q4 l) 4 s1)
      (seq2 (set_from 4 2 (flat_map q4 l) 4 s2) (set_from 4 3 (flat_map q4 l) 4 s3)))) 0 (N.to_nat (len l)) (zeros (len l * 4))
  = Ret (flat_map q4 (map (swz s0 s1 s2 s3) l)).
Proof.
  intros Hn H0 H1 H2 H3.
  rewrite (pixels_all _ (fun i => q4 (swz s0 s1 s2 s3 (nth_q l i))) 4 (len l)).
  - f_equal. unfold len at 1. rewrite Nnat.Nat2N.id.
    rewrite (map_flat_seq _ (fun q => q4 (swz s0 s1 s2 s3 q)) l (x00, x00, x00, x00)) by reflexivity.
    rewrite !flat_map_concat_map, map_map. reflexivity.
  - apply (body44 l (flat_map q4 l) (len l)); try assumption. intros i s Hi Hs. apply elem_q4; assumption.
  - intros i. reflexivity.
Qed.
Lemma pixels34 l s0 s1 s2 : len l * 4 < 2 ^ 32 -> s0 < 4 -> s1 < 4 -> s2 < 4 ->
  pixels (seq2 (set_from 3 0 (flat_map q4 l) 4 s0) (seq2 (set_from 3 1 (flat_map q4 l) 4 s1)
      (set_from 3 2 (flat_map q4 l) 4 s2))) 0 (N.to_nat (len l)) (zeros (len l * 3))
  = Ret (flat_map t3 (map (swz s0 s1 s2 0) l)).
Proof.
  intros Hn H0 H1 H2.
  rewrite (pixels_all _ (fun i => t3 (swz s0 s1 s2 0 (nth_q l i))) 3 (len l)).
  - f_equal. unfold len at 1. rewrite Nnat.Nat2N.id.
    rewrite (map_flat_seq _ (fun q => t3 (swz s0 s1 s2 0 q)) l (x00, x00, x00, x00)) by reflexivity.
    rewrite !flat_map_concat_map, map_map. reflexivity.
  - apply (body34 l (flat_map q4 l) (len l)); try assumption. intros i s Hi Hs. apply elem_q4; assumption.
  - intros i. reflexivity.
Qed.
Definition solid (s0 s1 s2 : N) (q : quad) : quad := (comp q s0, comp q s1, comp q s2, xff).
Lemma pixels43 l s0 s1 s2 : len l * 4 < 2 ^ 32 -> s0 < 3 -> s1 < 3 -> s2 < 3 ->
  pixels (seq2 (set_from 4 0 (flat_map t3 l) 3 s0) (seq2 (set_from 4 1 (flat_map t3 l) 3 s1)
      (seq2 (set_from 4 2 (flat_map t3 l) 3 s2) (set_const 4 3 xff)))) 0 (N.to_nat (len l)) (zeros (len l * 4))
  = Ret (flat_map q4 (map (solid s0 s1 s2) l)).
Proof.
  intros Hn H0 H1 H2.
  rewrite (pixels_all _ (fun i => q4 (solid s0 s1 s2 (nth_q l i))) 4 (len l)).
  - f_equal. unfold len at 1. rewrite Nnat.Nat2N.id.
    rewrite (map_flat_seq _ (fun q => q4 (solid s0 s1 s2 q)) l (x00, x00, x00, x00)) by reflexivity.
    rewrite !flat_map_concat_map, map_map. reflexivity.
  - apply (body43 l (flat_map t3 l) (len l)); try assumption. intros i s Hi Hs. apply elem_t3; assumption.
  - intros i. reflexivity.
Qed.
Lemma len_q4 l : len (flat_map q4 l) = len l * 4.
Proof. induction l as [|[[[a b] c] d] l IH]; [reflexivity|]. cbn [flat_map q4 app]. rewrite !len_cons, IH. lia. Qed.

(** ** Conversions that lose nothing *)
Lemma opaque_q4 l : opaque (flat_map q4 l) = flat_map q4 (map (solid 0 1 2) l).
Proof. induction l as [|[[[a b] c] d] l IH]; [reflexivity|]. cbn [flat_map q4 app opaque map solid]. rewrite IH. reflexivity. Qed.


Lemma convert_back sq fmt w h px : lossless fmt -> 4 * (w * h) < 2 ^ 32 -> len px = 4 * (w * h) ->
  exists m, from_rgba px w h fmt = Ret m /\ to_rgba sq m w h fmt = Ret (kept fmt px).
Proof.
  intros Hf Hn Hl.
  destruct (quads (N.to_nat (w * h)) px) as (l & -> & Hq); [unfold len in Hl; lia|].
  rewrite len_q4 in Hl. assert (En : w * h = len l) by lia. clear Hl.
  assert (E1 : u32 (w * h) = len l) by (rewrite u32_small by lia; exact En).
  assert (E4 : u32 (len l * 4) = len l * 4) by (apply u32_small; lia).
  assert (E3 : u32 (len l * 3) = len l * 3) by (apply u32_small; lia).
  destruct Hf as [-> | [-> | [-> | ->]]]; unfold from_rgba, to_rgba, kept; rewrite E1, ?E3, ?E4;
    cbn [N.eqb Pos.eqb orb DXT1 DXT3 DXT5 B8G8R8A8 R8G8B8A8 A8B8G8R8 A8R8G8B8 B8G8R8 R8G8B8 pixel_bytes].
  - unfold assign_from. rewrite len_q4. replace (len l * 4 <=? len l * 4) with true by (symmetry; apply N.leb_le; lia).
    rewrite take_all by (rewrite len_q4; lia). eexists. split; [reflexivity|].
    rewrite len_q4. replace (len l * 4 <=? len l * 4) with true by (symmetry; apply N.leb_le; lia).
    rewrite take_all by (rewrite len_q4; lia). reflexivity.
  - rewrite pixels44 by lia. eexists. split; [reflexivity|].
    replace (len l) with (len (map (swz 3 2 1 0) l)) by apply len_map.
    rewrite pixels44 by (rewrite ?len_map; lia). rewrite map_map. f_equal. f_equal.
    rewrite <- (map_id l) at 2. apply map_ext. intros [[[a b] c] d]. reflexivity.
  - rewrite pixels34 by lia. eexists. split; [reflexivity|].
    replace (len l) with (len (map (swz 2 1 0 0) l)) by apply len_map.
    rewrite pixels43 by (rewrite ?len_map; lia). rewrite map_map, opaque_q4. reflexivity.
  - rewrite pixels34 by lia. eexists. split; [reflexivity|].
    replace (len l) with (len (map (swz 0 1 2 0) l)) by apply len_map.
    rewrite pixels43 by (rewrite ?len_map; lia). rewrite map_map, opaque_q4. reflexivity.
Qed.

Lemma build_back sq fmt w h px : lossless fmt -> 0 < w -> 0 < h -> w < 2 ^ 32 -> h < 2 ^ 32 -> 4 * (w * h) < 2 ^ 32 -> len px = 4 * (w * h) ->
  exists b t, add_mipmap (builder_new w h) px R8G8B8A8 = Ret b /\ build sq b fmt = Ret t /\
    as_rgba8 sq t 0 = Ret (kept fmt px).
Proof.
  intros Hf Hw Hh Hw2 Hh2 Hn Hl. unfold add_mipmap, builder_new. cbn [tb_width tb_height tb_maps].
  assert (Es : mipmap_size R8G8B8A8 w h (u32 (len (@nil (bytes * N)))) = 4 * (w * h)).
  { change (u32 (len [])) with 0. rewrite mipmap_size_fits; unfold known, required_size, raw_size; cbn [is_dxt N.eqb Pos.eqb orb R8G8B8A8 pixel_bytes DXT1 DXT2 DXT3 DXT4 DXT5];
      rewrite ?dim_0; [|discriminate|]; replace (N.max 1 w) with w by lia; replace (N.max 1 h) with h by lia; lia. }
  rewrite Es, Hl, N.eqb_refl.
  destruct (convert_back sq fmt w h px Hf Hn Hl) as (m & E1 & E2).
  do 2 eexists. split; [reflexivity|].
  unfold build. cbn [tb_width tb_height tb_maps app build_maps].
  assert (Ep : fmt =? P8 = false) by (destruct Hf as [-> | [-> | [-> | ->]]]; reflexivity). rewrite Ep.
  unfold shift_dim. cbn [N.ltb N.compare obind]. rewrite N.pow_0_r, !N.div_1_r.
  assert (Ec : convert_format sq px w h R8G8B8A8 fmt = Ret m).
  { unfold convert_format. destruct (N.eqb_spec R8G8B8A8 fmt) as [<-|Hne].
    - rewrite <- E1. unfold from_rgba, assign_from.
      cbn [N.eqb Pos.eqb orb B8G8R8A8 R8G8B8A8].
      change (u32 (len [])) with 0 in Es. rewrite Es. rewrite (u32_small (w * h)) by lia. rewrite u32_small by lia.
      replace (w * h * 4) with (4 * (w * h)) by lia. reflexivity.
    - assert (Et : to_rgba sq px w h R8G8B8A8 = Ret px).
      { unfold to_rgba, assign_from. cbn [N.eqb Pos.eqb orb B8G8R8A8 R8G8B8A8 DXT1 DXT3 DXT5].
        rewrite (u32_small (w * h)) by lia. rewrite u32_small by lia.
        destruct (N.leb_spec (w * h * 4) (len px)); [|lia]. rewrite take_all by lia. reflexivity. }
      rewrite Et. exact E1. }
  rewrite Ec. cbn [obind]. split; [reflexivity|].
  unfold as_rgba8, tex_data. cbn [tx_format tx_palette tx_width tx_height tx_ref_width tx_ref_height tx_count tx_average tx_maps].
  change (u32 (len [(px, R8G8B8A8)])) with 1. change (u32 (2 ^ 32 + u32 (2 ^ 32 + 1 - 1) - 0)) with 0.
  change (nth_N [m] 0) with (Some m). cbn [obind]. unfold shift_dim. cbn [N.ltb N.compare obind].
  rewrite N.pow_0_r, !N.div_1_r. rewrite Ep. exact E2.
Qed.

(** ** Building in the format of the levels *)
Lemma add_all_maps l : forall b b', add_all b l = Ret b' ->
  tb_width b' = tb_width b /\ tb_height b' = tb_height b /\ tb_maps b' = tb_maps b ++ l /\
  forall i m fmt, nth_N l i = Some (m, fmt) ->
    len m = mipmap_size fmt (tb_width b) (tb_height b) (u32 (len (tb_maps b) + i)).
Proof.
  induction l as [|[m fmt] l IH]; intros b b' E; cbn [add_all] in E.
  - injection E as <-. rewrite app_nil_r. repeat split; auto. intros i m fmt Ei. rewrite nth_N_error in Ei. destruct (N.to_nat i); discriminate.
  - unfold add_mipmap in E. destruct (N.eqb_spec (len m) (mipmap_size fmt (tb_width b) (tb_height b) (u32 (len (tb_maps b))))) as [Em|]; [|discriminate].
    cbn [obind] in E. destruct (IH _ _ E) as (H1 & H2 & H3 & H4). cbn [tb_width tb_height tb_maps] in *.
    repeat split; auto.
    + rewrite H3, <- app_assoc. reflexivity.
    + intros i m' fmt' Ei. destruct (N.eq_dec i 0) as [->|Hn].
      * injection Ei as <- <-. rewrite N.add_0_r. exact Em.
      * rewrite nth_N_error in Ei. replace (N.to_nat i) with (S (N.to_nat (i - 1))) in Ei by lia. cbn [nth_error] in Ei.
        rewrite <- nth_N_error in Ei. rewrite (H4 _ _ _ Ei). rewrite len_app, len_cons, len_nil. do 2 f_equal. lia.
Qed.

Lemma mipmap_size_shift fmt w h i : mipmap_size fmt (w / 2 ^ i) (h / 2 ^ i) 0 = mipmap_size fmt w h i.
Proof. unfold mipmap_size. rewrite !level_dim_eq, !dim_shift. reflexivity. Qed.

Lemma build_maps_same sq w h fmt : forall l i,
  (forall k m, nth_N l k = Some m -> len m = mipmap_size fmt w h (u32 (i + k))) -> i + len l <= 32 ->
  build_maps sq w h i fmt (map (fun m => (m, fmt)) l) = Ret l.
Proof.
  induction l as [|m l IH]; intros i Hm Hi; [reflexivity|]. rewrite len_cons in Hi.
  cbn [map build_maps]. unfold shift_dim. destruct (N.ltb_spec i 32); [|lia]. cbn [obind].
  unfold convert_format. rewrite N.eqb_refl, mipmap_size_shift.
  assert (E : len m = mipmap_size fmt w h i).
  { specialize (Hm 0 m eq_refl). rewrite N.add_0_r, u32_small in Hm by (pows; lia). exact Hm. }
  unfold assign_from. rewrite <- E. destruct (N.leb_spec (len m) (len m)); [|lia]. rewrite take_all by lia. cbn [obind].
  rewrite IH; [reflexivity | | lia]. intros k x Hk.
  replace (i + 1 + k) with (i + (k + 1)) by lia. apply Hm. rewrite nth_N_error in *.
  replace (N.to_nat (k + 1)) with (S (N.to_nat k)) by lia. exact Hk.
Qed.

Lemma build_same sq w h fmt l b : fmt <> P8 -> len l <= 32 ->
  add_all (builder_new w h) (map (fun m => (m, fmt)) l) = Ret b ->
  exists t, build sq b fmt = Ret t /\ tx_count t = len l /\ tx_maps t = l.
Proof.
  intros Hf Hl E. apply add_all_maps in E. destruct E as (E1 & E2 & E3 & E4). cbn [builder_new tb_width tb_height tb_maps app] in *.
  unfold build. destruct (N.eqb_spec fmt P8); [congruence|]. rewrite E1, E2, E3. 
  rewrite build_maps_same.
  - cbn [obind]. eexists. split; [reflexivity|]. cbn [tx_count tx_maps]. rewrite len_map. split; [apply u32_small; pows; lia | reflexivity].
  - intros k m Hk. apply E4. rewrite nth_N_error. rewrite nth_N_error in Hk. apply map_nth_error with (f := fun m => (m, fmt)). exact Hk.
  - rewrite N.add_0_l. exact Hl.
Qed.

Lemma build_same_data sq w h fmt l b level : fmt <> P8 -> len l <= 32 -> level < len l ->
  add_all (builder_new w h) (map (fun m => (m, fmt)) l) = Ret b ->
  exists t m, build sq b fmt = Ret t /\ nth_N l (len l - 1 - level) = Some m /\ tex_data t level = Ret m.
Proof.
  intros Hf Hl Hv E. destruct (build_same sq w h fmt l b Hf Hl E) as (t & Et & Ec & Em).
  destruct (nth_N_Some l (len l - 1 - level) ltac:(lia)) as (m & Hm). exists t, m. split; [exact Et|]. split; [exact Hm|].
  unfold tex_data. rewrite Ec, Em, data_index by (pows; lia). rewrite Hm. reflexivity.
Qed.

(** ** DDS *)
Definition dds_words (d : dds) : list N :=
  [124; ds_flags d; ds_height d; ds_width d; ds_pitch d; 0; ds_mips d; 0; 0; 0; 0; 0; 0; 0; 0; 0; 0; 0;
   32; ds_pf_flags d; ds_fourcc d; ds_bits d; ds_rmask d; ds_gmask d; ds_bmask d; ds_amask d; ds_caps1 d; 0; 0; 0; 0].
Lemma writes_uints l : writes (iterM write_uint l) (words_le l).
Proof. apply writes_iter. intros; apply writes_uint. Qed.
Lemma dds_header_writes d : writes (write_dds_header d) (words_le (dds_words d)).
Proof.
  unfold write_dds_header, dds_words.
  eapply writes_cast.
  { do 7 (eapply writes_seq; [apply writes_uint|]). eapply writes_seq; [apply writes_uints|].
    do 12 (eapply writes_seq; [apply writes_uint|]). apply writes_uint. }
  cbn [repeat]. unfold words_le. cbn [flat_map]. rewrite <- !app_assoc, app_nil_r. reflexivity.
Qed.
Lemma writes_levels t c ms : Forall2 (fun l m => tex_data t l = Ret m) c ms ->
  writes (iterM (fun l => bind (lift (tex_data t l)) (fun d => wr_write d)) c) (concat ms).
Proof.
  intros H. induction H as [|l m c ms E H IH]; cbn [iterM concat]; [apply writes_ret|].
  apply writes_seq; [|exact IH]. intros st Hp Hl. unfold bind, lift. rewrite E. apply writes_raw; assumption.
Qed.
Lemma to_dds_eq t ms : tx_count t = len ms ->
  (forall l m, nth_N ms l = Some m -> tex_data t l = Ret m) ->
  let out := lit "DDS " ++ words_le (dds_words (dds_header t)) ++
     (if tx_format t =? P8 then flat_map color_enc (tx_palette t) else []) ++ concat ms in
  len out < max_size -> to_dds t = Ret out.
Proof.
  intros Hc Hd out Hl. unfold to_dds.
  assert (W : writes (bind (write_string (lit "DDS ")) (fun _ => bind (write_dds_header (dds_header t)) (fun _ =>
     bind (if tx_format t =? P8 then iterM color_save (tx_palette t) else ret tt) (fun _ => write_dds_data t)))) out).
  { unfold out. apply writes_seq; [apply writes_string|]. apply writes_seq; [apply dds_header_writes|].
    apply writes_seq.
    - destruct (tx_format t =? P8); [apply writes_iter; intros; apply color_writes | apply writes_ret].
    - unfold write_dds_data. apply writes_levels. rewrite Hc. unfold len. rewrite Nnat.Nat2N.id.
      assert (G : forall ms k, (forall l m, nth_N ms l = Some m -> tex_data t (N.of_nat k + l) = Ret m) ->
         Forall2 (fun l m => tex_data t l = Ret m) (map N.of_nat (seq k (length ms))) ms).
      { clear. induction ms as [|m ms IH]; intros k H; cbn [length seq map]; constructor.
        - specialize (H 0 m eq_refl). rewrite N.add_0_r in H. exact H.
        - apply IH. intros l x Hx. replace (N.of_nat (S k) + l) with (N.of_nat k + (l + 1)) by lia. apply H.
          rewrite nth_N_error in *. replace (N.to_nat (l + 1)) with (S (N.to_nat l)) by lia. exact Hx. }
      apply G. intros l m Hm. apply Hd, Hm. }
  rewrite (W w_empty eq_refl); [reflexivity|]. cbn [w_empty wbuf]. rewrite len_nil. exact Hl.
Qed.
