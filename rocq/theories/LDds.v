(** The DDS header of the 16-bit formats describes the pixels the library decodes. *)

From Coq Require Import Lia ZifyN ZifyBool ZifyNat.
From Verif Require Import MBase MStream SStream MTexture STexture LBase LStream LStreamHist MModel SFormat LBoxes LFormat LTexture LPixels.
Local Open Scope N_scope.

Lemma unmask_eq n k m px : low_zeros 32 m = k -> N.shiftr m k = N.ones n -> unmask m px = (px / 2 ^ k) mod 2 ^ n.
Proof.
  intros H1 H2. unfold unmask. rewrite H1, N.shiftr_land, H2, N.land_ones, N.shiftr_div_pow2. reflexivity.
Qed.
Lemma channel_eq n k m px : m <> 0 -> low_zeros 32 m = k -> N.shiftr m k = N.ones n -> 
  channel m px = ((px / 2 ^ k) mod 2 ^ n) * 255 / (2 ^ n - 1).
Proof.
  intros H0 H1 H2. unfold channel. destruct (N.eqb_spec m 0); [congruence|].
  rewrite (unmask_eq n k) by assumption. unfold mask_max. rewrite H1, H2, N.ones_equiv. do 2 f_equal. lia.
Qed.

Definition pair2 (p : byte * byte) : bytes := [fst p; snd p].
Lemma pairs n : forall px : bytes, length px = (2 * n)%nat -> exists l, px = flat_map pair2 l /\ length l = n.
Proof.
  induction n as [|n IH]; intros px H.
  - destruct px; [|discriminate]. exists []. auto.
  - do 2 (destruct px as [|? px]; [cbn [length] in H; lia|]). cbn [length] in H.
    destruct (IH px) as (l & -> & Hl); [lia|]. exists ((b, b0) :: l). cbn [flat_map pair2 app length fst snd]. split; [reflexivity | lia].
Qed.
Lemma pixels2_pairs l : pixels2 (flat_map pair2 l) = map pair2 l.
Proof. induction l as [|[a b] l IH]; [reflexivity|]. cbn [flat_map pair2 fst snd app pixels2 map]. rewrite IH. reflexivity. Qed.
Lemma len_pair2 l : len (flat_map pair2 l) = len l * 2.
Proof. induction l as [|[a b] l IH]; [reflexivity|]. cbn [flat_map pair2 app]. rewrite !len_cons, IH. lia. Qed.
Definition nth_p (l : list (byte * byte)) (i : N) := nth (N.to_nat i) l (x00, x00).
Lemma elem_pair2 l i s : i < len l -> s < 2 -> 
  elem (flat_map pair2 l) (i * 2 + s) = Ret (if s =? 0 then fst (nth_p l i) else snd (nth_p l i)).
Proof.
  intros Hi Hs. unfold elem. rewrite nth_N_error.
  assert (E : nth_error (flat_map pair2 l) (N.to_nat (i * 2 + s)) = Some (if s =? 0 then fst (nth_p l i) else snd (nth_p l i))).
  { revert i Hi. induction l as [|[a b] l IH]; intros i Hi; [rewrite len_nil in Hi; lia|].
    rewrite len_cons in Hi. destruct (N.eq_dec i 0) as [->|Hn].
    - unfold nth_p. change (N.to_nat 0) with O. cbn [nth flat_map fst snd]. rewrite nth_error_app1 by (cbn [pair2 length]; lia).
      assert (s = 0 \/ s = 1) as [-> | ->] by lia; reflexivity.
    - replace (N.to_nat (i * 2 + s)) with (2 + N.to_nat ((i - 1) * 2 + s))%nat by lia.
      cbn [flat_map pair2 app plus nth_error]. rewrite IH by lia. unfold nth_p.
      replace (N.to_nat i) with (S (N.to_nat (i - 1))) by lia. reflexivity. }
  rewrite E. reflexivity.
Qed.

Lemma set_elem_at i A z R d c : len A = i * 4 -> d < len z -> i * 4 + d < 2 ^ 32 ->
  set_elem (A ++ z ++ R) (u32 (u32 (i * 4) + d)) c = Ret (A ++ overwrite z d [c] ++ R).
Proof.
  intros HA Hd H1. rewrite !u32_at by assumption.
  unfold set_elem. rewrite !len_app. destruct (N.ltb_spec (i * 4 + d) (len A + (len z + len R))); [|lia].
  rewrite <- HA, overwrite_at by exact Hd. reflexivity.
Qed.

Definition px4444 (p : byte * byte) : bytes :=
  [n2b (b2n (snd p) mod 16 * 17); n2b (b2n (fst p) / 16 * 17); n2b (b2n (fst p) mod 16 * 17); n2b (b2n (snd p) / 16 * 17)].
Lemma body4444 l : len l * 4 < 2 ^ 32 -> forall i A z R, i < len l -> len A = i * 4 -> len z = 4 ->
  seq2 (set_nibble 2 (flat_map pair2 l) 0 false) (seq2 (set_nibble 1 (flat_map pair2 l) 0 true)
        (seq2 (set_nibble 0 (flat_map pair2 l) 1 false) (set_nibble 3 (flat_map pair2 l) 1 true))) i (A ++ z ++ R) =
  Ret (A ++ px4444 (nth_p l i) ++ R).
Proof.
  intros Hn i A z R Hi HA Hz. destruct (len4 z Hz) as (a & b & c & d & ->). unfold seq2, set_nibble.
  rewrite !(u32_at i 2) by lia. rewrite !elem_pair2 by (exact Hi || reflexivity). cbn [N.eqb obind].
  rewrite (set_elem_at i A [a; b; c; d] R 2) by (exact HA || reflexivity || lia). cbn [obind].
  rewrite (set_elem_at i A _ R 1) by (exact HA || reflexivity || lia). cbn [obind].
  rewrite (set_elem_at i A _ R 0) by (exact HA || reflexivity || lia). cbn [obind].
  rewrite (set_elem_at i A _ R 3) by (exact HA || reflexivity || lia). reflexivity.
Qed.

Definition word2 (p : byte * byte) : N := b2n (fst p) + 256 * b2n (snd p).
Definition px565 (p : byte * byte) : bytes :=
  [n2b (scale5 (word2 p / 2 ^ 11)); n2b (scale6 (word2 p / 2 ^ 5 mod 2 ^ 6)); n2b (scale5 (word2 p mod 2 ^ 5)); xff].
Lemma body565 l : len l * 4 < 2 ^ 32 -> forall i A z R, i < len l -> len A = i * 4 -> len z = 4 ->
  rgba_of_565 (flat_map pair2 l) i (A ++ z ++ R) = Ret (A ++ px565 (nth_p l i) ++ R).
Proof.
  intros Hn i A z R Hi HA Hz. destruct (len4 z Hz) as (a & b & c & d & ->). unfold rgba_of_565.
  rewrite !(u32_small (i * 2)) by lia.
  replace (elem (flat_map pair2 l) (i * 2)) with (elem (flat_map pair2 l) (i * 2 + 0)) by (rewrite N.add_0_r; reflexivity).
  rewrite !elem_pair2 by (exact Hi || reflexivity). cbn [N.eqb obind]. cbv zeta.
  rewrite (set_elem_at i A [a; b; c; d] R 0) by (exact HA || reflexivity || lia). cbn [obind].
  rewrite (set_elem_at i A _ R 1) by (exact HA || reflexivity || lia). cbn [obind].
  rewrite (set_elem_at i A _ R 2) by (exact HA || reflexivity || lia). cbn [obind].
  rewrite (set_elem_at i A _ R 3) by (exact HA || reflexivity || lia). reflexivity.
Qed.

Lemma to_rgba16 sq fmt w h l px :
  (fmt = A4R4G4B4 /\ px = px4444 \/ fmt = R5G6B5 /\ px = px565) -> w * h = len l -> len l * 4 < 2 ^ 32 ->
  to_rgba sq (flat_map pair2 l) w h fmt = Ret (flat_map px l).
Proof.
  intros Hf Hn Hl. unfold to_rgba. rewrite Hn, (u32_small (len l)) by lia. rewrite (u32_small (len l * 4)) by exact Hl.
  destruct Hf as [[-> ->] | [-> ->]];
  cbn [N.eqb Pos.eqb orb DXT1 DXT3 DXT5 B8G8R8A8 R8G8B8A8 A8B8G8R8 A8R8G8B8 B8G8R8 R8G8B8 A4R4G4B4 R5G6B5].
  - rewrite (pixels_all _ (fun i => px4444 (nth_p l i)) 4 (len l)); [|apply body4444, Hl|reflexivity].
    f_equal. unfold len. rewrite Nnat.Nat2N.id. apply map_flat_seq with (d := (x00, x00)). reflexivity.
  - rewrite (pixels_all _ (fun i => px565 (nth_p l i)) 4 (len l)); [|apply body565, Hl|reflexivity].
    f_equal. unfold len. rewrite Nnat.Nat2N.id. apply map_flat_seq with (d := (x00, x00)). reflexivity.
Qed.

Lemma le_dec_pair p : le_dec (pair2 p) = word2 p.
Proof. unfold pair2, word2. cbn [le_dec]. lia. Qed.

Lemma dds_4444 p : dds_pixel A4R4G4B4 (pair2 p) = px4444 p.
Proof.
  unfold dds_pixel, dds_pixel_format. cbn [N.eqb Pos.eqb B8G8R8A8 R8G8B8A8 A8B8G8R8 A8R8G8B8 B8G8R8 R8G8B8 A4R4G4B4 map].
  rewrite le_dec_pair.
  rewrite (channel_eq 4 8 3840), (channel_eq 4 4 240), (channel_eq 4 0 15), (channel_eq 4 12 61440) by (discriminate || reflexivity).
  unfold px4444. destruct p as [c0 c1]. unfold word2; cbn [fst snd].
  pose proof (b2n_bound c0) as H0. pose proof (b2n_bound c1) as H1.
  change (2 ^ 8) with 256. change (2 ^ 4) with 16. change (2 ^ 0) with 1. change (2 ^ 12) with 4096. change (16 - 1) with 15.
  assert (D : forall v, v * 255 / 15 = v * 17).
  { intros v. replace (v * 255) with (v * 17 * 15) by lia. apply N.div_mul. discriminate. }
  rewrite !D.
  set (a := b2n c0) in *. set (b := b2n c1) in *. clearbody a b.
  assert (E1 : (a + 256 * b) / 256 = b) by (rewrite N.mul_comm, N.div_add, N.div_small by lia; lia).
  assert (E2 : (a + 256 * b) / 16 mod 16 = a / 16).
  { replace (a + 256 * b) with (a + (16 * b) * 16) by lia. rewrite N.div_add by discriminate.
    rewrite (N.mul_comm 16 b), N.mod_add by discriminate. apply N.mod_small. apply N.div_lt_upper_bound; lia. }
  assert (E3 : (a + 256 * b) / 1 mod 16 = a mod 16).
  { rewrite N.div_1_r. replace (a + 256 * b) with (a + (16 * b) * 16) by lia. apply N.mod_add. discriminate. }
  assert (E4 : (a + 256 * b) / 4096 mod 16 = b / 16).
  { change 4096 with (256 * 16). rewrite <- N.div_div by discriminate. rewrite E1. apply N.mod_small. apply N.div_lt_upper_bound; lia. }
  rewrite E1, E2, E3, E4. reflexivity.
Qed.

Fixpoint check_below (f : N -> bool) (n : nat) : bool :=
  match n with O => true | S n' => f (N.of_nat n') && check_below f n' end.
Lemma check_below_ok f n x : check_below f n = true -> x < N.of_nat n -> f x = true.
Proof.
  induction n as [|n IH]; intros H Hx; [lia|]. cbn [check_below] in H. apply andb_true_iff in H. destruct H as [H1 H2].
  destruct (N.eq_dec x (N.of_nat n)) as [->|Hn]; [exact H1 | apply IH; [exact H2 | lia]].
Qed.
Lemma scale5_eq x : x < 32 -> scale5 x = x * 255 / 31.
Proof.
  intros H. apply N.eqb_eq. apply (check_below_ok (fun x => scale5 x =? x * 255 / 31) 32); [vm_compute; reflexivity | exact H].
Qed.
Lemma scale6_eq x : x < 63 -> scale6 x = x * 255 / 63.
Proof.
  intros H. apply N.eqb_eq. apply (check_below_ok (fun x => scale6 x =? x * 255 / 63) 63); [vm_compute; reflexivity | exact H].
Qed.

Lemma dds_565 p : green6 (pair2 p) < 63 -> dds_pixel R5G6B5 (pair2 p) = px565 p.
Proof.
  unfold green6. rewrite le_dec_pair, (unmask_eq 6 5) by reflexivity. intros Hg.
  unfold dds_pixel, dds_pixel_format. cbn [N.eqb Pos.eqb B8G8R8A8 R8G8B8A8 A8B8G8R8 A8R8G8B8 B8G8R8 R8G8B8 A4R4G4B4 A1R5G5B5 R5G6B5 map].
  rewrite le_dec_pair.
  rewrite (channel_eq 5 11 63488), (channel_eq 6 5 2016), (channel_eq 5 0 31) by (discriminate || reflexivity).
  unfold channel at 1. cbn [N.eqb]. unfold px565.
  assert (Hw : word2 p < 65536).
  { unfold word2. pose proof (b2n_bound (fst p)). pose proof (b2n_bound (snd p)). lia. }
  rewrite (scale6_eq _ Hg). rewrite scale5_eq by (apply N.div_lt_upper_bound; [discriminate | exact Hw]).
  rewrite scale5_eq by (apply N.mod_lt; discriminate).
  rewrite N.pow_0_r, N.div_1_r.
  rewrite (N.mod_small (word2 p / 2 ^ 11)) by (apply N.div_lt_upper_bound; [discriminate | exact Hw]).
  reflexivity.
Qed.

Lemma dds_masks sq t level m w h : 
  tx_format t = A4R4G4B4 \/ (tx_format t = R5G6B5 /\ Forall (fun px => green6 px < 63) (pixels2 m)) ->
  tex_data t level = Ret m -> level < 32 -> w = tx_width t / 2 ^ level -> h = tx_height t / 2 ^ level ->
  4 * (w * h) < 2 ^ 32 -> len m = 2 * (w * h) ->
  as_rgba8 sq t level = Ret (flat_map (dds_pixel (tx_format t)) (pixels2 m)).
Proof.
  intros Hf Ed Hl -> -> Hn Hm. unfold as_rgba8, shift_dim. rewrite Ed. cbn [obind].
  destruct (N.ltb_spec level 32); [|lia]. cbn [obind].
  set (w := tx_width t / 2 ^ level) in *. set (h := tx_height t / 2 ^ level) in *.
  destruct (pairs (N.to_nat (w * h)) m) as (l & -> & Hq); [unfold len in Hm; lia|].
  rewrite len_pair2 in Hm. assert (En : w * h = len l) by lia.
  rewrite pixels2_pairs in *.
  destruct Hf as [Hf | [Hf Hg]]; rewrite Hf.
  - replace (A4R4G4B4 =? P8) with false by reflexivity.
    rewrite (to_rgba16 sq A4R4G4B4 w h l px4444); [|left; auto | exact En | lia].
    f_equal. rewrite !flat_map_concat_map, map_map. f_equal. apply map_ext. intros p. symmetry. apply dds_4444.
  - replace (R5G6B5 =? P8) with false by reflexivity.
    rewrite (to_rgba16 sq R5G6B5 w h l px565); [|right; auto | exact En | lia].
    f_equal. rewrite !flat_map_concat_map, map_map. f_equal. apply map_ext_in. intros p Hp. symmetry. apply dds_565.
    rewrite Forall_forall in Hg. apply Hg, in_map, Hp.
Qed.

(** ** Decoding is defined *)
Definition total_body (body : N -> bytes -> outcome bytes) (n k : N) : Prop :=
  forall i conv, i < n -> len conv = k -> exists conv', body i conv = Ret conv' /\ len conv' = k.
Lemma pixels_total body n k : total_body body n k -> forall m i conv, i + N.of_nat m <= n -> len conv = k ->
  exists c, pixels body i m conv = Ret c /\ len c = k.
Proof.
  intros H. induction m as [|m IH]; intros i conv Hi Hc; cbn [pixels]; [eauto|].
  destruct (H i conv ltac:(lia) Hc) as (c & -> & Hc'). cbn [obind]. apply IH; [lia | exact Hc'].
Qed.
Lemma total_seq f g n k : total_body f n k -> total_body g n k -> total_body (seq2 f g) n k.
Proof.
  intros Hf Hg i conv Hi Hc. unfold seq2. destruct (Hf i conv Hi Hc) as (c & -> & Hc'). cbn [obind]. apply Hg; assumption.
Qed.
Lemma elem_total b i : i < len b -> exists c, elem b i = Ret c.
Proof. intros H. unfold elem. destruct (nth_N_Some b i H) as (c & ->). eauto. Qed.
Lemma set_elem_total b i c : i < len b -> exists b', set_elem b i c = Ret b' /\ len b' = len b.
Proof.
  intros H. unfold set_elem. destruct (N.ltb_spec i (len b)); [|lia]. eexists. split; [reflexivity|].
  apply len_overwrite. exact H0.
Qed.
Lemma total_set_from dm d src sm s n k : n * dm < 2 ^ 32 -> n * sm < 2 ^ 32 -> d < dm -> s < sm -> 
  len src = n * sm -> k = n * dm -> total_body (set_from dm d src sm s) n k.
Proof.
  intros H1 H2 Hd Hs Hl -> i conv Hi Hc. unfold set_from.
  assert (Ha : i * dm + dm <= n * dm) by nia. assert (Hb : i * sm + sm <= n * sm) by nia.
  rewrite !u32_at by lia.
  destruct (elem_total src (i * sm + s)) as (c & ->); [lia|]. cbn [obind].
  destruct (set_elem_total conv (i * dm + d) c) as (b' & -> & Hb'); [lia|]. eexists. split; [reflexivity | lia].
Qed.
Lemma total_set_const dm d c n k : n * dm < 2 ^ 32 -> d < dm -> k = n * dm -> total_body (set_const dm d c) n k.
Proof.
  intros H1 Hd -> i conv Hi Hc. unfold set_const. assert (Ha : i * dm + dm <= n * dm) by nia. rewrite !u32_at by lia.
  destruct (set_elem_total conv (i * dm + d) c) as (b' & -> & Hb'); [lia|]. eexists. split; [reflexivity | lia].
Qed.
Lemma total_nibble d src s hi n k : n * 4 < 2 ^ 32 -> d < 4 -> s < 2 -> len src = n * 2 -> k = n * 4 ->
  total_body (set_nibble d src s hi) n k.
Proof.
  intros H1 Hd Hs Hl -> i conv Hi Hc. unfold set_nibble. rewrite !u32_at by lia.
  destruct (elem_total src (i * 2 + s)) as (c & ->); [lia|]. cbn [obind].
  match goal with |- context [set_elem conv _ ?x] => destruct (set_elem_total conv (i * 4 + d) x) as (b' & -> & Hb'); [lia|] end.
  eexists. split; [reflexivity | lia].
Qed.
Lemma total_565 src n k : n * 4 < 2 ^ 32 -> len src = n * 2 -> k = n * 4 -> total_body (rgba_of_565 src) n k.
Proof.
  intros H1 Hl -> i conv Hi Hc. unfold rgba_of_565. rewrite (u32_small (i * 2)) by lia. rewrite !u32_at by lia.
  destruct (elem_total src (i * 2)) as (c0 & ->); [lia|]. cbn [obind].
  destruct (elem_total src (i * 2 + 1)) as (c1 & ->); [lia|]. cbn [obind]. cbv zeta.
  do 3 (match goal with |- context [obind (set_elem ?cv (i * 4 + ?d) ?x) _] =>
    destruct (set_elem_total cv (i * 4 + d) x) as (? & -> & ?); [lia|]; cbn [obind] end).
  match goal with |- context [set_elem ?cv (i * 4 + ?d) ?x] =>
    destruct (set_elem_total cv (i * 4 + d) x) as (? & -> & ?); [lia|] end.
  eexists. split; [reflexivity | lia].
Qed.

Lemma to_rgba_total sq fmt w h src : fmt < P8 -> fmt <> A1R5G5B5 -> 4 * (w * h) < 2 ^ 32 -> len src = w * h * pixel_bytes fmt ->
  exists out, to_rgba sq src w h fmt = Ret out /\ len out = 4 * (w * h).
Proof.
  intros Hf Hne Hn Hl. unfold to_rgba. rewrite (u32_small (w * h)) by lia. rewrite (u32_small (w * h * 4)) by lia.
  set (n := w * h) in *. clearbody n.
  assert (Z : len (zeros (n * 4)) = n * 4) by apply len_zeros.
  assert (T : forall body, total_body body n (n * 4) -> exists out, pixels body 0 (N.to_nat n) (zeros (n * 4)) = Ret out /\ len out = 4 * n).
  { intros body H. destruct (pixels_total body n (n * 4) H (N.to_nat n) 0 (zeros (n * 4))) as (c & E & Hc); [lia | exact Z|].
    exists c. split; [exact E | lia]. }
  unfold P8, A1R5G5B5 in *.
  assert (fmt = 0 \/ fmt = 1 \/ fmt = 2 \/ fmt = 3 \/ fmt = 4 \/ fmt = 5 \/ fmt = 6 \/ fmt = 8) as C by lia. clear Hf Hne.
  destruct C as [-> | [-> | [-> | [-> | [-> | [-> | [-> | ->]]]]]]];
    cbn [N.eqb Pos.eqb orb DXT1 DXT3 DXT5 B8G8R8A8 R8G8B8A8 A8B8G8R8 A8R8G8B8 B8G8R8 R8G8B8 A4R4G4B4 R5G6B5 pixel_bytes] in *;
    try (apply T; repeat apply total_seq; (apply total_set_from || apply total_set_const || apply total_nibble || apply total_565); lia).
  unfold assign_from. destruct (N.leb_spec (n * 4) (len src)); [|lia]. eexists. split; [reflexivity|]. rewrite len_take. lia.
Qed.

(** Decoding any level of a loaded texture in an uncompressed, palette-free format. *)
Lemma as_rgba8_total sq s t s' level w h : tex_load tex_new s = Ret (t, s') -> level < tx_count t -> level < 32 ->
  tx_format t < P8 -> tx_format t <> A1R5G5B5 -> 4 * (tx_width t * tx_height t) < 2 ^ 32 ->
  w = tx_width t / 2 ^ level -> h = tx_height t / 2 ^ level -> 0 < w -> 0 < h ->
  exists out, as_rgba8 sq t level = Ret out /\ len out = 4 * (w * h).
Proof.
  intros E Hl Hl2 Hf Hne Hn Ew Eh Hw Hh. apply tex_load_ok in E.
  destruct (tex_data_loaded t level E Hl) as (b & Eb & Lb).
  unfold as_rgba8. rewrite Eb. cbn [obind]. unfold shift_dim. destruct (N.ltb_spec level 32); [|lia]. cbn [obind].
  rewrite <- Ew, <- Eh. destruct (N.eqb_spec (tx_format t) P8) as [C|_]; [lia|].
  assert (B : w * h <= tx_width t * tx_height t).
  { subst w h. apply N.mul_le_mono; apply N.div_le_upper_bound; try (apply N.pow_nonzero; discriminate);
      pose proof (pow2_pos level); nia. }
  assert (Dw : dim (tx_width t) level = w) by (unfold dim; rewrite <- Ew; lia).
  assert (Dh : dim (tx_height t) level = h) by (unfold dim; rewrite <- Eh; lia).
  apply to_rgba_total; [exact Hf | exact Hne | lia|].
  rewrite Lb. unfold P8 in Hf.
  assert (K : known (tx_format t)) by (unfold known, DXT5; lia).
  assert (D : is_dxt (tx_format t) = false).
  { unfold is_dxt, DXT1, DXT2, DXT3, DXT4, DXT5. repeat match goal with |- context [tx_format t =? ?k] => destruct (N.eqb_spec (tx_format t) k) as [C|_]; [lia|] end. reflexivity. }
  rewrite mipmap_size_raw by exact K. unfold raw_size. rewrite D, Dw, Dh. apply u32_small.
  assert (pixel_bytes (tx_format t) <= 4).
  { destruct (tx_format t) as [|p]; [cbn; lia|]. do 4 (destruct p as [p|p|]; cbn; try lia). }
  nia.
Qed.

(** ** The fields of a DDS file *)
Lemma dds_export s t s' : tex_load tex_new s = Ret (t, s') ->
  exists ms, len ms = tx_count t /\
    (forall l m, nth_N ms l = Some m -> 
       tex_data t l = Ret m /\ len m = mipmap_size (tx_format t) (tx_width t) (tx_height t) l) /\
    (len (concat ms) < 2 ^ 62 -> to_dds t = Ret (lit "DDS " ++ words_le (dds_words (dds_header t)) ++
     (if tx_format t =? P8 then flat_map color_enc (tx_palette t) else []) ++ concat ms)).
Proof.
  intros E. apply tex_load_ok in E.
  assert (X : forall n, N.of_nat n <= tx_count t -> exists ms, length ms = n /\ (forall l m, nth_N ms l = Some m -> 
       tex_data t l = Ret m /\ len m = mipmap_size (tx_format t) (tx_width t) (tx_height t) l)).
  { induction n as [|n IH]; intros Hn.
    - exists []. split; [reflexivity|]. intros l m H. rewrite nth_N_error in H. destruct (N.to_nat l); discriminate.
    - destruct IH as (ms & Hl & Hm); [lia|].
      destruct (tex_data_loaded t (N.of_nat n) E ltac:(lia)) as (b & Eb & Lb).
      exists (ms ++ [b]). split; [rewrite app_length; cbn [length]; lia|].
      intros l m H. rewrite nth_N_error in H. destruct (Nat.lt_ge_cases (N.to_nat l) n) as [Hlt|Hge].
      + rewrite nth_error_app1 in H by lia. rewrite <- nth_N_error in H. apply Hm, H.
      + rewrite nth_error_app2 in H by lia. destruct (N.to_nat l - length ms)%nat as [|k] eqn:Ek; [|destruct k; discriminate].
        injection H as <-. replace l with (N.of_nat n) by lia. auto. }
  destruct (X (N.to_nat (tx_count t))) as (ms & Hl & Hm); [lia|]. exists ms.
  assert (Hc : len ms = tx_count t) by (unfold len; lia).
  split; [exact Hc|]. split; [exact Hm|]. intros Hs. apply to_dds_eq; [congruence | intros l m H; apply Hm, H|].
  assert (P : len (if tx_format t =? P8 then flat_map color_enc (tx_palette t) else []) <= 1024).
  { pose proof (to_palette t E) as HP. destruct (tx_format t =? P8); [|rewrite len_nil; lia].
    assert (G : forall l, len (flat_map color_enc l) = 4 * len l).
    { clear. induction l as [|c l IH]; [reflexivity|]. cbn [flat_map]. unfold color_enc at 1. rewrite !len_app, !len_le_enc, IH, len_cons. lia. }
    rewrite G. unfold len. destruct HP as [HP _]. lia. }
  rewrite !len_app, len_words_le. change (len (lit "DDS ")) with 4. change (len (dds_words (dds_header t))) with 31.
  pows. lia.
Qed.

Lemma dds_fields s t s' : tex_load tex_new s = Ret (t, s') -> known (tx_format t) ->
  exists ms, len ms = tx_count t /\
    (forall l m, nth_N ms l = Some m ->
       tex_data t l = Ret m /\ len m = mipmap_size (tx_format t) (tx_width t) (tx_height t) l) /\
    (len (concat ms) < 2 ^ 62 ->
     exists hdr, length hdr = 31%nat /\ nth_N hdr 0 = Some 124 /\
       nth_N hdr 2 = Some (tx_height t) /\ nth_N hdr 3 = Some (tx_width t) /\
       nth_N hdr 6 = Some (if tx_count t =? 1 then 0 else tx_count t) /\
       nth_N hdr 18 = Some 32 /\ nth_N hdr 20 = Some (le_dec (fourcc_name (tx_format t))) /\
       nth_N hdr 21 = Some (pixel_bits (tx_format t)) /\
       to_dds t = Ret (lit "DDS " ++ words_le hdr ++
         (if tx_format t =? P8 then flat_map color_enc (tx_palette t) else []) ++ concat ms)).
Proof.
  intros E K. destruct (dds_export s t s' E) as (ms & H1 & H2 & H3). exists ms. split; [exact H1|]. split; [exact H2|].
  intros Hs. exists (dds_words (dds_header t)). split; [reflexivity|].
  split; [reflexivity|].
  assert (Hd : dds_header t = dds_header t) by reflexivity. unfold dds_header at 2 in Hd.
  pose proof (to_count t (tex_load_ok s t s' E)) as Hc.
  destruct (dds_pixel_format (tx_format t)) as [[[pf cc] bits] [[[r g] b] a]] eqn:Ep.
  change (nth_N (dds_words (dds_header t)) 2) with (Some (ds_height (dds_header t))).
  change (nth_N (dds_words (dds_header t)) 3) with (Some (ds_width (dds_header t))).
  change (nth_N (dds_words (dds_header t)) 6) with (Some (ds_mips (dds_header t))).
  change (nth_N (dds_words (dds_header t)) 20) with (Some (ds_fourcc (dds_header t))).
  change (nth_N (dds_words (dds_header t)) 21) with (Some (ds_bits (dds_header t))).
  split; [rewrite Hd; reflexivity|]. split; [rewrite Hd; reflexivity|].
  split.
  { rewrite Hd. cbn [ds_mips]. f_equal. destruct (N.eqb_spec (tx_count t) 1) as [->|]; [reflexivity|].
    destruct (N.ltb_spec 1 (tx_count t)); [reflexivity | lia]. }
  split; [reflexivity|].
  rewrite Hd. cbn [ds_fourcc ds_bits]. rewrite <- Hd.
  assert (F : cc = le_dec (fourcc_name (tx_format t)) /\ bits = pixel_bits (tx_format t)).
  { clear - K Ep. revert K Ep. generalize (tx_format t). intros fmt K Ep.
    formats K; cbn in Ep; injection Ep as <- <- <- <- <- <- <-; split; vm_compute; reflexivity. }
  destruct F as [-> ->]. split; [reflexivity|]. split; [reflexivity|]. apply H3, Hs.
Qed.

Lemma add_mipmap_wrong b m fmt :
  len m <> mipmap_size fmt (tb_width b) (tb_height b) (u32 (len (tb_maps b))) ->
  add_mipmap b m fmt = Throw InvalidMipmapSize.
Proof. intros H. unfold add_mipmap. destruct (N.eqb_spec (len m) (mipmap_size fmt (tb_width b) (tb_height b) (u32 (len (tb_maps b))))); [contradiction | reflexivity]. Qed.
