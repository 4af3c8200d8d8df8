(** The decompressing reader refines the plain reader. *)

From Verif Require Import MBase MStream MZipped SStream SZipped LBase LStream LStreamHist.
Local Open Scope N_scope.

Ltac Zify.zify_post_hook ::= Z.div_mod_to_equations.

(** ** Encoding *)
Definition zsrc (data : bytes) (i : N) : bytes := take 8192 (drop (i * 8192) data).
Definition zenc (c : codec) (data : bytes) (i : nat) : bytes :=
  le_enc 4 (len (zsrc data (N.of_nat i))) ++
  le_enc 4 (len (mz_compress c (zsrc data (N.of_nat i)))) ++
  le_enc 4 8192 ++ mz_compress c (zsrc data (N.of_nat i)).
Definition zcount (data : bytes) : N := (len data + 8191) / 8192.
Definition zip_bytes (c : codec) (data : bytes) : bytes :=
  le_enc 4 (len data) ++ le_enc 4 8192 ++ le_enc 4 (zcount data) ++
  flat_map (zenc c data) (seq 0 (N.to_nat (zcount data))).

Lemma len_zsrc data i : len (zsrc data i) = N.min 8192 (len data - i * 8192).
Proof. unfold zsrc. lens. reflexivity. Qed.

Lemma zip_block_writes c data i : codec_ok c -> writes (zip_block c data i) (zenc c data i).
Proof.
  intros Hc. unfold zip_block, zip_block_size.
  assert (E : take (N.min 8192 (len data - N.of_nat i * 8192)) (drop (N.of_nat i * 8192) data)
              = zsrc data (N.of_nat i)).
  { unfold zsrc. destruct (N.le_gt_cases 8192 (len data - N.of_nat i * 8192)).
    - rewrite N.min_l by lia. reflexivity.
    - rewrite N.min_r by lia. rewrite !take_all; auto; lens; lia. }
  rewrite E. unfold zenc.
  destruct (Hc (zsrc data (N.of_nat i))) as [_ Hb]; [rewrite len_zsrc; lia|].
  unfold u32. rewrite N.mod_small by exact Hb.
  repeat (apply writes_seq; [apply writes_uint|]). apply writes_raw.
Qed.

Lemma write_zipped_writes c data : codec_ok c -> len data < 2 ^ 32 ->
  writes (write_zipped c data) (zip_bytes c data).
Proof.
  intros Hc Hl. unfold write_zipped, zip_bytes.
  assert (E : zip_count (len data) = zcount data).
  { unfold zip_count, zcount, zip_block_size, u32.
    replace (len data + 8192 - 1) with (len data + 8191) by lia. apply N.mod_small. pows. lia. }
  rewrite E. unfold u32, zip_block_size. rewrite N.mod_small by exact Hl.
  repeat (apply writes_seq; [apply writes_uint|]).
  apply writes_iter. intros i _. apply zip_block_writes, Hc.
Qed.

Lemma zcount_bounds data : len data <= zcount data * 8192 < len data + 8192.
Proof.
  unfold zcount. pose proof (N.div_mod' (len data + 8191) 8192).
  pose proof (N.mod_lt (len data + 8191) 8192). lia.
Qed.

(** ** Opening *)
Definition blk_ok (c : codec) (data D : bytes) (i : N) (b : zblock) : Prop :=
  zb_src b = len (zsrc data i) /\ zb_cmp b = len (mz_compress c (zsrc data i)) /\
  take (zb_cmp b) (drop (zb_off b) D) = mz_compress c (zsrc data i) /\
  zb_off b + zb_cmp b <= len D.

Lemma rd_seek_cur data p n : p + n <= len data -> len data < max_size ->
  rd_seek (Z.of_N n) CUR (mkR data p) = Ret (tt, mkR data (p + n)).
Proof.
  intros H1 H2. unfold rd_seek, seek_internal. cbn [rdata rpos].
  rewrite sint_small by (pows; lia). rewrite ssize_add_ok by (pows; lia). cbn [obind].
  rewrite uint_small by (pows; lia).
  replace (Z.to_N (Z.of_N p + Z.of_N n)) with (p + n) by lia.
  destruct (N.ltb_spec (len data) (p + n)); [lia|]. reflexivity.
Qed.

Lemma zinit_block_at c data i pre post : codec_ok c ->
  len (pre ++ zenc c data i ++ post) < max_size ->
  exists b, zinit_block (mkR (pre ++ zenc c data i ++ post) (len pre)) =
    Ret (b, mkR (pre ++ zenc c data i ++ post) (len pre + len (zenc c data i))) /\
    blk_ok c data (pre ++ zenc c data i ++ post) (N.of_nat i) b.
Proof.
  intros Hc Hl. pose proof (len_zsrc data (N.of_nat i)) as Hsrc.
  destruct (Hc (zsrc data (N.of_nat i))) as [_ Hb]; [lia|].
  set (src := zsrc data (N.of_nat i)) in *. set (cmp := mz_compress c src) in *.
  set (D := pre ++ zenc c data i ++ post) in *.
  assert (ED : D = pre ++ le_enc 4 (len src) ++ le_enc 4 (len cmp) ++ le_enc 4 8192 ++ cmp ++ post).
  { unfold D, zenc. fold src. fold cmp. rewrite <- !app_assoc. reflexivity. }
  assert (HlD : len D = len pre + 12 + len cmp + len post) by (rewrite ED; lens; lia).
  assert (Hle : len (zenc c data i) = 12 + len cmp).
  { unfold zenc. fold src. fold cmp. lens. lia. }
  rewrite Hle.
  unfold zinit_block.
  pose proof (reads_uint (len src) ltac:(pows; lia) pre (le_enc 4 (len cmp) ++ le_enc 4 8192 ++ cmp ++ post) I) as R1.
  rewrite <- ED in R1.
  pose proof (reads_uint (len cmp) Hb (pre ++ le_enc 4 (len src)) (le_enc 4 8192 ++ cmp ++ post) I) as R2.
  rewrite <- app_assoc, <- ED in R2.
  pose proof (reads_uint 8192 ltac:(reflexivity) (pre ++ le_enc 4 (len src) ++ le_enc 4 (len cmp)) (cmp ++ post) I) as R3.
  rewrite <- !app_assoc, <- ED in R3.
  autorewrite with len in R1, R2, R3.
  change (N.of_nat 4) with 4 in *.
  unfold bind at 1. rewrite R1 by exact Hl. unfold bind at 1. rewrite R2 by exact Hl.
  replace (len pre + 4 + 4) with (len pre + (4 + 4)) by lia.
  unfold bind at 1. rewrite R3 by exact Hl.
  unfold bind at 1. unfold rd_tell at 1. cbn [rpos].
  unfold bind. rewrite rd_seek_cur; [|lia|exact Hl].
  eexists; split; [unfold ret; do 3 f_equal; lia|].
  repeat split; cbn [zb_src zb_cmp zb_off].
  - rewrite ED.
    replace (pre ++ le_enc 4 (len src) ++ le_enc 4 (len cmp) ++ le_enc 4 8192 ++ cmp ++ post)
      with ((pre ++ le_enc 4 (len src) ++ le_enc 4 (len cmp) ++ le_enc 4 8192) ++ cmp ++ post)
      by (rewrite <- !app_assoc; reflexivity).
    rewrite drop_app_exact by (lens; lia). apply take_app_exact. reflexivity.
  - fold src. fold cmp. lia.
Qed.

Lemma zinit_blocks c data n : forall a pre post, codec_ok c ->
  len (pre ++ flat_map (zenc c data) (seq a n) ++ post) < max_size ->
  exists bl, repM n zinit_block (mkR (pre ++ flat_map (zenc c data) (seq a n) ++ post) (len pre)) =
    Ret (bl, mkR (pre ++ flat_map (zenc c data) (seq a n) ++ post)
                 (len pre + len (flat_map (zenc c data) (seq a n)))) /\
    length bl = n /\
    forall i b, nth_error bl i = Some b ->
      blk_ok c data (pre ++ flat_map (zenc c data) (seq a n) ++ post) (N.of_nat (a + i)) b.
Proof.
  induction n as [|n IH]; intros a pre post Hc Hl.
  - exists []. cbn [repM seq flat_map app]. split; [|split; [reflexivity|]].
    + unfold ret. rewrite len_nil, N.add_0_r. reflexivity.
    + intros [|i]; discriminate.
  - cbn [repM seq flat_map] in *.
    rewrite <- app_assoc in *.
    destruct (zinit_block_at c data a pre (flat_map (zenc c data) (seq (S a) n) ++ post) Hc Hl) as (b & Eb & Hb).
    unfold bind at 1. rewrite Eb.
    specialize (IH (S a) (pre ++ zenc c data a) post Hc).
    rewrite <- !app_assoc in IH. specialize (IH Hl). rewrite len_app in IH.
    destruct IH as (bl & E & Hlen & Hall).
    exists (b :: bl). unfold bind. rewrite E. split; [|split].
    + unfold ret. rewrite len_app, N.add_assoc. reflexivity.
    + cbn [length]. lia.
    + intros [|i] b' Hn; cbn [nth_error] in Hn.
      * injection Hn as <-. rewrite Nat.add_0_r. exact Hb.
      * replace (a + S i)%nat with (S a + i)%nat by lia. apply Hall. exact Hn.
Qed.

(** The invariant of an open compressed stream [D] holding [data]. *)
Record zinv (c : codec) (data D : bytes) (z : zstate) : Prop := {
  zi_data : rdata (z_stream z) = D;
  zi_ok : r_ok (z_stream z);
  zi_len : z_length z = len data;
  zi_bs : z_bsize z = 8192;
  zi_count : z_count z = zcount data;
  zi_blen : len (z_blocks z) = zcount data;
  zi_blocks : forall i b, nth_N (z_blocks z) i = Some b -> blk_ok c data D i b;
  zi_pos : z_pos z <= len data;
  zi_cur : z_cur z * 8192 <= z_pos z < z_cur z * 8192 + 8192 \/
           (z_pos z = len data /\ z_cur z = zcount data);
  zi_cache : z_cvalid z = true -> z_cidx z < zcount data /\ z_cache z = zsrc data (z_cidx z)
}.

Lemma from_zipped_ok c data post : codec_ok c -> 0 < len data -> len data + 8191 < 2 ^ 32 ->
  len (zip_bytes c data ++ post) < max_size ->
  exists z, from_zipped (r_from (zip_bytes c data ++ post)) = Ret (Some z) /\
            zinv c data (zip_bytes c data ++ post) z /\ z_pos z = 0.
Proof.
  intros Hc H0 Hl8 Hm. assert (Hl : len data < 2 ^ 32) by lia. unfold from_zipped.
  set (D := zip_bytes c data ++ post) in *.
  set (body := flat_map (zenc c data) (seq 0 (N.to_nat (zcount data)))).
  assert (ED : D = le_enc 4 (len data) ++ le_enc 4 8192 ++ le_enc 4 (zcount data) ++ body ++ post).
  { unfold D, zip_bytes. rewrite <- !app_assoc. reflexivity. }
  assert (Hn : zcount data < 2 ^ 32 /\ 0 < zcount data) by (unfold zcount; pows; lia).
  pose proof (reads_uint (len data) Hl [] (le_enc 4 8192 ++ le_enc 4 (zcount data) ++ body ++ post) I) as R1.
  cbn [app] in R1. rewrite <- ED in R1. change (len []) with 0 in R1.
  pose proof (reads_uint 8192 ltac:(reflexivity) (le_enc 4 (len data)) (le_enc 4 (zcount data) ++ body ++ post) I) as R2.
  rewrite <- ED in R2.
  pose proof (reads_uint (zcount data) (proj1 Hn) (le_enc 4 (len data) ++ le_enc 4 8192) (body ++ post) I) as R3.
  rewrite <- !app_assoc, <- ED in R3.
  autorewrite with len in R1, R2, R3.
  destruct (zinit_blocks c data (N.to_nat (zcount data)) 0 (le_enc 4 (len data) ++ le_enc 4 8192 ++ le_enc 4 (zcount data)) post Hc)
    as (bl & Ebl & Hbl & Hball).
  { rewrite <- !app_assoc. fold body. rewrite <- ED. exact Hm. }
  rewrite <- !app_assoc in Ebl. fold body in Ebl. rewrite <- ED in Ebl.
  assert (R0 : rd_seek 0 BEG (mkR D 0) = Ret (tt, mkR D 0)).
  { apply (rd_seek_beg D 0 0); [lia | exact Hm]. }
  unfold bind at 1. unfold r_from. rewrite R0.
  unfold bind at 1. rewrite R1 by exact Hm.
  replace (0 + N.of_nat 4) with (N.of_nat 4) by lia.
  unfold bind at 1. rewrite R2 by exact Hm.
  unfold bind at 1. rewrite R3 by exact Hm.
  assert (Ez : (zcount data =? 0) || (8192 =? 0) || (len data =? 0) = false).
  { destruct (N.eqb_spec (zcount data) 0), (N.eqb_spec (len data) 0); lia || reflexivity. }
  rewrite Ez.
  assert (Ecount : zcount data = u32 (2 ^ 32 + u32 (len data + 8192) - 1) / 8192).
  { unfold zcount, u32. pows.
    replace ((4294967296 + (len data + 8192) mod 4294967296 - 1) mod 4294967296)
      with (len data + 8191) by lia.
    reflexivity. }
  rewrite <- Ecount, N.eqb_refl. cbn [negb].
  autorewrite with len in Ebl.
  unfold bind at 1.
  replace (N.of_nat 4 + N.of_nat 4 + N.of_nat 4) with (N.of_nat 4 + (N.of_nat 4 + N.of_nat 4)) by lia.
  rewrite Ebl. cbn [ret].
  eexists; split; [reflexivity|]. split; [|reflexivity].
  assert (HDl : len D = 12 + len body + len post) by (rewrite ED; lens; lia).
  constructor; cbn [z_stream z_length z_bsize z_count z_blocks z_pos z_cur z_cvalid z_cidx z_cache rdata].
  - reflexivity.
  - split; cbn [rdata rpos]; [lia | exact Hm].
  - reflexivity.
  - reflexivity.
  - reflexivity.
  - unfold len. rewrite Hbl. lia.
  - intros i b Hi. rewrite nth_N_error in Hi. specialize (Hball _ _ Hi).
    rewrite <- !app_assoc in Hball. fold body in Hball. rewrite <- ED in Hball.
    replace (N.of_nat (0 + N.to_nat i)) with i in Hball by lia. exact Hball.
  - lia.
  - left. lia.
  - discriminate.
Qed.

(** ** Reading *)
Lemma u64_sub a b : b <= a -> a < 2 ^ 64 -> u64 (2 ^ 64 + a - b) = a - b.
Proof.
  intros H1 H2. unfold u64. replace (2 ^ 64 + a - b) with ((a - b) + 1 * 2 ^ 64) by lia.
  rewrite N.mod_add by discriminate. apply N.mod_small. lia.
Qed.
Lemma cache_block_ok c data D z : codec_ok c -> len data < 2 ^ 32 -> zinv c data D z ->
  z_cur z < zcount data ->
  exists z', cache_block c z = Ret (true, z') /\ zinv c data D z' /\ z_pos z' = z_pos z /\ z_cur z' = z_cur z /\ z_cvalid z' = true /\ z_cidx z' = z_cur z.
Proof.
  intros Hc Hl [Hd Hok Hlen Hbs Hcnt Hbl Hblk Hpos Hcur Hcache] Hlt.
  unfold cache_block.
  destruct (nth_N_Some (z_blocks z) (z_cur z)) as [b Eb]; [lia|].
  rewrite Eb. destruct (Hblk _ _ Eb) as (Hsrc & Hcmp & Htake & Hoff).
  destruct (z_stream z) as [d p]. cbn [rdata] in Hd. subst d. destruct Hok as [Hp Hm]. cbn [rdata rpos] in *.
  assert (Hcl : zb_cmp b < 2 ^ 32).
  { rewrite Hcmp. apply Hc. rewrite len_zsrc. lia. }
  unfold bind. rewrite sint_small by (pows; lia).
  rewrite rd_seek_beg by lia.
  rewrite rd_read_spec by (split || (pows; lia); cbn [rdata rpos]; lia). cbn [rdata rpos].
  replace (N.min (zb_cmp b) (len D - zb_off b)) with (zb_cmp b) by lia.
  rewrite Htake, <- Hcmp, N.eqb_refl. cbn [negb].
  assert (Hu : mz_uncompress c (mz_compress c (zsrc data (z_cur z))) (zb_src b) = Some (zsrc data (z_cur z))).
  { rewrite Hsrc. apply Hc. rewrite len_zsrc. lia. }
  rewrite Hu. eexists; split; [reflexivity|].
  split; [|cbn; auto].
  assert (Hdrop : drop (len (zsrc data (z_cur z)))
           (take (zb_src b) (z_cache z) ++ zeros (zb_src b - len (z_cache z))) = []).
  { apply drop_all. rewrite <- Hsrc. lens. lia. }
  rewrite Hdrop, app_nil_r.
  constructor; cbn [z_stream z_length z_bsize z_count z_blocks z_pos z_cur z_cvalid z_cidx z_cache rdata]; auto.
  split; cbn [rdata rpos]; [lia | exact Hm].
Qed.

Lemma zsrc_slice data i off k : off + k <= len (zsrc data i) ->
  take k (drop off (zsrc data i)) = take k (drop (i * 8192 + off) data).
Proof.
  intros H. rewrite len_zsrc in H. unfold zsrc.
  rewrite (take_drop_comm k off), take_take.
  replace (N.min (k + off) 8192) with (k + off) by lia.
  rewrite <- take_drop_comm, drop_drop, (N.add_comm off). reflexivity.
Qed.

Lemma take_drop_split (data : bytes) pos k n : k <= n ->
  take k (drop pos data) ++ take (n - k) (drop (pos + k) data) = take n (drop pos data).
Proof.
  intros H. replace n with (k + (n - k)) at 2 by lia. rewrite take_add, drop_drop.
  rewrite (N.add_comm k). reflexivity.
Qed.

Lemma zread_loop_ok c data D : codec_ok c -> len data < 2 ^ 32 ->
  forall fuel n acc z, zinv c data D z -> n < 2 ^ 64 ->
  (N.to_nat n + N.to_nat (zcount data - z_cur z) < fuel)%nat ->
  exists z', zread_loop fuel c n acc z = Ret (acc ++ take n (drop (z_pos z) data), z') /\ zinv c data D z' /\ z_pos z' = z_pos z + N.min n (len data - z_pos z).
Proof.
  intros Hc Hl. induction fuel as [|fuel IH]; intros n acc z Hz Hn Hf; [lia|].
  cbn [zread_loop].
  destruct (N.eqb_spec n 0) as [->|Hn0].
  { exists z. rewrite take_0, app_nil_r. split; [reflexivity|]. split; [exact Hz|]. lia. }
  pose proof Hz as Hz0.
  destruct Hz as [Hd Hok Hlen Hbs Hcnt Hbl Hblk Hpos Hcur Hcache].
  rewrite Hcnt.
  pose proof (zcount_bounds data) as HC.
  destruct (N.leb_spec (zcount data) (z_cur z)) as [Hge|Hlt].
  { exists z. split; [|split; [exact Hz0|]].
    - rewrite drop_all; [rewrite take_nil, app_nil_r; reflexivity|]. lia.
    - lia. }
  assert (Hstep : exists z1,
    (if negb (z_cvalid z) || negb (z_cidx z =? z_cur z) then cache_block c z else Ret (true, z)) = Ret (true, z1)
    /\ zinv c data D z1 /\ z_pos z1 = z_pos z /\ z_cur z1 = z_cur z /\ z_cache z1 = zsrc data (z_cur z)).
  { destruct (negb (z_cvalid z) || negb (z_cidx z =? z_cur z)) eqn:E.
    - destruct (cache_block_ok c data D z Hc Hl Hz0 Hlt) as (z1 & E1 & Hz1 & Hp1 & Hc1 & Hv & Hi).
      exists z1. split; [exact E1|]. split; [exact Hz1|]. split; [exact Hp1|]. split; [exact Hc1|].
      destruct (zi_cache _ _ _ _ Hz1 Hv) as [_ ->]. rewrite Hi. reflexivity.
    - exists z. split; [reflexivity|]. split; [exact Hz0|]. split; [reflexivity|]. split; [reflexivity|].
      apply orb_false_iff in E as [E1 E2]. apply negb_false_iff in E1, E2. apply N.eqb_eq in E2.
      destruct (Hcache E1) as [_ ->]. rewrite E2. reflexivity. }
  destruct Hstep as (z1 & -> & Hz1 & Hp1 & Hc1 & Hch1).
  destruct Hz1 as [Hd1 Hok1 Hlen1 Hbs1 Hcnt1 Hbl1 Hblk1 Hpos1 Hcur1 Hcache1].
  destruct (nth_N_Some (z_blocks z1) (z_cur z1)) as [b Eb]; [lia|].
  rewrite Eb. destruct (Hblk1 _ _ Eb) as (Hsrc & _).
  rewrite len_zsrc in Hsrc. rewrite Hc1 in *. rewrite Hp1 in *. rewrite Hbs1.
  assert (Hrange : z_cur z * 8192 <= z_pos z /\ z_pos z - z_cur z * 8192 <= 8192 /\ z_cur z * 8192 < len data).
  { clear - Hcur Hpos HC Hlt. lia. }
  assert (Eoff : u64 (2 ^ 64 + z_pos z - u32 (z_cur z * 8192)) = z_pos z - z_cur z * 8192).
  { unfold u32. rewrite (N.mod_small (z_cur z * 8192)) by (clear - Hrange Hl; pows; lia).
    apply u64_sub; clear - Hrange Hl Hpos; pows; lia. }
  rewrite Eoff. set (off := z_pos z - z_cur z * 8192) in *.
  assert (Hoff : off <= zb_src b) by (unfold off; clear - Hrange Hsrc Hpos; lia).
  assert (Eav : u64 (2 ^ 64 + zb_src b - off) = zb_src b - off) by (apply u64_sub; [exact Hoff|]; clear - Hsrc; pows; lia).
  rewrite Eav. set (avail := zb_src b - off) in *.
  rewrite Hch1.
  assert (Hcl : len (zsrc data (z_cur z)) = zb_src b) by (rewrite len_zsrc; lia).
  set (k := N.min n avail) in *.
  assert (Hks : off + k <= zb_src b) by (unfold k, avail; clear - Hoff; lia).
  destruct (N.ltb_spec (len (zsrc data (z_cur z))) (off + k)) as [Hbad|_]; [lia|].
  rewrite zsrc_slice by lia.
  replace (z_cur z * 8192 + off) with (z_pos z) by (unfold off; lia).
  set (z2 := mkZ _ _ _ _ _ _ _ _ _ _).
  assert (Hpk : z_pos z + k <= len data) by (unfold k, avail, off in *; clear - Hrange Hsrc Hpos; lia).
  assert (Hz2 : zinv c data D z2).
  { constructor; cbn [z2 z_stream z_length z_bsize z_count z_blocks z_pos z_cur z_cvalid z_cidx z_cache rdata]; auto.
    - unfold u32. pows. rewrite (N.mod_small (z_cur z + 1)) by (clear - Hl Hrange; lia).
      clear - Hrange Hsrc HC Hlt Hpos Hn0 Hcur. unfold k, avail, off.
      destruct (N.eqb_spec (N.min n (zb_src b - (z_pos z - z_cur z * 8192))) (zb_src b - (z_pos z - z_cur z * 8192))); lia.
    - intros Hv. destruct (Hcache1 Hv) as [Hc1' Hc2']. split; [exact Hc1'|]. congruence. }
  destruct (IH (n - k) (acc ++ take k (drop (z_pos z) data)) z2 Hz2) as (z3 & E3 & Hz3 & Hp3).
  - clear - Hn. lia.
  - cbn [z2 z_cur]. unfold u32. pows. rewrite (N.mod_small (z_cur z + 1)) by (clear - Hl Hrange; lia).
    assert (Hav : avail = 0 -> z_cur z + 1 <= zcount data /\ k = 0) by (unfold k; clear - Hlt; lia).
    assert (Hk : k <= n /\ (k = 0 -> avail = 0)) by (unfold k; clear - Hn0; lia).
    clear - Hf Hav Hk Hlt Hn0. clearbody k avail.
    destruct (N.eqb_spec k avail); lia.
  - exists z3. rewrite E3. split; [|split; [exact Hz3|]].
    + cbn [z2 z_pos]. rewrite <- app_assoc, take_drop_split by (unfold k; lia). reflexivity.
    + rewrite Hp3. cbn [z2 z_pos]. assert (k <= n) by (unfold k; clear; lia). clear - Hpk H. clearbody k. lia.
Qed.

Lemma z_step_ok c data D z o : codec_ok c -> len data < 2 ^ 32 -> zinv c data D z ->
  match o with
  | OSeek off w => in_range (seek_target (z_pos z) (len data) off w) (len data) = true
  | ORead n => n <= 2 ^ 63
  | _ => True
  end ->
  exists z', z_step c o z = Ret (fst (cursor_step data (z_pos z) o), z') /\ zinv c data D z' /\
    z_pos z' = snd (cursor_step data (z_pos z) o).
Proof.
  intros Hc Hl Hz Ho. destruct o as [n|off w| |]; cbn [z_step cursor_step fst snd].
  - unfold zread.
    destruct (zread_loop_ok c data D Hc Hl (S (N.to_nat n + N.to_nat (z_count z))) n [] z Hz)
      as (z' & E & Hz' & Hp).
    + pows. lia.
    + rewrite (zi_count _ _ _ _ Hz). lia.
    + exists z'. unfold bind. rewrite E. cbn [app]. split; [|split; [exact Hz'|exact Hp]].
      unfold ret. do 3 f_equal.
      destruct (N.le_gt_cases n (len data - z_pos z)).
      * rewrite N.min_l by assumption. reflexivity.
      * rewrite N.min_r by lia. rewrite !take_all; auto; lens; lia.
  - unfold in_range in Ho. apply andb_prop in Ho as [Ho1 Ho2].
    apply Z.leb_le in Ho1, Ho2. unfold bind, zseek.
    destruct Hz as [Hd Hok Hlen Hbs Hcnt Hbl Hblk Hpos Hcur Hcache].
    assert (E : match w with
         | BEG => Ret off
         | CUR => ssize_add (sint 64 (z_pos z)) off
         | END => ssize_add (Z.of_N (z_length z)) off
         end = Ret (seek_target (z_pos z) (len data) off w)).
    { unfold seek_target in *. destruct w; [reflexivity| |].
      - rewrite sint_small by (pows; lia). rewrite ssize_add_ok by (pows; lia). reflexivity.
      - rewrite Hlen. rewrite ssize_add_ok by (pows; lia). reflexivity. }
    rewrite E. cbn [obind].
    set (t := seek_target (z_pos z) (len data) off w) in *.
    destruct (Z.ltb_spec t 0); [lia|]. rewrite Hlen, Hbs.
    destruct (N.ltb_spec (len data) (Z.to_N t)); [lia|].
    change (0 <? 8192) with true. cbn iota.
    eexists; split; [reflexivity|]. split.
    + constructor; cbn [z_stream z_length z_bsize z_count z_blocks z_pos z_cur z_cvalid z_cidx z_cache]; auto.
      left. pose proof (N.div_mod' (Z.to_N t) 8192). pose proof (N.mod_lt (Z.to_N t) 8192).
      unfold u32. pows. rewrite N.mod_small by lia. lia.
    + unfold in_range. cbn [z_pos].
      destruct (Z.leb_spec 0 t); [|lia]. destruct (Z.leb_spec t (Z.of_N (len data))); [|lia]. reflexivity.
  - exists z. split; [reflexivity|]. split; [exact Hz | reflexivity].
  - exists z. split; [|split; [exact Hz | reflexivity]].
    unfold bind, zeof, ret. pose proof (zi_pos _ _ _ _ Hz). rewrite (zi_len _ _ _ _ Hz).
    do 3 f_equal. destruct (N.leb_spec (len data) (z_pos z)), (N.eqb_spec (z_pos z) (len data)); lia || reflexivity.
Qed.

Lemma z_history c data D os : codec_ok c -> len data < 2 ^ 32 -> forall z, zinv c data D z ->
  seeks_inside data (z_pos z) os ->
  exists z', mapM (z_step c) os z = Ret (fst (cursor_run data (z_pos z) os), z') /\
    zinv c data D z' /\ z_pos z' = snd (cursor_run data (z_pos z) os).
Proof.
  intros Hc Hl. induction os as [|o os IH]; intros z Hz Hs; cbn [mapM cursor_run].
  - exists z. split; [reflexivity|]. split; [exact Hz | reflexivity].
  - destruct Hs as [Ho Hs].
    destruct (z_step_ok c data D z o Hc Hl Hz Ho) as (z1 & E1 & Hz1 & Hp1).
    rewrite <- Hp1 in Hs. destruct (IH z1 Hz1 Hs) as (z2 & E2 & Hz2 & Hp2).
    exists z2. unfold bind. rewrite E1, E2. rewrite Hp1 in *.
    destruct (cursor_step data (z_pos z) o) as [r p]. cbn [fst snd] in *.
    destruct (cursor_run data p os) as [rs p']. cbn [fst snd] in *.
    split; [reflexivity|]. split; assumption.
Qed.

Lemma zipped_refines c data post os : codec_ok c -> 0 < len data -> len data + 8191 < 2 ^ 32 ->
  seeks_inside data 0 os ->
  exists bs, writes (write_zipped c data) bs /\
    (len (bs ++ post) < max_size ->
     exists z z', from_zipped (r_from (bs ++ post)) = Ret (Some z) /\
       mapM (z_step c) os z = Ret (fst (cursor_run data 0 os), z')).
Proof.
  intros Hc H0 Hl Hs. exists (zip_bytes c data).
  assert (Hl' : len data < 2 ^ 32) by lia.
  split; [apply write_zipped_writes; assumption|].
  intros Hm. destruct (from_zipped_ok c data post Hc H0 Hl Hm) as (z & E & Hz & Hp).
  rewrite <- Hp in Hs. destruct (z_history c data _ os Hc Hl' z Hz Hs) as (z' & E' & _).
  exists z, z'. rewrite Hp in E'. split; assumption.
Qed.
