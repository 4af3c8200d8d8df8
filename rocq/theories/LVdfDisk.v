(** Saving and mounting a disk. *)

From Coq Require Import Sorted Lia.
From Verif Require Import MBase MStream MZipped MVfs SStream SZipped SVfs SVdf LBase LStream LStreamHist LZipped
  LVfs LVfsOps LVfsHist LVdf.
Local Open Scope N_scope.
Local Open Scope m_scope.
Ltac Zify.zify_post_hook ::= idtac.

(** ** Writing over the padding at the beginning *)
Definition over (B P : bytes) : wstate := mkW (P ++ drop (len P) B) (len P).
Lemma over_write B P b : len P + len b < max_size -> wr_write b (over B P) = Ret (tt, over B (P ++ b)).
Proof.
  intros H. unfold over, wr_write. cbn [wpos wbuf].
  destruct (N.ltb_spec (len P + len b) max_size); [|lia]. rewrite !len_app, len_drop.
  do 2 f_equal. f_equal.
  destruct (N.ltb_spec (len P + (len B - len P)) (len P + len b)) as [L|L].
  - unfold overwrite. rewrite <- !app_assoc. rewrite take_app_exact by reflexivity. do 2 f_equal.
    rewrite (drop_all (len P + len b) B) by lia. apply drop_all.
    rewrite !len_app, len_zeros, len_drop. lia.
  - unfold overwrite. rewrite take_app_exact by reflexivity. rewrite <- app_assoc. do 2 f_equal.
    rewrite drop_app_r by lia. rewrite drop_drop. f_equal. lia.
Qed.
Lemma over_step {A} B P b (k : unit -> wr A) : len P + len b < max_size ->
  bind (wr_write b) k (over B P) = k tt (over B (P ++ b)).
Proof. intros H. apply bind_eq. apply over_write. assumption. Qed.

Definition sig_of (v : game) : bytes := match v with G1 => sig_g1 | G2 => sig_g2 end.
Definition disk_header (v : game) (idx files dos size flags : N) : bytes :=
  resize 256 x1a (lit "Created using ZenKit") ++ sig_of v ++
  le_enc 4 idx ++ le_enc 4 files ++ le_enc 4 dos ++ le_enc 4 size ++ le_enc 4 header_size ++ le_enc 4 flags.
Lemma len_disk_header v i f d s g : len (disk_header v i f d s g) = 296.
Proof. unfold disk_header. rewrite !len_app, len_resize, !len_le_enc. destruct v; reflexivity. Qed.

Lemma vfs_save_ok c k z v ut nm t l : codec_ok c -> Forall (storable c z) l ->
  296 + 80 * total l + dsizes c z l < 2 ^ 32 ->
  exists idx files size w,
    vfs_save c k z v ut (NDir nm t l) w_empty = Ret (tt, w) /\
    len (wbuf w) = 296 + 80 * total l + dsizes c z l /\
    at_ (wbuf w) 0 (disk_header v idx files (dos_pack (gmtime k ut)) size (if z then flag_zipped else flag_normal)) /\
    rows c z 296 (wbuf w) 296 l.
Proof.
  intros Hc S B. pose proof max_size_val as Mx.
  unfold vfs_save.
  assert (Ec : count_nodes (NDir nm t l) - 1 = total l).
  { cbn [count_nodes]. fold (total l). lia. }
  rewrite Ec. rewrite (u32_id (total l)) by lia. rewrite (u32_id (total l * 80)) by lia.
  unfold header_size at 1. rewrite (u32_id (296 + total l * 80)) by lia.
  set (base := 296 + total l * 80) in *.
  unfold bind at 1. unfold in_out. cbn [sv_out w_empty].
  unfold wr_seek at 1, seek_internal. cbn [wpos wbuf w_empty obind sv_cat sv_cache sv_index sv_files].
  rewrite uint_of_N by (apply N.lt_trans with (2 ^ 32); [unfold base; lia|reflexivity]).
  destruct (saves_all c z base Hc 296 (NDir nm t l) nm t [] [] (mkW [] base) [] 0 0)
    as (T & E & o' & ca' & f' & Ew & O & LT & LE & HF); auto.
  { left; auto. }
  { rewrite len_nil. unfold base. lia. }
  { rewrite len_nil. unfold base. lia. }
  rewrite !len_nil, !N.add_0_r in *. cbn [app] in Ew, O. rewrite N.add_0_l in Ew.
  change (mkW [] 0) with w_empty in Ew. rewrite Ew. cbn [sv_out sv_cat sv_index sv_files wbuf].
  set (dos := dos_pack (gmtime k ut)) in *.
  set (fl := if z then flag_zipped else flag_normal) in *.
  assert (EO : exists B0, wbuf o' = B0 /\ wpos o' = base + len E /\ drop base B0 = E).
  { destruct O as [[-> ->]| ->]; cbn [wbuf wpos].
    - exists []. rewrite len_nil, N.add_0_r, drop_nil. auto.
    - eexists. split; [reflexivity|]. split; [reflexivity|]. apply drop_app_exact. rewrite len_zeros. reflexivity. }
  destruct EO as (B0 & Eb & Ep & Ed). destruct o' as [ob op]. cbn [wbuf wpos] in Eb, Ep. subst ob op.
  set (size := u32 (base + len E + len T)).
  exists (total l), f', size, (mkW (disk_header v (total l) f' dos size fl ++ T ++ E) (base)).
  assert (LH := len_disk_header v (total l) f' dos size fl).
  split; [|split; [|split]].
  - unfold bind at 1, wr_tell. cbn [wpos].
    unfold bind at 1, wr_seek at 1. cbn [seek_internal wpos wbuf obind].
    change (uint 64 0) with 0.
    replace (mkW B0 0) with (over B0 []) by (unfold over; rewrite len_nil, drop_0; reflexivity).
    fold size.
    unfold write_string, write_uint.
    rewrite over_step by (rewrite len_nil, len_resize; rewrite Mx; lia).
    do 7 (rewrite over_step by (rewrite ?len_app, ?len_nil, ?len_resize, ?len_le_enc, Mx; destruct v; reflexivity)).
    match goal with |- context [over B0 ?P] => assert (LP : P = disk_header v (total l) f' dos size fl) end.
    { unfold disk_header. rewrite <- !app_assoc. reflexivity. }
    rewrite LP.
    assert (Sk : wr_seek (Z.of_N header_size) BEG (over B0 (disk_header v (total l) f' dos size fl)) =
                 Ret (tt, over B0 (disk_header v (total l) f' dos size fl))).
    { unfold wr_seek, over. cbn [seek_internal wpos wbuf obind]. rewrite LH. reflexivity. }
    rewrite (bind_eq _ _ _ _ _ Sk).
    rewrite over_write by (rewrite LH, Mx; lia). unfold over. do 2 f_equal.
    rewrite len_app, LH, LT. replace (296 + 80 * total l) with base by (unfold base; lia).
    rewrite Ed, <- app_assoc. reflexivity.
  - cbn [wbuf]. rewrite !len_app, LH, LT, LE. lia.
  - cbn [wbuf]. exists [], (T ++ E). auto.
  - cbn [wbuf]. apply HF.
    + exists (disk_header v (total l) f' dos size fl), E. auto.
    + exists (disk_header v (total l) f' dos size fl ++ T), []. rewrite app_nil_r, <- app_assoc. split; [reflexivity|].
      rewrite len_app, LH, LT. unfold base. lia.
Qed.

(** ** Reading contents back *)
Lemma slurp_plain c b : len b < 2 ^ 62 -> slurp c (RPlain (r_from b)) = Ret (len b, b).
Proof.
  intros L. pose proof max_size_val as Mx.
  unfold slurp, r_from. unfold bind, rd_seek, rd_tell, ret. cbn [rdata rpos seek_internal obind].
  rewrite sint_small by (apply N.lt_trans with (2 ^ 62); [assumption|reflexivity]).
  rewrite ssize_add_ok.
  2:{ change (2 ^ 63)%Z with 9223372036854775808%Z. change (2 ^ 62) with 4611686018427387904 in L. lia. }
  cbn [obind]. rewrite Z.add_0_r.
  rewrite uint_of_N by (apply N.lt_trans with (2 ^ 62); [assumption|reflexivity]).
  destruct (N.ltb_spec (len b) (len b)) as [K|K]; [lia|]. cbn [rdata rpos].
  change (uint 64 0) with 0. destruct (N.ltb_spec (len b) 0); [lia|]. cbn [rdata rpos].
  rewrite rd_read_spec.
  - cbn [rdata rpos]. rewrite N.sub_0_r, N.min_id, drop_0, take_all by lia. reflexivity.
  - split; cbn [rdata rpos]; [lia|]. rewrite Mx. change (2 ^ 62) with 4611686018427387904 in L. lia.
  - change (2 ^ 62) with 4611686018427387904 in L. change (2 ^ 63) with 9223372036854775808. lia.
Qed.

Lemma slurp_zip c data D z : codec_ok c -> len data < 2 ^ 32 -> zinv c data D z ->
  slurp c (RZip z) = Ret (len data, data).
Proof.
  intros Hc L Hz.
  assert (IR : forall q, in_range (Z.of_N q) (len data) = (q <=? len data)).
  { intros q. unfold in_range. destruct (Z.leb_spec 0 (Z.of_N q)), (Z.leb_spec (Z.of_N q) (Z.of_N (len data))), (N.leb_spec q (len data)); cbn; lia || reflexivity. }
  destruct (z_step_ok c data D z (OSeek 0 END) Hc L Hz) as (z1 & E1 & Hz1 & P1).
  { unfold seek_target. rewrite Z.add_0_r, IR. apply N.leb_refl. }
  destruct (z_step_ok c data D z1 (OSeek 0 BEG) Hc L Hz1) as (z2 & E2 & Hz2 & P2).
  { unfold seek_target. change 0%Z with (Z.of_N 0). rewrite IR. apply N.leb_le. lia. }
  destruct (z_step_ok c data D z2 (ORead (len data)) Hc L Hz2) as (z3 & E3 & Hz3 & P3).
  { apply N.le_trans with (2 ^ 32); [lia|]. apply N.lt_le_incl. reflexivity. }
  cbn [z_step cursor_step fst snd] in *.
  unfold seek_target in P1, P2. rewrite Z.add_0_r in P1. rewrite IR, N.leb_refl in P1.
  change 0%Z with (Z.of_N 0) in P2. rewrite IR in P2. destruct (N.leb_spec 0 (len data)); [|lia]. rewrite N2Z.id in P1, P2.
  apply bind_Ret in E1. destruct E1 as (u1 & w1 & E1 & F1). injection F1 as <-.
  apply bind_Ret in E2. destruct E2 as (u2 & w2 & E2 & F2). injection F2 as <-.
  apply bind_Ret in E3. destruct E3 as (b3 & w3 & E3 & F3). injection F3 as F3 <-.
  unfold slurp. rewrite (bind_eq _ _ _ _ _ E1). unfold bind at 1, ztell. rewrite P1.
  rewrite (bind_eq _ _ _ _ _ E2). rewrite (bind_eq _ _ _ _ _ E3). unfold ret.
  rewrite F3, P2, N.sub_0_r, N.min_id, drop_0, take_all by lia. reflexivity.
Qed.

Lemma three_words b post : 12 <= len b ->
  b ++ post = le_enc 4 (le_dec (take 4 b)) ++ le_enc 4 (le_dec (take 4 (drop 4 b))) ++
              le_enc 4 (le_dec (take 4 (drop 8 b))) ++ drop 12 b ++ post.
Proof.
  intros L.
  assert (W : forall s, len s = 4 -> le_enc 4 (le_dec s) = s).
  { intros s Hs. rewrite <- (le_enc_dec s) at 2. f_equal. unfold len in Hs. lia. }
  rewrite !W by (rewrite len_take, ?len_drop; lia).
  rewrite <- (take_drop 4 b) at 1. rewrite <- app_assoc. f_equal.
  rewrite <- (take_drop 4 (drop 4 b)) at 1. rewrite drop_drop, <- app_assoc. f_equal.
  change (4 + 4) with 8.
  rewrite <- (take_drop 4 (drop 8 b)) at 1. rewrite drop_drop, <- app_assoc. reflexivity.
Qed.

Lemma le_dec_lt4 s : len s <= 4 -> le_dec s < 2 ^ 32.
Proof.
  intros H. eapply N.lt_le_trans; [apply le_dec_bound|].
  change (2 ^ 32) with (256 ^ 4). apply N.pow_le_mono_r; lia.
Qed.

Lemma from_zipped_none b post : 12 <= len b -> ~ looks_zipped b -> len (b ++ post) < max_size ->
  from_zipped (r_from (b ++ post)) = Ret None.
Proof.
  intros L NZ M. pose proof max_size_val as Mx. unfold from_zipped, r_from.
  set (w1 := le_dec (take 4 b)) in *. set (w2 := le_dec (take 4 (drop 4 b))) in *. set (w3 := le_dec (take 4 (drop 8 b))) in *.
  assert (B1 : w1 < 2 ^ 32) by (apply le_dec_lt4; rewrite len_take; lia).
  assert (B2 : w2 < 2 ^ 32) by (apply le_dec_lt4; rewrite len_take; lia).
  assert (B3 : w3 < 2 ^ 32) by (apply le_dec_lt4; rewrite len_take; lia).
  assert (A : at_ (b ++ post) 0 (le_enc 4 w1 ++ le_enc 4 w2 ++ le_enc 4 w3)).
  { exists [], (drop 12 b ++ post). split; [|reflexivity]. cbn [app]. rewrite (three_words b post L) at 1.
    rewrite <- !app_assoc. reflexivity. }
  set (F := b ++ post) in *. clearbody F.
  apply at_app in A. destruct A as [A1 A]. apply at_app in A. destruct A as [A2 A3]. rewrite !len_le_enc in *.
  change (0 + N.of_nat 4) with 4 in *. change (4 + N.of_nat 4) with 8 in *.
  change 0%Z with (Z.of_N 0).
  rewrite (bind_eq _ _ _ _ _ (rd_seek_beg F 0 0 ltac:(lia) M)).
  rewrite (bind_eq _ _ _ _ _ (at_reads _ _ _ _ _ (reads_uint w1 B1) A1 M)). rewrite len_le_enc. change (0 + N.of_nat 4) with 4.
  rewrite (bind_eq _ _ _ _ _ (at_reads _ _ _ _ _ (reads_uint w2 B2) A2 M)). rewrite len_le_enc. change (4 + N.of_nat 4) with 8.
  rewrite (bind_eq _ _ _ _ _ (at_reads _ _ _ _ _ (reads_uint w3 B3) A3 M)).
  destruct (N.eqb_spec w3 0) as [E3|E3]; [reflexivity|].
  destruct (N.eqb_spec w2 0) as [E2|E2]; [reflexivity|].
  destruct (N.eqb_spec w1 0) as [E1|E1]; [reflexivity|]. cbn [orb].
  destruct (N.eqb_spec w3 (u32 (2 ^ 32 + u32 (w1 + w2) - 1) / w2)) as [E|E]; [|reflexivity].
  exfalso. apply NZ. unfold looks_zipped. fold w1 w2 w3. repeat split; auto. rewrite E. f_equal. unfold u32.
  replace (2 ^ 32 + (w1 + w2) mod 2 ^ 32 - 1) with ((w1 + w2) mod 2 ^ 32 + (2 ^ 32 - 1)) by lia.
  rewrite N.add_mod_idemp_l by discriminate. f_equal. lia.
Qed.

(** ** Mounting *)
Lemma before_not_same a k : before a k -> lower (nname a) <> lower (nname k).
Proof. unfold before. intros H E. apply icompare_equiv in E. destruct E. congruence. Qed.
Lemma kid_before acc k : Forall (fun a => before a k) acc -> kid acc (nname k) = None.
Proof. intros H. apply kid_None. intros a Ha. rewrite Forall_forall in H. apply before_not_same. auto. Qed.
Lemma set_insert_last acc k : Forall (fun a => before a k) acc -> set_insert k acc = acc ++ [k].
Proof.
  induction 1 as [|a acc H Hs IH]; cbn [set_insert app]; [reflexivity|]. unfold before in H. rewrite H, IH. reflexivity.
Qed.
Lemma create_last acc k : sorted acc -> clean (nname k) -> Forall (fun a => before a k) acc ->
  find_child acc (nname k) = None /\ create_kid acc k = acc ++ [k].
Proof.
  intros S C H. assert (E : find_child acc (nname k) = None).
  { rewrite find_child_kid by assumption. rewrite clean_trim by assumption. apply kid_before. assumption. }
  split; [assumption|]. unfold create_kid, remove_kid. rewrite E. cbn [snd]. apply set_insert_last. assumption.
Qed.
Lemma sorted_snoc acc k : sorted acc -> Forall (fun a => before a k) acc -> sorted (acc ++ [k]).
Proof.
  intros S. induction acc as [|a acc IH]; intros H; cbn [app].
  - constructor; constructor.
  - apply sorted_cons in S. destruct S as [S S']. inversion H; subst. apply sorted_cons. split; [auto|].
    apply Forall_app. split; [assumption|]. constructor; [assumption|constructor].
Qed.
Lemma before_name a k k' : nname k' = nname k -> before a k -> before a k'.
Proof. unfold before. intros ->. auto. Qed.
Lemma before_name_l a a' k : nname a' = nname a -> before a k -> before a' k.
Proof. unfold before. intros ->. auto. Qed.
Lemma put_last acc nm d k : nname d = nm -> Forall (fun a => before a d) acc -> put_kid (acc ++ [d]) nm k = acc ++ [k].
Proof.
  intros E. induction 1 as [|a acc H Hs IH]; unfold put_kid in *; cbn [app upd_first].
  - rewrite E, bytes_eqb_refl. reflexivity.
  - rewrite IH. destruct (bytes_eqP (nname a) nm) as [K|K]; [|reflexivity].
    exfalso. apply (before_not_same _ _ H). congruence.
Qed.

Lemma entry_reads {A} (k : bytes -> N -> N -> N -> N -> rd A) F p nm off size ty :
  at_ F p (entry nm off size ty) -> off < 2 ^ 32 -> size < 2 ^ 32 -> ty < 2 ^ 32 -> len F < max_size ->
  (let* raw := read_string 64 in
   let* off := read_uint in
   let* size := read_uint in
   let* ty := read_uint in
   let* x := read_uint in
   k raw off size ty x) (mkR F p) = k (resize 64 x20 nm) off size ty 0 (mkR F (p + 80)).
Proof.
  intros H B1 B2 B3 M. unfold entry in H.
  apply at_app in H. destruct H as [H1 H]. apply at_app in H. destruct H as [H2 H].
  apply at_app in H. destruct H as [H3 H]. apply at_app in H. destruct H as [H4 H5].
  rewrite !len_le_enc, !len_resize in *. change (N.of_nat 4) with 4 in *.
  assert (L : 64 = len (resize 64 x20 nm)) by (rewrite len_resize; reflexivity).
  rewrite (bind_eq _ _ _ _ _ (at_reads _ _ _ _ _ (reads_string_n 64 _ L) H1 M)). rewrite <- L.
  rewrite (bind_eq _ _ _ _ _ (at_reads _ _ _ _ _ (reads_uint _ B1) H2 M)). rewrite len_le_enc.
  rewrite (bind_eq _ _ _ _ _ (at_reads _ _ _ _ _ (reads_uint _ B2) H3 M)). rewrite len_le_enc.
  rewrite (bind_eq _ _ _ _ _ (at_reads _ _ _ _ _ (reads_uint _ B3) H4 M)). rewrite len_le_enc.
  rewrite (bind_eq _ _ _ _ _ (at_reads _ _ _ _ _ (reads_uint 0 eq_refl) H5 M)). rewrite len_le_enc.
  f_equal. f_equal. change (N.of_nat 4) with 4. lia.
Qed.

Lemma reads_uint_any v : reads read_uint (le_enc 4 v) (v mod 2 ^ 32).
Proof.
  change (2 ^ 32) with (256 ^ N.of_nat 4). rewrite <- le_enc_mod. apply reads_uint. apply N.mod_lt. discriminate.
Qed.

Definition kids (k : node) : list node := match k with NDir _ _ l => l | NFile _ _ _ => [] end.

Section Mounting.
  Variable (c : codec) (z : bool) (F : bytes) (ts : Z) (pol : policy).
  Hypothesis Hc : codec_ok c.
  Hypothesis HF : len F < 2 ^ 32.

  Let LF : len F < max_size.
  Proof. rewrite max_size_val. lia. Qed.

  Lemma disk_file nm t fd off : storable c z (NFile nm t fd) -> at_ F off (payload c z nm fd) ->
    (z = true -> off < len F) /\
    file_bytes c (make_fd F off (if z then len F - off else len (cont c fd)) z (len (cont c fd))) (cont c fd).
  Proof.
    intros S A. inversion S as [? ? ? b N B L Z|]; subst. rewrite (cont_ok _ _ _ B).
    unfold payload in A. rewrite (cont_ok _ _ _ B) in A.
    pose proof (at_len _ _ _ A) as LA.
    assert (L62 : len b < 2 ^ 62) by (apply N.lt_trans with (2 ^ 32); [lia|reflexivity]).
    unfold make_fd, file_bytes, open_fd, window, packed in *. cbn [fd_zip fd_buf fd_off fd_size fd_raw].
    destruct z; cbn [andb] in *.
    - destruct (Z eq_refl) as [Hb Hw].
      destruct (N.eqb_spec (len b) 0) as [E0|E0]; [lia|].
      destruct (is_wave_file nm); cbn [negb] in *.
      + split; [lia|]. destruct (Hw eq_refl) as [H12 HN].
        destruct (at_drop _ _ _ A) as [post EA].
        destruct (N.ltb_spec (len F) (off + (len F - off))); [lia|]. cbn [obind].
        rewrite take_all by (rewrite len_drop; lia). rewrite EA.
        rewrite from_zipped_none by (auto; rewrite <- EA, len_drop; lia). cbn [obind].
        destruct (N.ltb_spec (len F) (off + len b)); [lia|]. cbn [obind].
        eexists. split; [reflexivity|]. rewrite <- EA. rewrite (at_window _ _ _ A). apply slurp_plain. assumption.
      + assert (Lz : 12 <= len (zip_bytes c b)).
        { unfold zip_bytes. rewrite !len_app, !len_le_enc. change (N.of_nat 4) with 4. lia. }
        split; [lia|].
        destruct (at_drop _ _ _ A) as [post EA].
        destruct (N.ltb_spec (len F) (off + (len F - off))); [lia|]. cbn [obind].
        rewrite take_all by (rewrite len_drop; lia). rewrite EA.
        destruct (from_zipped_ok c b post Hc Hb L) as (zs & E & Hz & _).
        { rewrite <- EA, len_drop. lia. }
        rewrite E. cbn [obind]. eexists. split; [reflexivity|]. eapply slurp_zip; [assumption| |exact Hz]. lia.
    - split; [discriminate|].
      destruct (N.ltb_spec (len F) (off + len b)); [lia|]. cbn [obind].
      eexists. split; [reflexivity|]. rewrite (at_window _ _ _ A). apply slurp_plain. assumption.
  Qed.

  Definition loads (k : node) : Prop := forall p last acc,
    row c z 296 F p last k -> storable c z k -> wf k -> sorted acc -> Forall (fun a => before a k) acc ->
    exists k', same_tree c ts k k' /\
      forall f, (N.to_nat (total (kids k)) <= f)%nat ->
        load_entry pol 296 ts z F (load_table f pol 296 ts z F) acc (mkR F p) =
          Ret ((last, acc ++ [k']), mkR F (p + 80)).

  Lemma same_tree_name k k' : same_tree c ts k k' -> nname k' = nname k.
  Proof. intros [|]; reflexivity. Qed.

  Lemma rows_load l : Forall loads l -> forall p acc,
    rows c z 296 F p l -> l <> [] -> Forall (storable c z) l -> Forall wf l -> sorted acc -> sorted l ->
    Forall (fun k => Forall (fun a => before a k) acc) l ->
    exists l' q, Forall2 (same_tree c ts) l l' /\
      forall f, (N.to_nat (total l) <= f)%nat ->
        load_table f pol 296 ts z F acc (mkR F p) = Ret (acc ++ l', mkR F q).
  Proof.
    induction 1 as [|k l Hk Hl IH]; intros p acc R NE St W Sa Sl Bf; [congruence|].
    cbn [rows] in R. destruct R as [R1 R2]. inversion St; subst. inversion W; subst. inversion Bf as [|? ? Bk Bl]; subst.
    apply sorted_cons in Sl. destruct Sl as [Sl Sk].
    assert (Ek : count_nodes k = 1 + total (kids k)) by (destruct k; reflexivity).
    destruct (Hk p (is_nil l) acc) as (k' & T & E); auto.
    pose proof (same_tree_name _ _ T) as Nk.
    destruct l as [|k2 l2]; cbn [is_nil] in E.
    - exists [k'], (p + 80). split; [constructor; [assumption|constructor]|].
      intros f Lf. rewrite total_cons in Lf. destruct f as [|f]; [lia|]. cbn [load_table].
      rewrite (bind_eq _ _ _ _ _ (E f ltac:(lia))). reflexivity.
    - destruct (IH (p + 80) (acc ++ [k'])) as (l' & q & T' & E'); auto.
      + discriminate.
      + apply sorted_snoc; [assumption|]. rewrite Forall_forall in *. intros a Ha. eapply before_name; [eassumption|auto].
      + rewrite Forall_forall in *. intros k0 Hk0. apply Forall_app. split; [auto|].
        constructor; [|constructor]. eapply before_name_l; [exact Nk|]. auto.
      + exists (k' :: l'), q. split; [constructor; assumption|].
        intros f Lf. rewrite total_cons in Lf. destruct f as [|f]; [lia|].
        change (load_table (S f) pol 296 ts z F acc) with
          (let* r := load_entry pol 296 ts z F (load_table f pol 296 ts z F) acc in
           if fst r then ret (snd r) else load_table f pol 296 ts z F (snd r)).
        rewrite (bind_eq _ _ _ _ _ (E f ltac:(lia))). cbn [fst snd].
        rewrite E', <- app_assoc by lia. reflexivity.
  Qed.

  Lemma all_load k : loads k.
  Proof.
    induction k as [nm t fd|nm t l IH] using node_ind'; intros p last acc R St W Sa Bf.
    - cbn [row] in R. destruct R as (off & B & A1 & A2).
      destruct (disk_file nm t fd off St A2) as [Hz Hfb].
      pose proof St as St'. inversion St' as [? ? ? b N FB L Z|]; subst. pose proof (cont_ok _ _ _ FB) as Ec.
      assert (NN : forall fd', nname (NFile nm ts fd') = nm) by reflexivity.
      assert (Bf' : forall fd', Forall (fun a => before a (NFile nm ts fd')) acc).
      { intros fd'. rewrite Forall_forall in *. intros a Ha. eapply before_name; [|apply Bf; assumption]. reflexivity. }
      destruct N as (N1 & N2 & N3).
      assert (FC : find_child acc nm = None) by (apply (create_last acc (NFile nm ts fd)); auto).
      assert (Fl : file_flag last < 2 ^ 32) by (destruct last; reflexivity).
      exists (NFile nm ts (make_fd F off (if z then len F - off else len (cont c fd)) z (len (cont c fd)))).
      split; [apply Same_file with (b := cont c fd); [rewrite Ec|]; assumption|].
      intros f Lf. unfold load_entry.
      rewrite (entry_reads _ F p nm off (len (cont c fd)) (file_flag last) A1) by (auto; rewrite Ec; lia).
      rewrite entry_name_ok by (split; auto).
      rewrite FC.
      replace (N.land (file_flag last) 2147483648 =? 0) with true by (destruct last; reflexivity). cbn [negb].
      replace (negb (N.land (file_flag last) 1073741824 =? 0)) with last by (destruct last; reflexivity).
      assert (Cond : (if z then len F <=? off else len F <? u32 (off + len (cont c fd))) = false).
      { pose proof (at_len _ _ _ A2) as LA. unfold payload, packed in LA. destruct z; cbn [andb] in LA.
        - apply N.leb_gt. auto.
        - apply N.ltb_ge. rewrite u32_id by lia. assumption. }
      rewrite Cond. unfold ret. do 3 f_equal. apply create_last; auto.
    - apply row_dir in R. destruct R as (idx & B & A1 & Rr).
      inversion St as [|? ? ? N NE Sl]; subst. pose proof (wf_kids _ _ _ W) as [Ss Ws].
      destruct N as (N1 & N2 & N3).
      assert (Bf' : forall l', Forall (fun a => before a (NDir nm ts l')) acc).
      { intros fd'. rewrite Forall_forall in *. intros a Ha. eapply before_name; [|apply Bf; assumption]. reflexivity. }
      destruct (create_last acc (directory nm ts) Sa N2 (Bf' [])) as [FC CK]. cbn [nname directory] in FC.
      assert (Fl : dir_flag last < 2 ^ 32) by (destruct last; reflexivity).
      assert (SF : set_find nm (acc ++ [directory nm ts]) = Some (directory nm ts)).
      { assert (S2 : sorted (acc ++ [directory nm ts])) by (apply sorted_snoc; [assumption|apply Bf']).
        rewrite set_find_kid by assumption.
        apply (kid_self (acc ++ [directory nm ts]) (directory nm ts) S2). apply in_app_iff. right. left. reflexivity. }
      assert (LP : 296 + 80 * idx <= len F).
      { destruct l as [|k0 l0]; [congruence|]. cbn [rows] in Rr. destruct Rr as [Rr _].
        destruct k0; cbn [row] in Rr; [destruct Rr as (o & _ & X & _)|destruct Rr as (o & _ & X & _)];
          apply at_len in X; rewrite len_entry in X; lia. }
      destruct (rows_load l IH (296 + 80 * idx) []) as (l' & q & T & E); auto.
      { constructor. }
      { rewrite Forall_forall. intros. constructor. }
      exists (NDir nm ts l'). split; [constructor; assumption|].
      pose proof (at_len _ _ _ A1) as LA1. rewrite len_entry in LA1.
      intros f Lf. unfold load_entry.
      rewrite (entry_reads _ F p nm idx 0 (dir_flag last) A1) by (auto; lia || reflexivity).
      rewrite entry_name_ok by (split; auto). rewrite FC.
      replace (N.land (dir_flag last) 2147483648 =? 0) with false by (destruct last; reflexivity). cbn [negb].
      replace (negb (N.land (dir_flag last) 1073741824 =? 0)) with last by (destruct last; reflexivity).
      unfold make_dir. rewrite CK. rewrite SF. cbn [enter_dir directory].
      replace (u32 (296 + u32 (idx * 80))) with (296 + 80 * idx) by (rewrite (u32_id (idx * 80)), u32_id by lia; lia).
      unfold bind at 1, rd_tell. cbn [rpos].
      rewrite (bind_eq _ _ _ _ _ (rd_seek_beg F (p + 80) (296 + 80 * idx) LP LF)).
      rewrite (bind_eq _ _ _ _ _ (E f Lf)). cbn [app].
      rewrite sint_small by (apply N.lt_trans with (2 ^ 32); [lia|reflexivity]).
      rewrite (bind_eq _ _ _ _ _ (rd_seek_beg F q (p + 80) LA1 LF)).
      unfold ret. do 3 f_equal. apply put_last; [reflexivity|]. apply (Bf' []).
  Qed.

  Lemma mount_header fuel k v idx files dos size nm t l0 :
    at_ F 0 (disk_header v idx files dos size (if z then flag_zipped else flag_normal)) -> dos < 2 ^ 32 ->
    mount_disk fuel k pol (NDir nm t l0) F =
    match load_table fuel pol 296 (mktime k (dos_unpack dos)) z F l0 (mkR F 296) with
    | Ret (l', _) => Ret (NDir nm t l')
    | Throw e => Throw e
    | Undef => Undef
    | Fuel => Fuel
    end.
  Proof.
    intros H B3. unfold mount_disk.
    unfold disk_header in H.
    apply at_app in H. destruct H as [H1 H]. apply at_app in H. destruct H as [H2 H].
    apply at_app in H. destruct H as [H3 H]. apply at_app in H. destruct H as [H4 H].
    apply at_app in H. destruct H as [H5 H]. apply at_app in H. destruct H as [H6 H].
    apply at_app in H. destruct H as [H7 H8].
    set (sg := sig_of v) in *.
    assert (L2 : 16 = len sg) by (unfold sg; destruct v; reflexivity).
    assert (Sg : bytes_eqb sg sig_tool || bytes_eqb sg sig_g1 || bytes_eqb sg sig_g2 = true) by (unfold sg; destruct v; reflexivity).
    clearbody sg. symmetry in L2.
    assert (L1 : len (resize 256 x1a (lit "Created using ZenKit")) = 256) by apply len_resize.
    assert (LE4 : forall x, len (le_enc 4 x) = 4) by (intros; apply len_le_enc).
    rewrite ?L1 in H2. rewrite ?L1, ?L2 in H3. rewrite ?L1, ?L2, ?LE4 in H4. rewrite ?L1, ?L2, ?LE4 in H5.
    rewrite ?L1, ?L2, ?LE4 in H6. rewrite ?L1, ?L2, ?LE4 in H7. rewrite ?L1, ?L2, ?LE4 in H8.
    symmetry in L1, L2.
    unfold r_from.
    set (fl := if z then flag_zipped else flag_normal) in *.
    assert (B8 : fl < 2 ^ 32) by (unfold fl; destruct z; reflexivity).
    rewrite (bind_eq _ _ _ _ _ (at_reads _ _ _ _ _ (reads_string_n 256 _ L1) H1 LF)). rewrite <- L1.
    rewrite (bind_eq _ _ _ _ _ (at_reads _ _ _ _ _ (reads_string_n 16 _ L2) H2 LF)). rewrite <- L2.
    rewrite (bind_eq _ _ _ _ _ (at_reads _ _ _ _ _ (reads_uint_any _) H3 LF)). rewrite LE4.
    rewrite (bind_eq _ _ _ _ _ (at_reads _ _ _ _ _ (reads_uint_any _) H4 LF)). rewrite LE4.
    rewrite (bind_eq _ _ _ _ _ (at_reads _ _ _ _ _ (reads_uint _ B3) H5 LF)). rewrite LE4.
    rewrite (bind_eq _ _ _ _ _ (at_reads _ _ _ _ _ (reads_uint_any _) H6 LF)). rewrite LE4.
    rewrite (bind_eq _ _ _ _ _ (at_reads _ _ _ _ _ (reads_uint header_size eq_refl) H7 LF)). rewrite LE4.
    rewrite (bind_eq _ _ _ _ _ (at_reads _ _ _ _ _ (reads_uint fl B8) H8 LF)). rewrite LE4.
    rewrite Sg. cbn [negb].
    unfold bind at 1, rd_tell. cbn [rpos]. unfold header_size. change (296 =? 0) with false. cbn iota zeta.
    assert (L296 : 296 <= len F) by (apply at_len in H8; rewrite LE4 in H8; lia).
    rewrite (bind_eq _ _ _ _ _ (rd_seek_beg F _ 296 L296 LF)).
    replace (fl =? flag_zipped) with z by (unfold fl; destruct z; reflexivity).
    reflexivity.
  Qed.

  Lemma mount_rows k v idx files dos size l : l <> [] -> wf (NDir [] 0 l) -> Forall (storable c z) l ->
    at_ F 0 (disk_header v idx files dos size (if z then flag_zipped else flag_normal)) ->
    dos < 2 ^ 32 -> rows c z 296 F 296 l -> ts = mktime k (dos_unpack dos) ->
    exists l', Forall2 (same_tree c ts) l l' /\ mounts_to k pol vfs_empty F (NDir [x2f] (-1) l').
  Proof.
    intros NE W St H B3 R Ets. pose proof (wf_kids _ _ _ W) as [Ss Ws].
    assert (AL : Forall loads l) by (rewrite Forall_forall; intros; apply all_load).
    destruct (rows_load l AL 296 []) as (l' & q & T & E); auto.
    { constructor. }
    { rewrite Forall_forall. intros. constructor. }
    exists l'. split; [assumption|]. exists (N.to_nat (total l)). intros f Lf.
    unfold vfs_empty. rewrite (mount_header f k v idx files dos size [x2f] (-1)%Z [] H B3). rewrite <- Ets. rewrite E by assumption. reflexivity.
  Qed.
End Mounting.

(** ** Disk times *)
Lemma lor_add a b k : b < 2 ^ k -> N.lor (a * 2 ^ k) b = a * 2 ^ k + b.
Proof.
  intros H.
  assert (L : N.land (a * 2 ^ k) b = 0).
  { apply N.bits_inj. intros i. rewrite N.land_spec, N.bits_0.
    destruct (N.lt_ge_cases i k) as [L|L].
    - rewrite N.mul_pow2_bits_low by assumption. reflexivity.
    - destruct (N.eq_dec b 0) as [->|NZ]; [rewrite N.bits_0; apply Bool.andb_false_r|].
      rewrite (N.bits_above_log2 b i); [apply Bool.andb_false_r|].
      apply N.lt_le_trans with k; [|assumption]. apply N.log2_lt_pow2; lia. }
  rewrite N.add_nocarry_lxor by assumption. symmetry. apply N.lxor_lor. assumption.
Qed.
Definition dos_word (y mo d h mi s : N) : N := ((((y * 16 + mo) * 32 + d) * 32 + h) * 64 + mi) * 32 + s.
Lemma dos_lor y mo d h mi s : mo < 16 -> d < 32 -> h < 32 -> mi < 64 -> s < 32 ->
  N.lor (N.lor (N.lor (N.lor (N.lor (y * 2 ^ 25) (mo * 2 ^ 21)) (d * 2 ^ 16)) (h * 2 ^ 11)) (mi * 2 ^ 5)) s =
  dos_word y mo d h mi s.
Proof.
  intros H1 H2 H3 H4 H5. unfold dos_word.
  rewrite lor_add by (change (2 ^ 25) with (16 * 2 ^ 21); apply N.mul_lt_mono_pos_r; [reflexivity|assumption]).
  replace (y * 2 ^ 25 + mo * 2 ^ 21) with ((y * 16 + mo) * 2 ^ 21) by (change (2 ^ 25) with (16 * 2 ^ 21); ring).
  rewrite lor_add by (change (2 ^ 21) with (32 * 2 ^ 16); apply N.mul_lt_mono_pos_r; [reflexivity|assumption]).
  set (a := y * 16 + mo).
  replace (a * 2 ^ 21 + d * 2 ^ 16) with ((a * 32 + d) * 2 ^ 16) by (change (2 ^ 21) with (32 * 2 ^ 16); ring).
  rewrite lor_add by (change (2 ^ 16) with (32 * 2 ^ 11); apply N.mul_lt_mono_pos_r; [reflexivity|assumption]).
  set (a1 := a * 32 + d).
  replace (a1 * 2 ^ 16 + h * 2 ^ 11) with ((a1 * 32 + h) * 2 ^ 11) by (change (2 ^ 16) with (32 * 2 ^ 11); ring).
  rewrite lor_add by (change (2 ^ 11) with (64 * 2 ^ 5); apply N.mul_lt_mono_pos_r; [reflexivity|assumption]).
  set (a2 := a1 * 32 + h).
  replace (a2 * 2 ^ 11 + mi * 2 ^ 5) with ((a2 * 64 + mi) * 2 ^ 5) by (change (2 ^ 11) with (64 * 2 ^ 5); ring).
  rewrite lor_add by assumption. reflexivity.
Qed.
Lemma div_pair a b m : b < m -> (a * m + b) / m = a.
Proof. intros H. rewrite N.div_add_l by lia. rewrite N.div_small by assumption. lia. Qed.
Lemma mod_pair a b m : b < m -> (a * m + b) mod m = b.
Proof. intros H. rewrite N.add_comm, N.mod_add by lia. apply N.mod_small. assumption. Qed.
Lemma dos_fields y mo d h mi s : y < 128 -> mo < 16 -> d < 32 -> h < 32 -> mi < 64 -> s < 32 ->
  dos_unpack (dos_word y mo d h mi s) =
  mkTm (Z.of_N y + 80) (Z.of_N mo - 1) (Z.of_N d) (Z.of_N h) (Z.of_N mi) (Z.of_N s * 2).
Proof.
  intros H0 H1 H2 H3 H4 H5. unfold dos_unpack. cbn zeta.
  change 127 with (N.ones 7). change 15 with (N.ones 4). change 63 with (N.ones 6). change 31 with (N.ones 5).
  rewrite !N.land_ones, !N.shiftr_div_pow2.
  change (2 ^ 0) with 1. rewrite N.div_1_r.
  unfold dos_word.
  set (a := y * 16 + mo). set (a1 := a * 32 + d). set (a2 := a1 * 32 + h). set (a3 := a2 * 64 + mi).
  assert (D5 : (a3 * 32 + s) / 2 ^ 5 = a3) by (apply div_pair; assumption).
  assert (D11 : (a3 * 32 + s) / 2 ^ 11 = a2).
  { change (2 ^ 11) with (2 ^ 5 * 64). rewrite <- N.div_div by discriminate. rewrite D5. apply div_pair. assumption. }
  assert (D16 : (a3 * 32 + s) / 2 ^ 16 = a1).
  { change (2 ^ 16) with (2 ^ 11 * 32). rewrite <- N.div_div by discriminate. rewrite D11. apply div_pair. assumption. }
  assert (D21 : (a3 * 32 + s) / 2 ^ 21 = a).
  { change (2 ^ 21) with (2 ^ 16 * 32). rewrite <- N.div_div by discriminate. rewrite D16. apply div_pair. assumption. }
  assert (D25 : (a3 * 32 + s) / 2 ^ 25 = y).
  { change (2 ^ 25) with (2 ^ 21 * 16). rewrite <- N.div_div by discriminate. rewrite D21. apply div_pair. assumption. }
  rewrite D5, D11, D16, D21, D25.
  change (2 ^ 4) with 16. change (2 ^ 5) with 32. change (2 ^ 6) with 64. change (2 ^ 7) with 128.
  unfold a3. rewrite (mod_pair a2 mi 64) by assumption. fold a3. rewrite (mod_pair a3 s 32) by assumption.
  unfold a2. rewrite (mod_pair a1 h 32) by assumption. fold a2.
  unfold a1. rewrite (mod_pair a d 32) by assumption. fold a1.
  unfold a. rewrite (mod_pair y mo 16) by assumption. rewrite (N.mod_small y 128) by assumption. reflexivity.
Qed.
Lemma dos_pack_word y mo d h mi s : (0 <= y < 128 -> 0 <= mo < 16 -> 0 <= d < 32 -> 0 <= h < 32 -> 0 <= mi < 64 -> 0 <= s < 64 ->
  dos_pack (mkTm (y + 80) (mo - 1) d h mi s) =
  dos_word (Z.to_N y) (Z.to_N mo) (Z.to_N d) (Z.to_N h) (Z.to_N mi) (Z.to_N (Z.quot s 2)))%Z.
Proof.
  intros H0 H1 H2 H3 H4 H5. unfold dos_pack. cbn [tm_year tm_mon tm_mday tm_hour tm_min tm_sec].
  replace (y + 80 - 80)%Z with y by lia. replace (mo - 1 + 1)%Z with mo by lia.
  assert (Q : (0 <= Z.quot s 2 < 32)%Z).
  { rewrite Z.quot_div_nonneg by lia. split; [apply Z.div_pos; lia|apply Z.div_lt_upper_bound; lia]. }
  rewrite (uint_small 32 (Z.quot s 2)) by (change (Z.of_N (2 ^ 32)) with 4294967296%Z; lia).
  assert (E : forall v k m, (0 <= v < m -> 0 <= k -> m * 2 ^ k <= 4294967296 -> uint 32 (v * 2 ^ k) = (Z.to_N v * 2 ^ Z.to_N k)%N)%Z).
  { intros v k m Hv Hk Hm. rewrite uint_small.
    - rewrite Z2N.inj_mul by (auto with zarith; apply Z.pow_nonneg; lia). f_equal. rewrite Z2N.inj_pow by lia. reflexivity.
    - change (Z.of_N (2 ^ 32)) with 4294967296%Z. pose proof (Z.pow_pos_nonneg 2 k). nia. }
  rewrite (E y 25 128)%Z by (lia || reflexivity || (intro X; discriminate X)).
  rewrite (E mo 21 16)%Z by (lia || reflexivity || (intro X; discriminate X)).
  rewrite (E d 16 32)%Z by (lia || reflexivity || (intro X; discriminate X)).
  rewrite (E h 11 32)%Z by (lia || reflexivity || (intro X; discriminate X)).
  rewrite (E mi 5 64)%Z by (lia || reflexivity || (intro X; discriminate X)).
  apply (dos_lor (Z.to_N y) (Z.to_N mo) (Z.to_N d) (Z.to_N h) (Z.to_N mi)); lia.
Qed.

Lemma dos_round t : tm_ok t -> Z.even (tm_sec t) = true -> dos_unpack (dos_pack t) = t.
Proof.
  destruct t as [y mo d h mi s]. unfold tm_ok. cbn [tm_year tm_mon tm_mday tm_hour tm_min tm_sec].
  intros (H0 & H1 & H2 & H3 & H4 & H5) Ev. apply Z.even_spec in Ev. destruct Ev as [s2 ->].
  replace y with ((y - 80) + 80)%Z at 1 by lia. replace mo with ((mo + 1) - 1)%Z at 1 by lia.
  rewrite dos_pack_word by lia.
  replace (2 * s2 ÷ 2)%Z with s2 by (rewrite (Z.mul_comm 2), Z.quot_mul by lia; reflexivity).
  rewrite dos_fields by lia. f_equal; rewrite Z2N.id by lia; lia.
Qed.
Lemma dos_round' w : w < 2 ^ 32 -> dos_pack (dos_unpack w) = w.
Proof.
  intros H.
  set (s := w mod 32). set (a3 := w / 32). set (mi := a3 mod 64). set (a2 := a3 / 64). set (h := a2 mod 32). set (a1 := a2 / 32).
  set (d := a1 mod 32). set (a := a1 / 32). set (mo := a mod 16). set (y := a / 16).
  assert (E : w = dos_word y mo d h mi s).
  { unfold dos_word. replace (y * 16 + mo) with a by (unfold y, mo; rewrite N.mul_comm; apply N.div_mod; discriminate).
    replace (a * 32 + d) with a1 by (unfold a, d; rewrite N.mul_comm; apply N.div_mod; discriminate).
    replace (a1 * 32 + h) with a2 by (unfold a1, h; rewrite N.mul_comm; apply N.div_mod; discriminate).
    replace (a2 * 64 + mi) with a3 by (unfold a2, mi; rewrite N.mul_comm; apply N.div_mod; discriminate).
    unfold a3, s. rewrite N.mul_comm. apply N.div_mod. discriminate. }
  assert (By : y < 128).
  { apply N.div_lt_upper_bound; [discriminate|]. apply N.div_lt_upper_bound; [discriminate|].
    apply N.div_lt_upper_bound; [discriminate|]. apply N.div_lt_upper_bound; [discriminate|].
    apply N.div_lt_upper_bound; [discriminate|]. exact H. }
  assert (Bs : s < 32) by (apply N.mod_lt; discriminate).
  assert (Bmi : mi < 64) by (apply N.mod_lt; discriminate).
  assert (Bh : h < 32) by (apply N.mod_lt; discriminate).
  assert (Bd : d < 32) by (apply N.mod_lt; discriminate).
  assert (Bmo : mo < 16) by (apply N.mod_lt; discriminate).
  rewrite E at 1. rewrite dos_fields by assumption.
  clear - E By Bs Bmi Bh Bd Bmo. clearbody s mi h d mo y.
  rewrite dos_pack_word by lia. rewrite !N2Z.id. rewrite Z.quot_mul by lia. rewrite N2Z.id. symmetry. exact E.
Qed.
Lemma dos_pack_lt t : dos_pack t < 2 ^ 32.
Proof.
  assert (L : forall a b, a < 2 ^ 32 -> b < 2 ^ 32 -> N.lor a b < 2 ^ 32).
  { intros a b Ha Hb. destruct (N.eq_dec (N.lor a b) 0) as [->|NZ]; [reflexivity|].
    apply N.log2_lt_pow2; [lia|]. rewrite N.log2_lor. apply N.max_lub_lt.
    - destruct (N.eq_dec a 0) as [->|]; [reflexivity|]. apply N.log2_lt_pow2; lia.
    - destruct (N.eq_dec b 0) as [->|]; [reflexivity|]. apply N.log2_lt_pow2; lia. }
  unfold dos_pack. cbn zeta. repeat apply L; apply uint_bound.
Qed.

(** ** Save, then mount *)
Lemma writes_fun w a b : writes w a -> writes w b -> len a < max_size -> len b < max_size -> a = b.
Proof.
  intros Wa Wb La Lb. specialize (Wa w_empty eq_refl). specialize (Wb w_empty eq_refl).
  cbn [wbuf w_empty app] in *. rewrite len_nil in *. rewrite Wa in Wb by lia. specialize (Wb ltac:(lia)). congruence.
Qed.
Lemma len_flat_map_le {A} (f : A -> bytes) m l : (forall x, In x l -> len (f x) <= m) -> len (flat_map f l) <= m * len l.
Proof.
  induction l as [|x l IH]; intros H; cbn [flat_map]; [rewrite !len_nil; lia|].
  rewrite len_app, len_cons. specialize (H x (or_introl eq_refl)) as Hx. specialize (IH (fun y Hy => H y (or_intror Hy))). lia.
Qed.
Lemma len_zip_bytes c b : codec_ok c -> len b < 2 ^ 32 -> len (zip_bytes c b) < max_size.
Proof.
  intros Hc L. unfold zip_bytes. rewrite !len_app, !len_le_enc. change (N.of_nat 4) with 4.
  pose proof (len_flat_map_le (zenc c b) (2 ^ 32 + 12) (seq 0 (N.to_nat (zcount b)))) as H.
  assert (X : forall x, In x (seq 0 (N.to_nat (zcount b))) -> len (zenc c b x) <= 2 ^ 32 + 12).
  { intros x _. unfold zenc. rewrite !len_app, !len_le_enc. change (N.of_nat 4) with 4.
    destruct (Hc (zsrc b (N.of_nat x))) as [_ K]; [rewrite len_zsrc; lia|]. lia. }
  specialize (H X). clear X. unfold len at 2 in H. rewrite seq_length, N2Nat.id in H.
  pose proof (zcount_bounds b) as Z. rewrite max_size_val.
  change (2 ^ 32) with 4294967296 in *. clear Hc. nia.
Qed.
Lemma takes_size c z k : codec_ok c -> storable c z k -> forall n, takes c z k n -> n < 2 ^ 32 ->
  n = 80 * count_nodes k + dsize c z k.
Proof.
  intros Hc. induction k as [nm t fd|nm t l IH] using node_ind'; intros St n T B.
  - destruct (payload_writes c z 0 Hc nm t fd St) as [W _]. cbn zeta in W.
    inversion T as [? ? ? b p FB W'|]; subst. unfold stored in W'. rewrite (cont_ok _ _ _ FB) in W.
    inversion St as [? ? ? b' N FB' L Z|]; subst.
    assert (b' = b) as -> by (rewrite <- (cont_ok _ _ _ FB), <- (cont_ok _ _ _ FB'); reflexivity).
    assert (E : payload c z nm fd = p).
    { apply (writes_fun _ _ _ W W'); [|rewrite max_size_val; lia].
      unfold payload. rewrite (cont_ok _ _ _ FB). destruct (packed z nm); [apply len_zip_bytes; [assumption|lia]|].
      rewrite max_size_val. lia. }
    cbn [count_nodes dsize]. rewrite E. lia.
  - inversion T as [|? ? ? ns T2]; subst. inversion St as [|? ? ? N NE Sl]; subst.
    cbn [count_nodes dsize]. fold (total l). fold (dsizes c z l).
    assert (X : fold_right N.add 0 ns = 80 * total l + dsizes c z l); [|lia].
    assert (B' : fold_right N.add 0 ns < 2 ^ 32) by lia. clear B T NE St N. revert Sl B'.
    induction T2 as [|k n l ns Tk Tl IHl]; intros Sl B'; [reflexivity|].
    inversion Sl; subst. inversion IH; subst. cbn [fold_right] in *.
    rewrite total_cons, dsizes_cons. rewrite IHl by (auto; lia).
    rewrite (H3 H1 n Tk) by lia. lia.
Qed.
Lemma fits_size c z l : codec_ok c -> Forall (storable c z) l -> fits c z l -> 296 + 80 * total l + dsizes c z l < 2 ^ 32.
Proof.
  intros Hc St (ns & T & B).
  assert (X : fold_right N.add 0 ns = 80 * total l + dsizes c z l); [|lia].
  assert (B' : fold_right N.add 0 ns < 2 ^ 32) by lia. clear B. revert St B'.
  induction T as [|k n l ns Tk Tl IHl]; intros Sl B'; [reflexivity|].
  inversion Sl; subst. cbn [fold_right] in *. rewrite total_cons, dsizes_cons. rewrite IHl by (auto; lia).
  rewrite (takes_size c z k Hc H1 n Tk) by lia. lia.
Qed.

Lemma save_mount c k z v ut nm t l pol : codec_ok c -> l <> [] -> wf (NDir nm t l) -> Forall (storable c z) l ->
  fits c z l ->
  exists w l', vfs_save c k z v ut (NDir nm t l) w_empty = Ret (tt, w) /\
    Forall2 (same_tree c (mktime k (dos_unpack (dos_pack (gmtime k ut))))) l l' /\
    mounts_to k pol vfs_empty (wbuf w) (NDir [x2f] (-1) l').
Proof.
  intros Hc NE W St B. apply fits_size in B; [|assumption..].
  destruct (vfs_save_ok c k z v ut nm t l Hc St B) as (idx & files & size & w & E & L & H & R).
  destruct (mount_rows c z (wbuf w) (mktime k (dos_unpack (dos_pack (gmtime k ut)))) pol Hc ltac:(lia) k v idx files (dos_pack (gmtime k ut)) size l NE)
    as (l' & T & M); auto.
  { apply wf_kids in W. constructor; apply W. }
  { apply dos_pack_lt. }
  exists w, l'. auto.
Qed.
