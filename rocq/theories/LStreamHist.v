(** Histories on readers and writers; typed sequences; chunks. *)

From Verif Require Import MBase MStream SStream LBase LStream.
Local Open Scope N_scope.

Ltac Zify.zify_post_hook ::= Z.div_mod_to_equations.

(** ** Memory reader *)
Lemma seek_in_range size p off w : p <= size -> size <= 2 ^ 62 ->
  arg_tame (OSeek off w) ->
  exists q, seek_internal p size off w = Ret q /\
    (if size <? q then p else q) = (if in_range (seek_target p size off w) size
                                    then Z.to_N (seek_target p size off w) else p).
Proof.
  intros Hp Hs Ht.
  assert (Hu : forall z, (- 2 ^ 63 <= z < 2 ^ 63)%Z ->
    (if size <? uint 64 z then p else uint 64 z) = (if in_range z size then Z.to_N z else p)).
  { intros z Hz. unfold in_range. pows.
    destruct (Z.leb_spec 0 z) as [H0|H0]; cbn [andb].
    - rewrite uint_small by (pows; lia).
      destruct (N.ltb_spec size (Z.to_N z)), (Z.leb_spec z (Z.of_N size)); try reflexivity; lia.
    - rewrite uint_neg by (pows; lia). pows.
      destruct (N.ltb_spec size (Z.to_N (z + Z.of_N 18446744073709551616))); [reflexivity|lia]. }
  unfold seek_internal, seek_target.
  destruct w; cbn [arg_tame] in Ht.
  - eexists; split; [reflexivity|]. apply Hu. exact Ht.
  - rewrite sint_small by (pows; lia). rewrite ssize_add_ok by (pows; lia).
    cbn [obind]. eexists; split; [reflexivity|]. apply Hu. pows. lia.
  - rewrite sint_small by (pows; lia). rewrite ssize_add_ok by (pows; lia).
    cbn [obind]. eexists; split; [reflexivity|]. apply Hu. pows. lia.
Qed.

Lemma r_step_cursor data pos o : pos <= len data -> len data <= 2 ^ 62 -> arg_tame o ->
  let (r, pos') := cursor_step data pos o in
  r_step o (mkR data pos) = Ret (r, mkR data pos') /\ pos' <= len data.
Proof.
  intros Hp Hl Ht.
  assert (Hok : r_ok (mkR data pos)) by (split; cbn; pows; lia).
  destruct o as [n|off w| |]; cbn [cursor_step r_step].
  - split; [|lia]. unfold bind. rewrite rd_read_spec by (cbn [arg_tame] in Ht; assumption).
    reflexivity.
  - destruct (seek_in_range (len data) pos off w Hp Hl Ht) as (q & Eq & E).
    split.
    + unfold bind, rd_seek. cbn [rdata rpos]. rewrite Eq. cbn [obind].
      rewrite <- E. destruct (len data <? q); reflexivity.
    + unfold in_range. destruct (_ && _)%bool eqn:Er; lia.
  - split; [reflexivity | exact Hp].
  - split; [|exact Hp]. unfold bind, rd_eof, ret. cbn [rdata rpos].
    do 3 f_equal. destruct (N.leb_spec (len data) pos), (N.eqb_spec pos (len data)); lia || reflexivity.
Qed.

Lemma r_history os : forall data pos, pos <= len data -> len data <= 2 ^ 62 ->
  Forall arg_tame os ->
  mapM r_step os (mkR data pos) =
  Ret (fst (cursor_run data pos os), mkR data (snd (cursor_run data pos os))).
Proof.
  induction os as [|o os IH]; intros data pos Hp Hl Ht; cbn [mapM cursor_run]; [reflexivity|].
  inversion Ht as [|? ? Ho Hos]; subst.
  pose proof (r_step_cursor data pos o Hp Hl Ho) as Hstep.
  destruct (cursor_step data pos o) as [r pos'] eqn:E. destruct Hstep as [Hs Hp'].
  unfold bind at 1. rewrite Hs. unfold bind at 1.
  rewrite (IH data pos' Hp' Hl Hos).
  destruct (cursor_run data pos' os) as [rs pos'']. reflexivity.
Qed.

(** ** Growable writer *)
Lemma nth_app_lt (l1 l2 : bytes) i : (i < length l1)%nat -> nth i (l1 ++ l2) x00 = nth i l1 x00.
Proof. intros H. apply app_nth1. exact H. Qed.

Lemma nth_take n (l : bytes) i : (N.of_nat i < n) -> nth i (take n l) x00 = nth i l x00.
Proof.
  intros H. rewrite take_firstn. revert l i H.
  assert (G : forall k (l : bytes) i, (i < k)%nat -> nth i (firstn k l) x00 = nth i l x00).
  { induction k as [|k IHk]; intros l i Hi; [lia|].
    destruct l as [|x l]; [destruct i; reflexivity|]. cbn [firstn].
    destruct i as [|i]; [reflexivity|]. cbn [nth]. apply IHk. lia. }
  intros l i H. apply G. lia.
Qed.

Lemma nth_drop n (l : bytes) i : nth i (drop n l) x00 = nth (N.to_nat n + i) l x00.
Proof.
  rewrite drop_skipn. generalize (N.to_nat n) as k. intros k. revert l.
  induction k as [|k IHk]; intros l; [reflexivity|].
  destruct l as [|x l]; cbn [skipn Nat.add nth]; [destruct i; reflexivity | apply IHk].
Qed.

Lemma nth_repeat0 n i : nth i (repeat x00 n) x00 = x00.
Proof. revert i; induction n as [|n IH]; intros [|i]; cbn [repeat nth]; auto. Qed.

Lemma nth_overwrite l p b i : p + len b <= len l ->
  nth i (overwrite l p b) x00 =
  if (p <=? N.of_nat i) && (N.of_nat i <? p + len b)
  then nth (N.to_nat (N.of_nat i - p)) b x00 else nth i l x00.
Proof.
  intros H. unfold overwrite.
  assert (Hlt : length (take p l) = N.to_nat p).
  { pose proof (len_take p l) as E. unfold len in *. lia. }
  destruct (N.leb_spec p (N.of_nat i)) as [H1|H1]; cbn [andb].
  - rewrite app_nth2 by lia. rewrite Hlt.
    destruct (N.ltb_spec (N.of_nat i) (p + len b)) as [H2|H2].
    + rewrite app_nth1 by (unfold len in *; lia). f_equal. lia.
    + rewrite app_nth2 by (unfold len in *; lia). rewrite nth_drop. f_equal. unfold len in *. lia.
  - rewrite app_nth1 by lia. apply nth_take. exact H1.
Qed.

Lemma len_overwrite l p b : p + len b <= len l -> len (overwrite l p b) = len l.
Proof. intros H. unfold overwrite. lens. lia. Qed.

Definition w_rel (s : wstate) (f : sfile) : Prop :=
  wpos s = f_pos f /\ len (wbuf s) = f_size f /\
  (forall p, nth (N.to_nat p) (wbuf s) x00 = if p <? f_size f then f_at f p else x00) /\
  (forall p, f_size f <= p -> f_at f p = x00) /\
  f_size f < max_size /\ f_pos f < max_size.

Lemma w_step_rel s f o : w_rel s f -> w_fits f o ->
  exists s', w_step o s = Ret (tt, s') /\ w_rel s' (f_step f o).
Proof.
  intros (Hp & Hsz & Hat & Hz & Hm & Hmp) Hfit. destruct o as [b|off w]; cbn [w_step w_fits f_step] in *.
  - unfold wr_write. rewrite Hp, Hsz.
    destruct (N.ltb_spec (f_pos f + len b) max_size); [|lia].
    eexists; split; [reflexivity|].
    set (buf := if f_size f <? f_pos f + len b then wbuf s ++ zeros (f_pos f + len b - f_size f) else wbuf s).
    assert (Hbl : len buf = N.max (f_size f) (f_pos f + len b)).
    { unfold buf. destruct (N.ltb_spec (f_size f) (f_pos f + len b)); lens; lia. }
    assert (Hbn : forall p, nth (N.to_nat p) buf x00 = if p <? f_size f then f_at f p else x00).
    { intros p. rewrite <- Hat. unfold buf.
      destruct (N.ltb_spec (f_size f) (f_pos f + len b)); [|reflexivity].
      destruct (N.lt_ge_cases p (f_size f)) as [Hlt|Hge].
      - apply nth_app_lt. unfold len in Hsz. lia.
      - rewrite app_nth2 by (unfold len in Hsz; lia).
        unfold zeros. rewrite nth_repeat0.
        rewrite nth_overflow by (unfold len in Hsz; lia). reflexivity. }
    repeat split; cbn [wpos wbuf f_pos f_size f_at].
    + rewrite len_overwrite by lia. exact Hbl.
    + intros p. rewrite nth_overwrite by lia. rewrite N2Nat.id.
      destruct (N.leb_spec (f_pos f) p); cbn [andb].
      * destruct (N.ltb_spec p (f_pos f + len b)).
        -- destruct (N.ltb_spec p (N.max (f_size f) (f_pos f + len b))); [reflexivity | lia].
        -- rewrite Hbn. destruct (N.ltb_spec p (f_size f)), (N.ltb_spec p (N.max (f_size f) (f_pos f + len b)));
             try reflexivity; lia.
      * rewrite Hbn. destruct (N.ltb_spec p (f_size f)), (N.ltb_spec p (N.max (f_size f) (f_pos f + len b)));
          try reflexivity; try lia. symmetry. apply Hz. lia.
    + intros p Hpp. destruct (N.leb_spec (f_pos f) p); cbn [andb].
      * destruct (N.ltb_spec p (f_pos f + len b)); [lia|]. apply Hz. lia.
      * apply Hz. lia.
    + lia.
    + lia.
  - destruct Hfit as [Hoff Ht].
    assert (E : seek_internal (wpos s) (len (wbuf s)) off w =
                Ret (Z.to_N (seek_target (f_pos f) (f_size f) off w))).
    { rewrite Hp, Hsz. unfold seek_internal, seek_target in *. destruct w.
      - rewrite uint_small by (pows; lia). reflexivity.
      - rewrite sint_small by (pows; lia). rewrite ssize_add_ok by (pows; lia).
        cbn [obind]. rewrite uint_small by (pows; lia). reflexivity.
      - rewrite sint_small by (pows; lia). rewrite ssize_add_ok by (pows; lia).
        cbn [obind]. rewrite uint_small by (pows; lia). reflexivity. }
    unfold wr_seek. rewrite E. cbn [obind]. eexists; split; [reflexivity|].
    repeat split; cbn [wpos wbuf f_pos f_size f_at]; auto. pows. lia.
Qed.

Lemma w_history os : forall s f, w_rel s f -> hist_fits f os ->
  exists s', iterM w_step os s = Ret (tt, s') /\ w_rel s' (fold_left f_step os f).
Proof.
  induction os as [|o os IH]; intros s f Hr Hf; cbn [iterM fold_left].
  - exists s. split; [reflexivity | exact Hr].
  - destruct Hf as [Ho Hos]. destruct (w_step_rel s f o Hr Ho) as (s1 & E1 & Hr1).
    destruct (IH s1 _ Hr1 Hos) as (s2 & E2 & Hr2).
    exists s2. split; [|exact Hr2]. unfold bind. rewrite E1. exact E2.
Qed.

Lemma growable_writer os : hist_fits f_empty os ->
  exists s, iterM w_step os w_empty = Ret (tt, s) /\
    len (wbuf s) = f_size (fold_left f_step os f_empty) /\
    wpos s = f_pos (fold_left f_step os f_empty) /\
    forall p, p < len (wbuf s) -> nth_N (wbuf s) p = Some (f_at (fold_left f_step os f_empty) p).
Proof.
  intros H. destruct (w_history os w_empty f_empty) as (s & E & Hp & Hs & Hat & _).
  - repeat split; cbn; try reflexivity; try (pows; lia).
    intros p. destruct (N.to_nat p); destruct (N.ltb_spec p 0); reflexivity.
  - exact H.
  - exists s. repeat split; auto. intros p Hlt.
    specialize (Hat p). rewrite Hs in Hlt. apply N.ltb_lt in Hlt. rewrite Hlt in Hat.
    unfold nth_N. rewrite Hs, Hlt. rewrite <- Hat. apply nth_error_nth'.
    apply N.ltb_lt in Hlt. unfold len in Hs. lia.
Qed.

(** ** Fixed region *)
Definition s_rel (size : N) (s : sstate) (st : (N -> byte) * N) : Prop :=
  spos s = snd st /\ len (sbuf s) = size /\ snd st <= size /\
  (forall p, p < size -> nth (N.to_nat p) (sbuf s) x00 = fst st p).

Lemma s_step_rel size s st o : size <= 2 ^ 62 -> s_rel size s st -> w_tame o ->
  exists s', s_step o s = Ret (fst (region_step size st o), s') /\
             s_rel size s' (snd (region_step size st o)).
Proof.
  intros Hsize (Hp & Hl & Hle & Hat) Ht. destruct st as [f pos]. cbn [fst snd] in *.
  destruct o as [b|off w]; cbn [s_step region_step w_tame fst snd] in *.
  - unfold st_write. rewrite Hp, Hl.
    rewrite (u64_small (pos + len b)) by (pows; lia).
    set (k := N.min (len b) (size - pos)).
    assert (Ek : (if size <? pos + len b then u64 (2 ^ 64 + size - pos) else len b) = k).
    { unfold k. destruct (N.ltb_spec size (pos + len b)); [unfold u64; pows|]; lia. }
    rewrite Ek. destruct (N.ltb_spec size (pos + k)); [lia|].
    eexists; split; [reflexivity|].
    assert (Hk : len (take k b) = k) by (lens; lia).
    repeat split; cbn [spos sbuf fst snd].
    + rewrite len_overwrite; [exact Hl | lia].
    + lia.
    + intros p Hpp. rewrite nth_overwrite by lia. rewrite N2Nat.id, Hk.
      destruct (N.leb_spec pos p); cbn [andb]; [|apply Hat; exact Hpp].
      destruct (N.ltb_spec p (pos + k)); [|apply Hat; exact Hpp].
      apply nth_take. lia.
  - destruct (seek_in_range size pos off w Hle Hsize) as (q & Eq & E).
    { destruct w; exact Ht. }
    unfold bind, st_seek. rewrite Hp, Hl, Eq. cbn [obind].
    destruct (N.ltb_spec size q) as [Hq|Hq].
    + eexists; split; [reflexivity|]. repeat split; cbn [spos sbuf fst snd]; auto.
      * rewrite Hp. exact E.
      * rewrite <- E. exact Hle.
    + eexists; split; [reflexivity|]. repeat split; cbn [spos sbuf fst snd]; auto.
      rewrite <- E. exact Hq.
Qed.

Lemma s_history size os : forall s st, size <= 2 ^ 62 -> s_rel size s st -> Forall w_tame os ->
  exists s', mapM s_step os s = Ret (fst (region_run size st os), s') /\
             s_rel size s' (snd (region_run size st os)).
Proof.
  induction os as [|o os IH]; intros s st Hsz Hr Ht; cbn [mapM region_run].
  - exists s. split; [reflexivity | exact Hr].
  - inversion Ht as [|? ? Ho Hos]; subst.
    destruct (s_step_rel size s st o Hsz Hr Ho) as (s1 & E1 & Hr1).
    destruct (region_step size st o) as [r st1]. cbn [fst snd] in *.
    destruct (IH s1 st1 Hsz Hr1 Hos) as (s2 & E2 & Hr2).
    exists s2. unfold bind. rewrite E1, E2.
    destruct (region_run size st1 os) as [rs st2]. cbn [fst snd] in *.
    split; [reflexivity | exact Hr2].
Qed.

Lemma fixed_writer buf os : len buf <= 2 ^ 62 -> Forall w_tame os ->
  exists s, mapM s_step os (mkS buf 0) =
              Ret (fst (region_run (len buf) (fun p => nth (N.to_nat p) buf x00, 0) os), s) /\
    let (f, pos) := snd (region_run (len buf) (fun p => nth (N.to_nat p) buf x00, 0) os) in
    len (sbuf s) = len buf /\ spos s = pos /\ pos <= len buf /\
    forall p, p < len buf -> nth_N (sbuf s) p = Some (f p).
Proof.
  intros Hl Ht.
  destruct (s_history (len buf) os (mkS buf 0) (fun p => nth (N.to_nat p) buf x00, 0) Hl) as (s & E & Hr).
  - repeat split; cbn; auto. lia.
  - exact Ht.
  - exists s. split; [exact E|]. destruct (snd (region_run _ _ os)) as [f pos].
    destruct Hr as (Hp & Hs & Hle & Hat). cbn [fst snd] in *.
    repeat split; auto. intros p Hpp.
    rewrite <- (Hat p Hpp). unfold nth_N. rewrite Hs.
    apply N.ltb_lt in Hpp. rewrite Hpp. apply nth_error_nth'.
    apply N.ltb_lt in Hpp. unfold len in Hs, Hpp. lia.
Qed.

(** ** Typed sequences *)
Definition tenc (v : tval) : bytes :=
  match v with
  | VChar c => [c] | VByte z => le_enc 1 (uint 8 z) | VUByte n => le_enc 1 n
  | VShort z => le_enc 2 (uint 16 z) | VUShort n => le_enc 2 n
  | VInt z => le_enc 4 (uint 32 z) | VUInt n => le_enc 4 n | VFloat n => le_enc 4 n
  | VVec2 v => le_enc 4 (v2x v) ++ le_enc 4 (v2y v)
  | VVec3 v => le_enc 4 (v3x v) ++ le_enc 4 (v3y v) ++ le_enc 4 (v3z v)
  | VMat3 m => words_le (transpose3 m) | VMat4 m => words_le (transpose4 m)
  | VStr s => s | VStr0 s => s ++ [x00] | VLine s => s ++ [x0a]
  end.

Lemma twrite_writes v : writes (twrite v) (tenc v).
Proof.
  destruct v; cbn [twrite tenc];
    eauto using writes_char, writes_byte, writes_ubyte, writes_short, writes_ushort, writes_int,
      writes_uint, writes_float, writes_vec2, writes_vec3, writes_mat3, writes_mat4,
      writes_string, writes_string0, writes_line.
Qed.

Lemma tread_reads v : tval_ok v -> reads (tread v) (tenc v) v.
Proof.
  destruct v; cbn [tval_ok tread tenc]; intros H;
    try (apply (reads_map _ _ VChar), reads_char);
    try (apply (reads_map _ _ VByte), reads_byte; exact H);
    try (apply (reads_map _ _ VUByte), reads_ubyte; exact H);
    try (apply (reads_map _ _ VShort), reads_short; exact H);
    try (apply (reads_map _ _ VUShort), reads_ushort; exact H);
    try (apply (reads_map _ _ VInt), reads_int; exact H);
    try (apply (reads_map _ _ VUInt), reads_uint; exact H);
    try (apply (reads_map _ _ VFloat), reads_float; exact H).
  - apply (reads_map _ _ VVec2), reads_vec2; apply H.
  - apply (reads_map _ _ VVec3), reads_vec3; apply H.
  - apply (reads_map _ _ VMat3), reads_mat3; apply H.
  - apply (reads_map _ _ VMat4), reads_mat4; apply H.
  - apply (reads_map _ _ VStr), reads_string.
  - apply (reads_map _ _ VStr0), reads_line0; exact H.
  - apply (reads_map _ _ VLine), reads_line_nows; [exact H | reflexivity].
Qed.

Lemma reads_mapM {A B} (f : A -> rd B) (enc : A -> bytes) (g : A -> B) l :
  (forall x, In x l -> reads (f x) (enc x) (g x)) -> reads (mapM f l) (flat_map enc l) (map g l).
Proof.
  induction l as [|x l IH]; intros H; cbn [mapM flat_map map]; [apply reads_ret|].
  eapply reads_bind; [apply H; left; reflexivity|].
  eapply reads_if_last; [apply IH; intros y Hy; apply H; right; exact Hy | apply reads_ret].
Qed.

Lemma reads_repM {A} (f : rd A) (enc : A -> bytes) l n : n = length l ->
  (forall x, In x l -> reads f (enc x) x) -> reads (repM n f) (flat_map enc l) l.
Proof.
  intros ->.
  induction l as [|x l IH]; intros H; cbn [repM flat_map length]; [apply reads_ret|].
  eapply reads_bind; [apply H; left; reflexivity|].
  eapply reads_if_last; [apply IH; intros y Hy; apply H; right; exact Hy | apply reads_ret].
Qed.

Lemma typed_sequence vs : Forall tval_ok vs ->
  exists bs, writes (iterM twrite vs) bs /\ reads (mapM tread vs) bs vs.
Proof.
  intros H. exists (flat_map tenc vs). split.
  - apply writes_iter. intros; apply twrite_writes.
  - eapply reads_cast; [apply (reads_mapM tread tenc (fun v => v)) | reflexivity | apply map_id].
    intros v Hv. rewrite Forall_forall in H. apply tread_reads, H, Hv.
Qed.

(** ** Chunks *)
Lemma wr_seek_beg buf p q : q < max_size -> wr_seek (Z.of_N q) BEG (mkW buf p) = Ret (tt, mkW buf q).
Proof. intros H. unfold wr_seek, seek_internal. cbn [obind]. pows. rewrite uint_of_N by (pows; lia). reflexivity. Qed.

Lemma write_chunk_writes ty cb payload : writes cb payload -> len payload < 2 ^ 32 ->
  writes (write_chunk ty cb) (chunk_bytes (ty, payload)).
Proof.
  intros Hcb Hsz st Hp Hl. unfold chunk_bytes in *. cbn [fst snd] in *.
  rewrite !len_app, !len_le_enc in *. change (N.of_nat 2) with 2 in *. change (N.of_nat 4) with 4 in *.
  pows.
  unfold write_chunk.
  rewrite (writes_bind _ _ _ _ (writes_ushort ty) Hp) by (lens; pows; lia).
  unfold bind at 1. unfold wr_tell at 1. cbn [wpos].
  rewrite len_le_enc. change (N.of_nat 2) with 2.
  rewrite (writes_bind _ _ _ _ (writes_uint 0)); cbn [wbuf wpos]; [|lens; lia|lens; pows; lia].
  rewrite (writes_bind _ _ _ _ Hcb); cbn [wbuf wpos]; [|lens; lia|lens; pows; lia].
  unfold bind at 1. unfold wr_tell at 1. cbn [wpos].
  set (B := ((wbuf st ++ le_enc 2 ty) ++ le_enc 4 0) ++ payload).
  assert (En : (Z.of_N (len ((wbuf st ++ le_enc 2 ty) ++ le_enc 4 0) + len payload)
               - Z.of_N (len (wbuf st) + 2) - 4 = Z.of_N (len payload))%Z) by (lens; lia).
  rewrite En.
  unfold bind at 1. rewrite wr_seek_beg by (pows; lia).
  unfold bind. unfold write_uint at 1, wr_write. cbn [wbuf wpos].
  rewrite len_le_enc. change (N.of_nat 4) with 4.
  assert (HB : len B = len (wbuf st) + 6 + len payload) by (unfold B; lens; lia).
  destruct (N.ltb_spec (len (wbuf st) + 2 + 4) max_size); [|pows; lia].
  destruct (N.ltb_spec (len B) (len (wbuf st) + 2 + 4)); [lia|].
  unfold wr_seek, seek_internal. cbn [wbuf wpos].
  rewrite sint_small by (pows; lia). rewrite ssize_add_ok by (pows; lia). cbn [obind].
  rewrite uint_of_N by (pows; lia).
  rewrite uint_small by (pows; lia).
  do 2 f_equal. f_equal; [|lia].
  unfold overwrite. rewrite len_le_enc.
  assert (T : take (len (wbuf st) + 2) B = wbuf st ++ le_enc 2 ty).
  { unfold B. rewrite <- (app_assoc (wbuf st ++ le_enc 2 ty)).
    apply take_app_exact. lens. lia. }
  assert (D : drop (len (wbuf st) + 2 + N.of_nat 4) B = payload).
  { unfold B. apply drop_app_exact. lens. lia. }
  rewrite T, D, <- !app_assoc. reflexivity.
Qed.

Lemma write_chunks_writes (cs : list chunk) : Forall chunk_ok cs ->
  writes (iterM (fun c => write_chunk (fst c) (write_string (snd c))) cs) (flat_map chunk_bytes cs).
Proof.
  intros H. apply writes_iter. intros c Hc. rewrite Forall_forall in H.
  destruct c as [ty p]. apply write_chunk_writes; [apply writes_string | apply (H _ Hc)].
Qed.

Lemma read_chunked_present {A} (cb : N -> A -> rd (bool * A)) :
  cb_keeps cb ->
  forall cs fuel pre a, cs <> [] -> Forall chunk_ok cs -> (length cs <= fuel)%nat ->
  len (pre ++ flat_map chunk_bytes cs) < max_size ->
  read_chunked fuel cb a (mkR (pre ++ flat_map chunk_bytes cs) (len pre)) =
  present cb (pre ++ flat_map chunk_bytes cs) (len pre) cs a.
Proof.
  intros Hcb. induction cs as [|[ty p] cs IH]; intros fuel pre a Hne Hok Hf Hl; [congruence|].
  destruct fuel as [|fuel]; [cbn [length] in Hf; lia|].
  inversion Hok as [|? ? [Hty Hp] Hcs]; subst. cbn [fst snd] in Hty, Hp.
  cbn [flat_map] in *.
  set (rest := flat_map chunk_bytes cs) in *.
  set (data := pre ++ chunk_bytes (ty, p) ++ rest) in *.
  cbn [read_chunked present fst snd].
  unfold chunk_bytes in data. cbn [fst snd] in data.
  assert (Hdl : len data = len pre + (6 + len p + len rest)) by (unfold data; lens; lia).
  pose proof (reads_ushort ty Hty pre ((le_enc 4 (len p) ++ p) ++ rest) I) as R1.
  rewrite <- !app_assoc in R1. unfold bind at 1.
  assert (Edata : data = pre ++ le_enc 2 ty ++ le_enc 4 (len p) ++ p ++ rest)
    by (unfold data; rewrite <- !app_assoc; reflexivity).
  rewrite <- Edata in R1. rewrite R1 by exact Hl. clear R1.
  rewrite len_le_enc. change (N.of_nat 2) with 2.
  pose proof (reads_uint (len p) Hp (pre ++ le_enc 2 ty) (p ++ rest) I) as R2.
  rewrite <- !app_assoc in R2. rewrite <- Edata in R2.
  unfold bind at 1.
  replace (len pre + 2) with (len (pre ++ le_enc 2 ty)) by (lens; lia).
  rewrite R2 by exact Hl. clear R2.
  rewrite len_app, !len_le_enc. change (N.of_nat 2) with 2. change (N.of_nat 4) with 4.
  unfold bind at 1. unfold rd_tell at 1. cbn [rpos].
  replace (len pre + 2 + 4) with (len pre + 6) by lia.
  unfold bind at 1.
  destruct (cb ty a (mkR data (len pre + 6))) as [[[done a'] s']| | |] eqn:Ecb; try reflexivity.
  assert (Hs' : rdata s' = data /\ r_ok s').
  { assert (Hk : r_ok (mkR data (len pre + 6))) by (split; cbn [rdata rpos]; [lia | exact Hl]).
    exact (Hcb _ _ _ _ _ Hk Ecb). }
  destruct Hs' as [Hd [Hpos Hmax]]. destruct s' as [d' q]. cbn [rdata rpos] in *. subst d'.
  assert (Et : sint 64 (u64 (len pre + 6 + len p)) = Z.of_N (len pre + 6 + len p)).
  { rewrite u64_small by (pows; lia). apply sint_small. pows. lia. }
  rewrite Et. unfold bind at 1. rewrite rd_seek_beg by (lia || exact Hl).
  destruct done; [reflexivity|].
  cbn [fst snd]. unfold bind at 1. rewrite r_eof_at.
  destruct cs as [|c2 cs].
  - cbn in rest. subst rest. rewrite len_nil in Hdl.
    destruct (N.leb_spec (len data) (len pre + 6 + len p)); [|lia]. reflexivity.
  - destruct (N.leb_spec (len data) (len pre + 6 + len p)) as [Hx|_].
    { exfalso. subst rest. cbn [flat_map] in Hdl. unfold chunk_bytes at 1 in Hdl. lens. lia. }
    assert (E : data = (pre ++ chunk_bytes (ty, p)) ++ rest).
    { rewrite Edata. unfold chunk_bytes. cbn [fst snd]. rewrite <- !app_assoc. reflexivity. }
    assert (Ep : len pre + 6 + len p = len (pre ++ chunk_bytes (ty, p))).
    { unfold chunk_bytes; lens. cbn [fst snd]. lia. }
    rewrite E, Ep. unfold rest. apply IH; auto; try discriminate.
    + cbn [length] in *. lia.
    + fold rest. rewrite <- E. exact Hl.
Qed.

(** Termination on every input. *)
Lemma rd_read_safe n s : r_ok s -> n <= 2 ^ 63 ->
  exists b, rd_read n s = Ret (b, mkR (rdata s) (N.min (rpos s + n) (len (rdata s)))).
Proof.
  intros Hs Hn. rewrite rd_read_spec by assumption. eexists. do 3 f_equal.
  destruct Hs. lia.
Qed.

Lemma rd_fixed_safe n s : r_ok s -> n <= 2 ^ 63 ->
  exists b, rd_fixed n s = Ret (b, mkR (rdata s) (N.min (rpos s + n) (len (rdata s)))).
Proof.
  intros Hs Hn. destruct (rd_read_safe n s Hs Hn) as [b E].
  unfold rd_fixed, bind. rewrite E. eexists; reflexivity.
Qed.

Lemma read_chunked_terminates {A} (cb : N -> A -> rd (bool * A)) : cb_forward cb ->
  forall fuel a s, r_ok s -> (N.to_nat (len (rdata s) - rpos s) < fuel)%nat ->
  match read_chunked fuel cb a s with
  | Ret (_, s') => rdata s' = rdata s /\ r_ok s' /\ rpos s <= rpos s'
  | Throw _ => True
  | Undef => False
  | Fuel => False
  end.
Proof.
  intros Hcb. induction fuel as [|fuel IH]; intros a s Hs Hf; [lia|].
  pose proof Hs as [Hp Hl]. cbn [read_chunked].
  unfold read_ushort, read_uint.
  destruct (rd_fixed_safe 2 s Hs) as [b1 E1]; [pows; lia|].
  unfold bind at 1. unfold bind at 1. rewrite E1. unfold ret at 1.
  set (s1 := mkR (rdata s) (N.min (rpos s + 2) (len (rdata s)))).
  assert (Hs1 : r_ok s1) by (split; cbn [s1 rdata rpos]; [lia | exact Hl]).
  destruct (rd_fixed_safe 4 s1 Hs1) as [b2 E2]; [pows; lia|].
  unfold bind at 1. unfold bind at 1. rewrite E2. unfold ret at 1.
  cbn [s1 rdata rpos].
  set (p2 := N.min (N.min (rpos s + 2) (len (rdata s)) + 4) (len (rdata s))).
  unfold bind at 1. unfold rd_tell at 1. cbn [rpos].
  set (s2 := mkR (rdata s) p2).
  assert (Hs2 : r_ok s2) by (split; cbn [s2 rdata rpos]; [unfold p2; lia | exact Hl]).
  unfold bind at 1. specialize (Hcb (le_dec b1) a s2 Hs2).
  destruct (cb (le_dec b1) a s2) as [[[done a'] s3]| | |]; try exact Hcb.
  destruct Hcb as (Hd3 & [Hp3 Hl3] & Hge). cbn [s2 rdata rpos] in Hd3, Hge.
  destruct s3 as [d3 p3]. cbn [rdata rpos] in *. subst d3.
  pose proof (le_dec_bound b2) as Hb2.
  assert (Hlb2 : len b2 <= 4).
  { unfold rd_fixed, bind in E2. rewrite rd_read_spec in E2 by (assumption || (pows; lia)).
    injection E2 as E2 _. rewrite <- E2. unfold pad_to. lens. lia. }
  assert (Hsz : le_dec b2 < 2 ^ 32).
  { eapply N.lt_le_trans; [exact Hb2|]. change (2 ^ 32) with (256 ^ 4). apply N.pow_le_mono_r; lia. }
  assert (Eseek : rd_seek (sint 64 (u64 (p2 + le_dec b2))) BEG (mkR (rdata s) p3) =
    Ret (tt, mkR (rdata s) (if len (rdata s) <? p2 + le_dec b2 then p3 else p2 + le_dec b2))).
  { unfold rd_seek, seek_internal. cbn [obind rdata rpos].
    rewrite uint_sint by (unfold u64; pows; lia).
    rewrite u64_small by (pows; unfold p2; lia).
    destruct (len (rdata s) <? p2 + le_dec b2); reflexivity. }
  unfold bind at 1. rewrite Eseek.
  set (p4 := if len (rdata s) <? p2 + le_dec b2 then p3 else p2 + le_dec b2).
  assert (H4 : p2 <= p4 <= len (rdata s)).
  { unfold p4. destruct (N.ltb_spec (len (rdata s)) (p2 + le_dec b2)); lia. }
  assert (Hp2 : rpos s <= p2) by (unfold p2; lia).
  cbn [fst snd]. destruct done.
  { repeat split; cbn [rdata rpos]; lia. }
  unfold bind at 1. rewrite r_eof_at.
  destruct (N.leb_spec (len (rdata s)) p4) as [He|He].
  { repeat split; cbn [rdata rpos]; lia. }
  assert (Hlt : rpos s < p2) by (unfold p2; lia).
  specialize (IH a' (mkR (rdata s) p4)). cbn [rdata rpos] in IH.
  assert (Hok4 : r_ok (mkR (rdata s) p4)) by (split; cbn [rdata rpos]; lia).
  specialize (IH Hok4). 
  destruct (read_chunked fuel cb a' (mkR (rdata s) p4)) as [[a'' s'']| | |]; try exact IH.
  - destruct IH as (I1 & I2 & I3); [lia|]. repeat split; auto; try apply I2. lia.
  - exact I.
  - apply IH. lia.
  - apply IH. lia.
Qed.

(** ** Automation for straight-line readers and writers *)
Create HintDb reads.
Global Hint Resolve reads_char reads_ubyte reads_ushort reads_uint reads_float reads_byte reads_short
  reads_int reads_string reads_vec2 reads_vec3 reads_mat3 reads_mat4 : reads.
Create HintDb writes.
Global Hint Resolve writes_char writes_ubyte writes_ushort writes_uint writes_float writes_byte writes_short
  writes_int writes_string writes_string0 writes_line writes_vec2 writes_vec3 writes_mat3 writes_mat4
  writes_ret writes_raw : writes.

Lemma reads_last {A B} (P : bytes -> Prop) (m : rd A) (k : A -> rd B) bs a b :
  reads m bs a -> reads_if P (k a) [] b -> reads_if P (bind m k) bs b.
Proof.
  intros Hm Hk. rewrite <- (app_nil_r bs). eapply reads_bind; [exact Hm | exact Hk].
Qed.
(** One step of a reader: the first byte block belongs to the first sub-reader. *)
Ltac rstep := cbn beta; first
  [ eapply reads_bind; [solve [eauto with reads]|]
  | eapply reads_last; [solve [eauto with reads]|]
  | apply reads_ret ].
Lemma reads_ret_eq {A} P (a b : A) : a = b -> reads_if P (ret a) [] b.
Proof. intros ->. apply reads_ret. Qed.
Ltac rdone := apply reads_ret_eq;
  first [ reflexivity | match goal with |- _ = ?x => is_var x; destruct x; reflexivity end ].
Ltac rsteps := repeat rstep.
Ltac wstep := first
  [ eapply writes_seq; [solve [eauto with writes]|]
  | solve [eauto with writes] ].
Ltac wsteps := repeat wstep.
Global Arguments le_enc : simpl never.
