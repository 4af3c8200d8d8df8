(** Lemmas about readers of files and streams. *)

From Coq Require Import Lia ZifyN ZifyBool ZifyNat.
From Verif Require Import MBase MStream SStream MBoxes MModel MSource SSource SBoxes SFormat LBase LStream LStreamHist LBoxes LFormat LModel.
Local Open Scope N_scope.

Lemma prun_bind {S A B} step (p : rprog A) (f : A -> rprog B) : forall s : S,
  prun step (pbind p f) s = obind (prun step p s) (fun x => prun step (f (fst x)) (snd x)).
Proof.
  induction p as [[a|e| |]|o k IH]; intros s; try reflexivity. cbn [pbind prun].
  destruct (step o s) as [[r s']|e| |]; try reflexivity. cbn [obind fst snd]. apply IH.
Qed.

(** ** The cursor *)
Definition cur (data : bytes) (o : r_op) (pos : N) : outcome (r_res * N) := Ret (cursor_step data pos o).
Definition relabel {S T A} (g : S -> T) (r : outcome (A * S)) : outcome (A * T) :=
  obind r (fun x => Ret (fst x, g (snd x))).
Lemma value_relabel {S T A} (g : S -> T) (r : outcome (A * S)) : value (relabel g r) = value r.
Proof. destruct r as [[a s]|e| |]; reflexivity. Qed.

Lemma cursor_bound data pos o : pos <= len data -> snd (cursor_step data pos o) <= len data.
Proof.
  intros H. destruct o as [n|off w| |]; cbn [cursor_step snd]; try lia.
  unfold in_range. destruct (_ && _)%bool eqn:E; lia.
Qed.

Lemma sim {S A} (step : r_op -> S -> outcome (r_res * S)) data (g : N -> S) :
  (forall o pos, pos <= len data -> op_inside data pos o ->
     step o (g pos) = Ret (fst (cursor_step data pos o), g (snd (cursor_step data pos o)))) ->
  forall (p : rprog A) pos, pos <= len data -> inside data pos p ->
    prun step p (g pos) = relabel g (prun (cur data) p pos).
Proof.
  intros Hs. induction p as [[a|e| |]|o k IH]; intros pos Hp Hi; try reflexivity.
  destruct Hi as [Ho Hi]. cbn [prun]. rewrite (Hs o pos Hp Ho). cbn [obind fst snd].
  unfold cur at 1. cbn [obind fst snd]. apply IH; [apply cursor_bound, Hp | exact Hi].
Qed.

Lemma ssize_add_ok a b : (- 2 ^ 63 <= a + b < 2 ^ 63)%Z -> ssize_add a b = Ret (a + b)%Z.
Proof.
  intros H. unfold ssize_add. destruct (_ && _)%bool eqn:E; [reflexivity|].
  apply andb_false_iff in E. lia.
Qed.
Lemma seek_inside pos n off w : pos <= n -> n < max_size -> (- 2 ^ 63 <= off < 2 ^ 63)%Z ->
  in_range (seek_target pos n off w) n = true ->
  seek_internal pos n off w = Ret (Z.to_N (seek_target pos n off w)).
Proof.
  intros Hp Hn Ho Hr. unfold in_range in Hr. pows. unfold seek_internal, seek_target in *.
  destruct w; rewrite ?sint_small by (pows; lia).
  - rewrite uint_small by (pows; lia). reflexivity.
  - rewrite ssize_add_ok by lia. cbn [obind]. rewrite uint_small by (pows; lia). reflexivity.
  - rewrite ssize_add_ok by lia. cbn [obind]. rewrite uint_small by (pows; lia). reflexivity.
Qed.
Lemma seek_mem data pos off w : pos <= len data -> len data < max_size -> (- 2 ^ 63 <= off < 2 ^ 63)%Z ->
  in_range (seek_target pos (len data) off w) (len data) = true ->
  r_step (OSeek off w) (mkR data pos) = Ret (RUnit, mkR data (Z.to_N (seek_target pos (len data) off w))).
Proof.
  intros Hp Hl Ho Hr. cbn [r_step]. unfold bind, rd_seek. cbn [rpos rdata].
  rewrite seek_inside by assumption. cbn [obind]. unfold in_range in Hr.
  destruct (N.ltb_spec (len data) (Z.to_N (seek_target pos (len data) off w))); [lia|]. reflexivity.
Qed.

Lemma take_min {A} n (l : list A) : take (N.min n (len l)) l = take n l.
Proof. unfold take. do 2 f_equal. lia. Qed.
Lemma len_drop_ {A} n (l : list A) : len (drop n l) = len l - n.
Proof. lens. lia. Qed.
Lemma take_inside n pos (d : bytes) : take n (drop pos d) = take (N.min n (len d - pos)) (drop pos d).
Proof. rewrite <- (len_drop_ pos d), take_min. reflexivity. Qed.

Lemma mem_inside data o pos : len data < max_size -> pos <= len data -> op_inside data pos o ->
  r_step o (mkR data pos) = Ret (fst (cursor_step data pos o), mkR data (snd (cursor_step data pos o))).
Proof.
  intros Hl Hp Ho. destruct o as [n|off w| |].
  - cbn [op_inside] in Ho. cbn [r_step]. unfold bind. rewrite rd_read_spec; [reflexivity|split; assumption|]. pows. lia.
  - destruct Ho as [Ho Hr]. rewrite seek_mem by assumption. cbn [cursor_step fst snd]. rewrite Hr. reflexivity.
  - reflexivity.
  - cbn [op_inside] in Ho. cbn [r_step cursor_step fst snd]. unfold bind, rd_eof, ret. cbn [rdata rpos].
    replace (len data <=? pos) with false by lia. replace (pos =? len data) with false by lia. reflexivity.
Qed.

Lemma fs_inside data o pos : len data < max_size -> pos <= len data -> op_inside data pos o ->
  fs_step o (mkFS data pos false) = Ret (fst (cursor_step data pos o), mkFS data (snd (cursor_step data pos o)) false).
Proof.
  intros Hl Hp Ho. destruct o as [n|off w| |]; cbn [fs_step fs_pos fs_data fs_eof cursor_step fst snd].
  - cbn [op_inside] in Ho. rewrite take_inside. replace (N.min n (len data - pos)) with n by lia.
    assert (E : len (take n (drop pos data)) = n) by (lens; lia). rewrite E.
    replace (n <? n) with false by lia. reflexivity.
  - destruct Ho as [Ho Hr]. rewrite Hr. unfold in_range in Hr. pows.
    replace ((0 <=? seek_target pos (len data) off w) && (seek_target pos (len data) off w <? 9223372036854775808))%Z with true by lia.
    reflexivity.
  - reflexivity.
  - cbn [op_inside] in Ho. replace (pos =? len data) with false by lia. reflexivity.
Qed.

Lemma is_inside k data o pos : len data < max_size -> pos <= len data -> op_inside data pos o ->
  is_step o (mkIS k data pos false false) =
  Ret (fst (cursor_step data pos o), mkIS k data (snd (cursor_step data pos o)) false false).
Proof.
  intros Hl Hp Ho. destruct o as [n|off w| |]; cbn [is_step orb cursor_step fst snd].
  - cbn [op_inside] in Ho. rewrite take_inside. replace (N.min n (len data - pos)) with n by lia.
    assert (E : len (take n (drop pos data)) = n) by (lens; lia). rewrite E.
    replace (n <? n) with false by lia. reflexivity.
  - destruct Ho as [Ho Hr]. rewrite Hr. unfold in_range in Hr. pows.
    replace ((0 <=? seek_target pos (len data) off w) && (seek_target pos (len data) off w <? 9223372036854775808))%Z with true by lia.
    destruct k; reflexivity.
  - reflexivity.
  - cbn [op_inside] in Ho. replace (pos =? len data) with false by lia. reflexivity.
Qed.

Lemma inside_same {A} (p : rprog A) data : len data < max_size -> inside data 0 p ->
  from_file p data = from_memory p data /\ forall string, from_stream string p data = from_memory p data.
Proof.
  intros Hl Hi. unfold from_file, from_memory, from_stream, fs_open, is_open, r_from.
  rewrite (sim r_step data (mkR data)) by (try lia; try exact Hi; intros; apply mem_inside; assumption).
  rewrite (sim fs_step data (fun q => mkFS data q false)) by (try lia; try exact Hi; intros; apply fs_inside; assumption).
  rewrite !value_relabel. split; [reflexivity|]. intros k.
  rewrite (sim is_step data (fun q => mkIS k data q false false)) by (try lia; try exact Hi; intros; apply is_inside; assumption).
  apply value_relabel.
Qed.

(** Short reads. *)
Lemma file_same_from {A} data : len data < max_size -> forall (p : rprog A) pos hit, pos <= len data ->
  (hit = true -> pos = len data) -> inside_file data pos hit p ->
  value (prun fs_step p (mkFS data pos hit)) = value (prun r_step p (mkR data pos)).
Proof.
  intros Hl. induction p as [[a|e| |]|o k IH]; intros pos hit Hp Hh Hi; try reflexivity.
  destruct Hi as [Ho Hi]. cbn [prun].
  assert (E1 : r_step o (mkR data pos) = Ret (fst (cursor_step data pos o), mkR data (snd (cursor_step data pos o)))).
  { destruct o as [n|off w| |].
    - cbn [op_inside_file] in Ho. cbn [r_step]. unfold bind. rewrite rd_read_spec; [reflexivity|split; assumption|]. pows. lia.
    - destruct Ho as [Ho Hr]. rewrite seek_mem by assumption. cbn [cursor_step fst snd]. rewrite Hr. reflexivity.
    - reflexivity.
    - cbn [r_step cursor_step fst snd]. unfold bind, rd_eof, ret. cbn [rdata rpos].
      replace (pos =? len data) with (len data <=? pos) by lia. reflexivity. }
  assert (E2 : fs_step o (mkFS data pos hit) =
    Ret (fst (cursor_step data pos o), mkFS data (snd (cursor_step data pos o)) (hit_after data pos hit o))).
  { destruct o as [n|off w| |]; cbn [fs_step fs_pos fs_data fs_eof cursor_step fst snd hit_after].
    - rewrite take_inside.
      assert (E : len (take (N.min n (len data - pos)) (drop pos data)) = N.min n (len data - pos)) by (lens; lia).
      rewrite E. replace (N.min n (len data - pos) <? n) with (len data <? pos + n) by lia. reflexivity.
    - destruct Ho as [Ho Hr]. rewrite Hr. unfold in_range in Hr. pows.
      replace ((0 <=? seek_target pos (len data) off w) && (seek_target pos (len data) off w <? 9223372036854775808))%Z with true by lia.
      reflexivity.
    - reflexivity.
    - cbn [op_inside_file] in Ho. destruct hit; [rewrite (Hh eq_refl), N.eqb_refl; reflexivity|].
      destruct Ho as [Ho|Ho]; [|discriminate]. replace (pos =? len data) with false by lia. reflexivity. }
  rewrite E1, E2. cbn [obind fst snd]. apply IH.
  - apply cursor_bound, Hp.
  - destruct o as [n|off w| |]; cbn [hit_after cursor_step snd]; try exact Hh; try discriminate.
    intros H. apply orb_true_iff in H. destruct H as [H|H]; [rewrite (Hh H); lia|]. lia.
  - exact Hi.
Qed.
Lemma file_same {A} (p : rprog A) data : len data < max_size -> inside_file data 0 false p ->
  from_file p data = from_memory p data.
Proof. intros Hl Hi. apply file_same_from; [exact Hl|lia|discriminate|exact Hi]. Qed.

(** ** Programs over memory are the readers of the model *)
Lemma mem_get {A} n (f : bytes -> A) s : prun r_step (pget n f) s = bind (rd_fixed n) (fun b => ret (f b)) s.
Proof.
  unfold pget, rd_fixed, bind. cbn [prun r_step]. unfold bind. destruct (rd_read n s) as [[b s']|e| |]; reflexivity.
Qed.
Lemma mem_bind {A B} (p : rprog A) (f : A -> rprog B) s :
  prun r_step (pbind p f) s = bind (prun r_step p) (fun a => prun r_step (f a)) s.
Proof. rewrite prun_bind. unfold bind. destruct (prun r_step p s) as [[a s']|e| |]; reflexivity. Qed.

(** ** Reading what is there *)
Definition sreads {A} (p : rprog A) (bs : bytes) (a : A) : Prop :=
  forall pre post, len (pre ++ bs ++ post) < max_size ->
    inside (pre ++ bs ++ post) (len pre) p /\
    prun (cur (pre ++ bs ++ post)) p (len pre) = Ret (a, len pre + len bs).

Lemma inside_bind {A B} data (p : rprog A) (f : A -> rprog B) : forall pos, inside data pos p ->
  (forall a pos', prun (cur data) p pos = Ret (a, pos') -> inside data pos' (f a)) -> inside data pos (pbind p f).
Proof.
  induction p as [[a|e| |]|o k IH]; intros pos Hi Hf; cbn [pbind]; try exact I.
  - apply (Hf a pos). reflexivity.
  - destruct Hi as [Ho Hi]. split; [exact Ho|]. apply IH; [exact Hi|]. intros a pos' E. apply (Hf a pos').
    cbn [prun]. unfold cur at 1. cbn [obind]. exact E.
Qed.
Lemma sreads_bind {A B} (p : rprog A) (f : A -> rprog B) bs1 bs2 a b :
  sreads p bs1 a -> sreads (f a) bs2 b -> sreads (pbind p f) (bs1 ++ bs2) b.
Proof.
  intros H1 H2 pre post Hl. rewrite <- app_assoc in *.
  destruct (H1 pre (bs2 ++ post) Hl) as [I1 R1].
  assert (Ed : pre ++ bs1 ++ bs2 ++ post = (pre ++ bs1) ++ bs2 ++ post) by (rewrite <- app_assoc; reflexivity).
  destruct (H2 (pre ++ bs1) post) as [I2 R2]; [rewrite <- Ed; exact Hl|]. rewrite <- Ed, len_app in I2, R2. split.
  - apply inside_bind; [exact I1|]. intros a' pos' E. rewrite R1 in E. injection E as <- <-. exact I2.
  - rewrite prun_bind, R1. cbn [obind fst snd]. rewrite R2. rewrite len_app, N.add_assoc. reflexivity.
Qed.
Lemma sreads_ret {A} (a : A) : sreads (pret a) [] a.
Proof. intros pre post Hl. split; [exact I|]. cbn. rewrite N.add_0_r. reflexivity. Qed.
Lemma sreads_last {A B} (p : rprog A) (f : A -> rprog B) bs a b :
  sreads p bs a -> sreads (f a) [] b -> sreads (pbind p f) bs b.
Proof. intros H1 H2. rewrite <- (app_nil_r bs). eapply sreads_bind; eassumption. Qed.
Lemma sreads_get_bytes {A} n (f : bytes -> A) bs : n = len bs -> sreads (pget n f) bs (f bs).
Proof.
  intros -> pre post Hl. unfold pget. cbn [inside prun cur op_inside]. split.
  - split; [lens; lia|exact I].
  - unfold cur. cbn [cursor_step obind fst snd prun res_bytes].
    assert (E : N.min (len bs) (len (pre ++ bs ++ post) - len pre) = len bs) by (lens; lia). rewrite E.
    rewrite drop_app_exact by reflexivity. rewrite take_app_exact by reflexivity.
    cbn [pret prun obind]. unfold pad_to. rewrite N.sub_diag, zeros_0, app_nil_r. reflexivity.
Qed.
Lemma sreads_get {A} (m : rd A) n (f : bytes -> A) bs a :
  (forall s, m s = bind (rd_fixed n) (fun b => ret (f b)) s) -> n = len bs -> len bs < max_size ->
  reads m bs a -> sreads (pget n f) bs a.
Proof.
  intros Em En Hl R. assert (E : f bs = a).
  { specialize (R [] [] I). cbn [app] in R. rewrite app_nil_r in R. specialize (R Hl). rewrite Em in R.
    unfold bind in R. rewrite En in R. pose proof (reads_fixed (len bs) bs eq_refl [] [] I) as R0.
    cbn [app] in R0. rewrite app_nil_r in R0. rewrite (R0 Hl) in R. unfold ret in R. congruence. }
  rewrite <- E. apply sreads_get_bytes, En.
Qed.

Lemma sreads_ushort v : v < 2 ^ 16 -> sreads pushort (le_enc 2 v) v.
Proof. intros H. eapply sreads_get; [| |rewrite len_le_enc; pows; lia|apply reads_ushort, H]; reflexivity. Qed.
Lemma sreads_uint v : v < 2 ^ 32 -> sreads puint (le_enc 4 v) v.
Proof. intros H. eapply sreads_get; [| |rewrite len_le_enc; pows; lia|apply reads_uint, H]; reflexivity. Qed.
Lemma sreads_char c : sreads pchar [c] c.
Proof. apply (sreads_get_bytes 1 (hd x00) [c]). reflexivity. Qed.
Lemma sreads_short z : (- 2 ^ 15 <= z < 2 ^ 15)%Z -> sreads pshort (le_enc 2 (uint 16 z)) z.
Proof.
  intros H. eapply sreads_get; [| |rewrite len_le_enc; pows; lia|apply reads_short, H]; [|reflexivity].
  intros s. unfold read_short, read_ushort. rewrite bind_assoc. unfold bind at 1 3.
  destruct (rd_fixed 2 s) as [[b s']|e| |]; reflexivity.
Qed.
Lemma sreads_vec3 v : vec3_ok v -> sreads pvec3 (v3_enc v) v.
Proof.
  intros (H1 & H2 & H3). unfold v3_enc.
  eapply sreads_get; [| | |apply reads_vec3; assumption]; [reflexivity|reflexivity|]. lens. pows. lia.
Qed.
Lemma sreads_mat4 m : length m = 16%nat -> Forall f32 m -> sreads pmat4 (words_le (transpose4 m)) m.
Proof.
  intros H1 H2. assert (E : len (words_le (transpose4 m)) = 64) by (rewrite len_words_le; reflexivity).
  eapply sreads_get; [| | |apply reads_mat4; assumption]; [reflexivity|symmetry; exact E|]. rewrite E. pows. lia.
Qed.

Lemma sreads_until s : forall fuel c, no_eol s -> is_eol c = true -> (length s < fuel)%nat ->
  sreads (puntil fuel) (s ++ [c]) (s, c).
Proof.
  induction s as [|x s IH]; intros fuel c Hs Hc Hf; (destruct fuel as [|fuel]; [cbn [length] in Hf; lia|]); cbn [puntil app].
  - eapply sreads_last; [apply sreads_char|]. unfold is_eol in Hc. rewrite Hc. apply sreads_ret.
  - inversion Hs as [|? ? Hx Hs']; subst. change (x :: s ++ [c]) with ([x] ++ (s ++ [c])).
    eapply sreads_bind; [apply sreads_char|]. pose proof (is_eol_false x Hx) as E. unfold is_eol in E. rewrite E.
    eapply sreads_last; [apply IH; [exact Hs'|exact Hc|cbn [length] in Hf; lia]|]. apply sreads_ret.
Qed.
Lemma sreads_line fuel s c : no_eol s -> is_eol c = true -> (length s < fuel)%nat -> sreads (pline fuel []) (s ++ [c]) s.
Proof. intros Hs Hc Hf. unfold pline. eapply sreads_last; [apply sreads_until; assumption|]. apply sreads_ret. Qed.

Lemma sreads_rep {A} (enc : A -> bytes) (p : rprog A) : forall l : list A, (forall x, In x l -> sreads p (enc x) x) ->
  sreads (prep (length l) p) (flat_map enc l) l.
Proof.
  induction l as [|x l IH]; intros H; [apply sreads_ret|]. cbn [length prep flat_map].
  eapply sreads_bind; [apply H; left; reflexivity|]. eapply sreads_last; [apply IH; intros y Hy; apply H; right; exact Hy|].
  apply sreads_ret.
Qed.

Inductive schunk_run {A} (cb : N -> A -> rprog (bool * A)) : A -> list chunk -> A -> Prop :=
| srun_last a c a' : chunk_ok c -> sreads (cb (fst c) a) (snd c) (true, a') -> schunk_run cb a [c] a'
| srun_more a c a1 c2 cs a' : chunk_ok c -> sreads (cb (fst c) a) (snd c) (false, a1) ->
    schunk_run cb a1 (c2 :: cs) a' -> schunk_run cb a (c :: c2 :: cs) a'.

Lemma sreads_op {A} o (k : r_res -> rprog A) bs b : (forall pre post, len (pre ++ bs ++ post) < max_size ->
    op_inside (pre ++ bs ++ post) (len pre) o /\ exists r, cursor_step (pre ++ bs ++ post) (len pre) o = (r, len pre) /\
      inside (pre ++ bs ++ post) (len pre) (k r) /\ prun (cur (pre ++ bs ++ post)) (k r) (len pre) = Ret (b, len pre + len bs)) ->
  sreads (POp o k) bs b.
Proof.
  intros H pre post Hl. destruct (H pre post Hl) as (Ho & r & E & Hi & Hr). cbn [inside prun].
  unfold cur at 1. rewrite E. cbn [fst snd obind]. repeat split; assumption.
Qed.

(** A section: its head, its contents, and what follows its end. *)
Lemma sreads_section {A B} (ty : N) (payload : bytes) (cb : N -> rprog A) (k : A -> rprog B) rest a b :
  ty < 2 ^ 16 -> len payload < 2 ^ 32 -> sreads (cb ty) payload a -> sreads (k a) rest b ->
  sreads (pbind pushort (fun ty => pbind puint (fun size => POp OTell (fun here => pbind (cb ty) (fun r =>
    POp (OSeek (sint 64 (u64 (res_pos here + size))) BEG) (fun _ => k r))))))
    ((le_enc 2 ty ++ le_enc 4 (len payload) ++ payload) ++ rest) b.
Proof.
  intros Ht Hp Hc Hk. rewrite <- !app_assoc. eapply sreads_bind; [apply sreads_ushort, Ht|].
  eapply sreads_bind; [apply sreads_uint, Hp|]. apply sreads_op. intros pre post Hl. split; [exact I|].
  eexists. split; [reflexivity|]. cbn [res_pos].
  rewrite <- app_assoc in Hl |- *.
  destruct (Hc pre (rest ++ post) Hl) as [I1 R1].
  assert (Ed : pre ++ payload ++ rest ++ post = (pre ++ payload) ++ rest ++ post) by (rewrite <- app_assoc; reflexivity).
  destruct (Hk (pre ++ payload) post) as [I2 R2]; [rewrite <- Ed; exact Hl|]. rewrite <- Ed, len_app in I2, R2.
  set (data := pre ++ payload ++ rest ++ post) in *.
  assert (Hdl : len data = len pre + len payload + len rest + len post) by (unfold data; lens; lia).
  assert (Et : sint 64 (u64 (len pre + len payload)) = Z.of_N (len pre + len payload)).
  { pows. rewrite u64_small by (pows; lia). rewrite sint_small by (pows; lia). reflexivity. }
  assert (Er : in_range (Z.of_N (len pre + len payload)) (len data) = true) by (unfold in_range; lia).
  split.
  - apply inside_bind; [exact I1|]. intros a' pos' E. rewrite R1 in E. injection E as <- <-. rewrite Et.
    cbn [inside op_inside cursor_step fst snd seek_target]. rewrite Er. repeat split; try (pows; lia).
    rewrite N2Z.id. exact I2.
  - rewrite prun_bind, R1. cbn [obind fst snd prun]. rewrite Et. unfold cur at 1. cbn [cursor_step obind fst snd seek_target].
    rewrite Er, N2Z.id, R2, len_app, N.add_assoc. reflexivity.
Qed.

Lemma schunked {A} (cb : N -> A -> rprog (bool * A)) a cs a' : schunk_run cb a cs a' ->
  forall fuel, (length cs <= fuel)%nat -> sreads (pchunked fuel cb a) (flat_map chunk_bytes cs) a'.
Proof.
  intros H. induction H as [a [ty p] a' [Hty Hp] Hr | a [ty p] a1 c2 cs a' [Hty Hp] Hr Hrun IH];
    intros fuel Hf; cbn [fst snd] in *; (destruct fuel as [|fuel]; [cbn [length] in Hf; lia|]); cbn [pchunked flat_map].
  - unfold chunk_bytes; cbn [fst snd].
    apply (sreads_section ty p (fun ty => cb ty a)
      (fun r => if fst r then pret (snd r) else POp OEof (fun e => if res_bool e then pret (snd r) else pchunked fuel cb (snd r)))
      [] (true, a') a' Hty Hp Hr).
    cbn [fst snd]. apply sreads_ret.
  - unfold chunk_bytes at 1; cbn [fst snd].
    apply (sreads_section ty p (fun ty => cb ty a)
      (fun r => if fst r then pret (snd r) else POp OEof (fun e => if res_bool e then pret (snd r) else pchunked fuel cb (snd r)))
      _ (false, a1) a' Hty Hp Hr).
    cbn [fst snd]. cbn [flat_map] in IH. apply sreads_op. intros pre post Hl.
    assert (6 <= len (chunk_bytes c2)) by (unfold chunk_bytes; lens; lia).
    assert (Hlt : len pre < len (pre ++ (chunk_bytes c2 ++ flat_map chunk_bytes cs) ++ post)) by (lens; lia).
    split; [exact Hlt|]. eexists. split; [reflexivity|]. cbn [res_bool].
    replace (len pre =? _) with false by lia.
    apply (IH fuel); [cbn [length] in *; lia|exact Hl].
Qed.
