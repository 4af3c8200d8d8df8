(** Lemmas about streams. *)

From Verif Require Import MBase MStream SStream LBase.
Local Open Scope N_scope.

Ltac Zify.zify_post_hook ::= Z.div_mod_to_equations.

Lemma max_size_val : max_size = 9223372036854775808.
Proof. reflexivity. Qed.
Global Opaque max_size.

Lemma u64_small n : n < 2 ^ 64 -> u64 n = n.
Proof. intros H. unfold u64. apply N.mod_small, H. Qed.

Ltac pows :=
  change (2 ^ (64 - 1)) with 9223372036854775808 in *;
  change (2 ^ (32 - 1)) with 2147483648 in *;
  change (2 ^ (16 - 1)) with 32768 in *;
  change (2 ^ (8 - 1)) with 128 in *;
  change (2 ^ 64) with 18446744073709551616 in *;
  change (2 ^ 63) with 9223372036854775808 in *;
  change (2 ^ 62) with 4611686018427387904 in *;
  change (2 ^ 32) with 4294967296 in *;
  change (2 ^ 16) with 65536 in *;
  change (2 ^ 8) with 256 in *;
  change (2 ^ 64)%Z with 18446744073709551616%Z in *;
  change (2 ^ 63)%Z with 9223372036854775808%Z in *;
  change (2 ^ 62)%Z with 4611686018427387904%Z in *;
  rewrite ?max_size_val in *.

(** ** Raw reads *)
Lemma rd_read_spec n s : r_ok s -> n <= 2 ^ 63 ->
  rd_read n s = Ret (take (N.min n (len (rdata s) - rpos s)) (drop (rpos s) (rdata s)),
                     mkR (rdata s) (rpos s + N.min n (len (rdata s) - rpos s))).
Proof.
  intros [Hp Hl] Hn. unfold rd_read. pows.
  rewrite (u64_small (rpos s + n)) by (pows; lia).
  destruct (N.ltb_spec (len (rdata s)) (rpos s + n)) as [H|H].
  - replace (u64 (18446744073709551616 + len (rdata s) - rpos s)) with (len (rdata s) - rpos s)
      by (unfold u64; pows; lia).
    destruct (N.ltb_spec (len (rdata s)) (rpos s + (len (rdata s) - rpos s))); [lia|].
    replace (N.min n (len (rdata s) - rpos s)) with (len (rdata s) - rpos s) by lia.
    reflexivity.
  - destruct (N.ltb_spec (len (rdata s)) (rpos s + n)); [lia|].
    replace (N.min n (len (rdata s) - rpos s)) with n by lia. reflexivity.
Qed.

Lemma reads_raw bs : reads (rd_read (len bs)) bs bs.
Proof.
  intros pre post _ Hlen. pose proof Hlen as Hlen'. rewrite !len_app in Hlen'.
  rewrite rd_read_spec.
  - cbn [rdata rpos]. rewrite !len_app.
    replace (N.min (len bs) (len pre + (len bs + len post) - len pre)) with (len bs) by lia.
    rewrite drop_app_exact by reflexivity. rewrite take_app_exact by reflexivity. reflexivity.
  - split; cbn [rdata rpos]; [rewrite !len_app; lia | exact Hlen].
  - pows. lia.
Qed.

(** ** Composition of [reads] *)
Lemma reads_if_weaken {A} (P Q : bytes -> Prop) (r : rd A) bs a :
  (forall post, Q post -> P post) -> reads_if P r bs a -> reads_if Q r bs a.
Proof. intros H Hr pre post Hq. apply Hr, H, Hq. Qed.

Lemma reads_weaken {A} (Q : bytes -> Prop) (r : rd A) bs a : reads r bs a -> reads_if Q r bs a.
Proof. apply reads_if_weaken. intros; exact I. Qed.

Lemma reads_ret {A} (P : bytes -> Prop) (a : A) : reads_if P (ret a) [] a.
Proof. intros pre post _ _. unfold ret. rewrite len_nil, N.add_0_r. reflexivity. Qed.

Lemma reads_if_bind {A B} (P1 P2 : bytes -> Prop) (m : rd A) (k : A -> rd B) bs1 bs2 a b :
  reads_if P1 m bs1 a -> reads_if P2 (k a) bs2 b -> (forall post, P2 post -> P1 (bs2 ++ post)) ->
  reads_if P2 (bind m k) (bs1 ++ bs2) b.
Proof.
  intros Hm Hk HP pre post Hpost Hlen.
  rewrite <- app_assoc in *. unfold bind.
  rewrite (Hm pre (bs2 ++ post) (HP _ Hpost) Hlen).
  specialize (Hk (pre ++ bs1) post Hpost). rewrite <- !app_assoc in Hk.
  specialize (Hk Hlen). rewrite len_app in Hk. rewrite Hk.
  rewrite len_app, N.add_assoc. reflexivity.
Qed.

Lemma reads_bind {A B} (P : bytes -> Prop) (m : rd A) (k : A -> rd B) bs1 bs2 a b :
  reads m bs1 a -> reads_if P (k a) bs2 b -> reads_if P (bind m k) (bs1 ++ bs2) b.
Proof. intros Hm Hk. eapply reads_if_bind; [exact Hm | exact Hk | intros; exact I]. Qed.

Lemma reads_if_last {A B} (P : bytes -> Prop) (m : rd A) (k : A -> rd B) bs a b :
  reads_if P m bs a -> reads_if P (k a) [] b -> reads_if P (bind m k) bs b.
Proof.
  intros Hm Hk. rewrite <- (app_nil_r bs). eapply reads_if_bind; [exact Hm | exact Hk | auto].
Qed.

Lemma reads_map {A B} (P : bytes -> Prop) (m : rd A) (f : A -> B) bs a :
  reads_if P m bs a -> reads_if P (bind m (fun x => ret (f x))) bs (f a).
Proof. intros Hm. eapply reads_if_last; [exact Hm | apply reads_ret]. Qed.

Lemma reads_cast {A} (P : bytes -> Prop) (m : rd A) bs bs' a a' :
  reads_if P m bs a -> bs = bs' -> a = a' -> reads_if P m bs' a'.
Proof. intros H <- <-. exact H. Qed.

Lemma reads_assoc {A B C} (P : bytes -> Prop) (m : rd A) (f : A -> rd B) (g : B -> rd C) bs c :
  reads_if P (bind m (fun a => bind (f a) g)) bs c -> reads_if P (bind (bind m f) g) bs c.
Proof. intros H pre post HP Hl. rewrite bind_assoc. apply H; assumption. Qed.

(** ** Composition of [writes] *)
Lemma writes_ret : writes (ret tt) [].
Proof. intros st Hp _. unfold ret. rewrite app_nil_r, len_nil, N.add_0_r, <- Hp. destruct st; reflexivity. Qed.

Lemma writes_bind {A} (w1 : wr unit) (k : unit -> wr A) bs1 st : 
  writes w1 bs1 -> wpos st = len (wbuf st) -> len (wbuf st) + len bs1 < max_size ->
  bind w1 k st = k tt (mkW (wbuf st ++ bs1) (len (wbuf st) + len bs1)).
Proof. intros H Hp Hl. unfold bind. rewrite (H st Hp Hl). reflexivity. Qed.

Lemma writes_seq (w1 w2 : wr unit) bs1 bs2 :
  writes w1 bs1 -> writes w2 bs2 -> writes (bind w1 (fun _ => w2)) (bs1 ++ bs2).
Proof.
  intros H1 H2 st Hp Hl. rewrite len_app in *.
  rewrite (writes_bind _ _ bs1) by (auto; lia).
  rewrite H2; cbn [wbuf wpos]; rewrite ?len_app; try lia; try reflexivity.
  rewrite app_assoc, N.add_assoc. reflexivity.
Qed.

Lemma writes_cast w bs bs' : writes w bs -> bs = bs' -> writes w bs'.
Proof. intros H <-. exact H. Qed.

Lemma writes_raw bs : writes (wr_write bs) bs.
Proof.
  intros st Hp Hl. unfold wr_write. rewrite Hp.
  destruct (N.ltb_spec (len (wbuf st) + len bs) max_size); [|lia].
  assert (E : (if len (wbuf st) <? len (wbuf st) + len bs
      then wbuf st ++ zeros (len (wbuf st) + len bs - len (wbuf st)) else wbuf st)
      = wbuf st ++ zeros (len bs)).
  { destruct (N.ltb_spec (len (wbuf st)) (len (wbuf st) + len bs)).
    - do 2 f_equal. lia.
    - replace (len bs) with 0 by lia. rewrite zeros_0, app_nil_r. reflexivity. }
  rewrite E. unfold overwrite.
  rewrite take_app_exact by reflexivity.
  rewrite (drop_all (len (wbuf st) + len bs)) by (rewrite len_app, len_zeros; lia).
  rewrite app_nil_r. reflexivity.
Qed.

Lemma writes_iter {A} (f : A -> wr unit) (enc : A -> bytes) l :
  (forall x, In x l -> writes (f x) (enc x)) -> writes (iterM f l) (flat_map enc l).
Proof.
  induction l as [|x l IH]; intros H; cbn [iterM flat_map]; [apply writes_ret|].
  apply writes_seq; [apply H; left; reflexivity | apply IH; intros y Hy; apply H; right; exact Hy].
Qed.

(** ** Typed primitives *)
Lemma pad_exact bs : pad_to (len bs) bs = bs.
Proof. unfold pad_to. rewrite N.sub_diag, zeros_0, app_nil_r. reflexivity. Qed.

Lemma reads_fixed n bs : n = len bs -> reads (rd_fixed n) bs bs.
Proof.
  intros ->. unfold rd_fixed. eapply reads_if_last; [apply reads_raw|].
  rewrite pad_exact. apply reads_ret.
Qed.

Lemma reads_char c : reads read_char [c] c.
Proof. unfold read_char. eapply reads_if_last; [apply reads_fixed; reflexivity | apply reads_ret]. Qed.

Lemma reads_le k (n : N) v : n = N.of_nat k -> v < 256 ^ n ->
  reads (bind (rd_fixed n) (fun b => ret (le_dec b))) (le_enc k v) v.
Proof.
  intros -> Hv. eapply reads_if_last; [apply reads_fixed; rewrite len_le_enc; reflexivity|].
  rewrite le_dec_enc_small by exact Hv. apply reads_ret.
Qed.

Lemma reads_ubyte v : v < 2 ^ 8 -> reads read_ubyte (le_enc 1 v) v.
Proof. intros H. apply (reads_le 1); [reflexivity | exact H]. Qed.
Lemma reads_ushort v : v < 2 ^ 16 -> reads read_ushort (le_enc 2 v) v.
Proof. intros H. apply (reads_le 2); [reflexivity | exact H]. Qed.
Lemma reads_uint v : v < 2 ^ 32 -> reads read_uint (le_enc 4 v) v.
Proof. intros H. apply (reads_le 4); [reflexivity | exact H]. Qed.
Lemma reads_float v : f32 v -> reads read_float (le_enc 4 v) v.
Proof. apply reads_uint. Qed.

Lemma reads_byte z : (- 2 ^ 7 <= z < 2 ^ 7)%Z -> reads read_byte (le_enc 1 (uint 8 z)) z.
Proof.
  intros H. eapply reads_if_last; [apply reads_ubyte, uint_bound|].
  rewrite sint_uint; [apply reads_ret | reflexivity | exact H].
Qed.
Lemma reads_short z : (- 2 ^ 15 <= z < 2 ^ 15)%Z -> reads read_short (le_enc 2 (uint 16 z)) z.
Proof.
  intros H. eapply reads_if_last; [apply reads_ushort, uint_bound|].
  rewrite sint_uint; [apply reads_ret | reflexivity | exact H].
Qed.
Lemma reads_int z : (- 2 ^ 31 <= z < 2 ^ 31)%Z -> reads read_int (le_enc 4 (uint 32 z)) z.
Proof.
  intros H. eapply reads_if_last; [apply reads_uint, uint_bound|].
  rewrite sint_uint; [apply reads_ret | reflexivity | exact H].
Qed.

Lemma reads_string bs : reads (read_string (len bs)) bs bs.
Proof.
  intros pre post _ Hl. unfold read_string.
  destruct (N.ltb_spec (len bs) max_size) as [H|H].
  - apply (reads_fixed (len bs) bs eq_refl pre post I Hl).
  - exfalso. rewrite !len_app in Hl. lia.
Qed.

Lemma reads_string_n n bs : n = len bs -> reads (read_string n) bs bs.
Proof. intros ->. apply reads_string. Qed.

Lemma reads_vec2 v : f32 (v2x v) -> f32 (v2y v) ->
  reads read_vec2 (le_enc 4 (v2x v) ++ le_enc 4 (v2y v)) v.
Proof.
  intros Hx Hy. eapply reads_if_last.
  { apply reads_fixed. rewrite len_app, !len_le_enc. reflexivity. }
  rewrite take_app_exact by (rewrite len_le_enc; reflexivity).
  rewrite drop_app_exact by (rewrite len_le_enc; reflexivity).
  rewrite take_all by (rewrite len_le_enc; lia).
  rewrite !le_dec_enc_small by assumption. destruct v; apply reads_ret.
Qed.

Lemma reads_vec3 v : f32 (v3x v) -> f32 (v3y v) -> f32 (v3z v) ->
  reads read_vec3 (le_enc 4 (v3x v) ++ le_enc 4 (v3y v) ++ le_enc 4 (v3z v)) v.
Proof.
  intros Hx Hy Hz. eapply reads_if_last.
  { apply reads_fixed. rewrite !len_app, !len_le_enc. reflexivity. }
  rewrite take_app_exact by (rewrite len_le_enc; reflexivity).
  rewrite drop_app_exact by (rewrite len_le_enc; reflexivity).
  rewrite take_app_exact by (rewrite len_le_enc; reflexivity).
  rewrite (app_assoc (le_enc 4 (v3x v))).
  rewrite drop_app_exact by (rewrite len_app, !len_le_enc; reflexivity).
  rewrite take_all by (rewrite len_le_enc; lia).
  rewrite !le_dec_enc_small by assumption. destruct v; apply reads_ret.
Qed.

Lemma words_le_cons x l : words_le (x :: l) = le_enc 4 x ++ words_le l.
Proof. reflexivity. Qed.
Lemma len_words_le l : len (words_le l) = 4 * len l.
Proof.
  induction l as [|x l IH]; [reflexivity|].
  rewrite words_le_cons, len_app, len_le_enc, IH, len_cons. lia.
Qed.
Lemma le_words_words_le l : Forall f32 l -> le_words (length l) (words_le l) = l.
Proof.
  induction l as [|x l IH]; intros H; [reflexivity|].
  inversion H as [|? ? Hx Hl]; subst.
  cbn [length le_words]. rewrite words_le_cons.
  rewrite take_app_exact by (rewrite len_le_enc; reflexivity).
  rewrite drop_app_exact by (rewrite len_le_enc; reflexivity).
  rewrite le_dec_enc_small by exact Hx. rewrite IH by exact Hl. reflexivity.
Qed.

Lemma transpose3_twice m : length m = 9%nat -> transpose3 (transpose3 m) = m.
Proof. intros H. do 9 (destruct m as [|? m]; [discriminate|]). destruct m; [reflexivity|discriminate]. Qed.
Lemma transpose4_twice m : length m = 16%nat -> transpose4 (transpose4 m) = m.
Proof. intros H. do 16 (destruct m as [|? m]; [discriminate|]). destruct m; [reflexivity|discriminate]. Qed.
Lemma Forall_mat_at (P : N -> Prop) m l : P 0 -> Forall P m -> Forall P (map (mat_at m) l).
Proof.
  intros H0 H. induction l as [|i l IH]; cbn [map]; constructor; [|exact IH].
  unfold mat_at. destruct (nth_in_or_default i m 0) as [Hin|E]; [|rewrite E; exact H0].
  rewrite Forall_forall in H. apply H, Hin.
Qed.
Lemma transpose3_f32 m : Forall f32 m -> Forall f32 (transpose3 m).
Proof. apply Forall_mat_at. reflexivity. Qed.
Lemma transpose4_f32 m : Forall f32 m -> Forall f32 (transpose4 m).
Proof. apply Forall_mat_at. reflexivity. Qed.

Lemma reads_mat3 m : length m = 9%nat -> Forall f32 m -> reads read_mat3 (words_le (transpose3 m)) m.
Proof.
  intros Hl Hf. eapply reads_if_last.
  { apply reads_fixed. rewrite len_words_le. reflexivity. }
  change 9%nat with (length (transpose3 m)).
  rewrite le_words_words_le by (apply transpose3_f32, Hf).
  rewrite transpose3_twice by exact Hl. apply reads_ret.
Qed.
Lemma reads_mat4 m : length m = 16%nat -> Forall f32 m -> reads read_mat4 (words_le (transpose4 m)) m.
Proof.
  intros Hl Hf. eapply reads_if_last.
  { apply reads_fixed. rewrite len_words_le. reflexivity. }
  change 16%nat with (length (transpose4 m)).
  rewrite le_words_words_le by (apply transpose4_f32, Hf).
  rewrite transpose4_twice by exact Hl. apply reads_ret.
Qed.

Lemma writes_char c : writes (write_char c) [c].
Proof. apply writes_raw. Qed.
Lemma writes_ubyte v : writes (write_ubyte v) (le_enc 1 v).
Proof. apply writes_raw. Qed.
Lemma writes_ushort v : writes (write_ushort v) (le_enc 2 v).
Proof. apply writes_raw. Qed.
Lemma writes_uint v : writes (write_uint v) (le_enc 4 v).
Proof. apply writes_raw. Qed.
Lemma writes_float v : writes (write_float v) (le_enc 4 v).
Proof. apply writes_raw. Qed.
Lemma writes_byte v : writes (write_byte v) (le_enc 1 (uint 8 v)).
Proof. apply writes_raw. Qed.
Lemma writes_short v : writes (write_short v) (le_enc 2 (uint 16 v)).
Proof. apply writes_raw. Qed.
Lemma writes_int v : writes (write_int v) (le_enc 4 (uint 32 v)).
Proof. apply writes_raw. Qed.
Lemma writes_string v : writes (write_string v) v.
Proof. apply writes_raw. Qed.
Lemma writes_string0 v : writes (write_string0 v) (v ++ [x00]).
Proof. apply writes_seq; apply writes_raw. Qed.
Lemma writes_line v : writes (write_line v) (v ++ [x0a]).
Proof. apply writes_seq; apply writes_raw. Qed.
Lemma writes_vec2 v : writes (write_vec2 v) (le_enc 4 (v2x v) ++ le_enc 4 (v2y v)).
Proof. apply writes_raw. Qed.
Lemma writes_vec3 v : writes (write_vec3 v) (le_enc 4 (v3x v) ++ le_enc 4 (v3y v) ++ le_enc 4 (v3z v)).
Proof. apply writes_raw. Qed.
Lemma writes_mat3 m : writes (write_mat3 m) (words_le (transpose3 m)).
Proof. apply writes_raw. Qed.
Lemma writes_mat4 m : writes (write_mat4 m) (words_le (transpose4 m)).
Proof. apply writes_raw. Qed.

(** ** Lines *)

Lemma read_char_at pre c post : len (pre ++ c :: post) < max_size ->
  read_char (mkR (pre ++ c :: post) (len pre)) = Ret (c, mkR (pre ++ c :: post) (len pre + 1)).
Proof. intros H. apply (reads_char c pre post I H). Qed.

Lemma read_char_end data : len data < max_size ->
  read_char (mkR data (len data)) = Ret (x00, mkR data (len data)).
Proof.
  intros H. unfold read_char, rd_fixed.
  unfold bind at 1. unfold bind at 1.
  rewrite rd_read_spec; cbn [rdata rpos]; [|split; cbn; lia | pows; lia].
  rewrite N.sub_diag. change (N.min 1 0) with 0. rewrite take_0, N.add_0_r. reflexivity.
Qed.

Definition is_eol (c : byte) : bool := beq c x00 || beq c x0d || beq c x0a.
Lemma is_eol_false c : c <> x00 /\ c <> x0d /\ c <> x0a -> is_eol c = false.
Proof. intros (H1 & H2 & H3). unfold is_eol. apply beq_false in H1, H2, H3. rewrite H1, H2, H3. reflexivity. Qed.

Lemma read_until_eol_at s : forall fuel pre c post, no_eol s -> is_eol c = true ->
  (length s < fuel)%nat -> len (pre ++ s ++ c :: post) < max_size ->
  read_until_eol fuel (mkR (pre ++ s ++ c :: post) (len pre)) =
  Ret ((s, c), mkR (pre ++ s ++ c :: post) (len pre + len s + 1)).
Proof.
  induction s as [|x s IH]; intros fuel pre c post Hs Hc Hf Hl;
    (destruct fuel as [|fuel]; [cbn [length] in Hf; lia|]); cbn [read_until_eol app].
  - unfold bind at 1. rewrite read_char_at by exact Hl.
    unfold is_eol in Hc. rewrite Hc. unfold ret. rewrite len_nil, N.add_0_r. reflexivity.
  - inversion Hs as [|? ? Hx Hs']; subst.
    unfold bind at 1. rewrite (read_char_at pre x (s ++ c :: post) Hl).
    pose proof (is_eol_false x Hx) as E. unfold is_eol in E. rewrite E.
    cbn [app] in Hl.
    specialize (IH fuel (pre ++ [x]) c post Hs' Hc).
    rewrite <- app_assoc in IH. cbn [app] in IH. cbn [length] in Hf.
    rewrite len_snoc in IH.
    unfold bind. rewrite IH by (lia || assumption).
    unfold ret. cbn [fst snd]. rewrite len_cons.
    do 3 f_equal. lia.
Qed.

Lemma r_eof_at data p : rd_eof (mkR data p) = Ret (len data <=? p, mkR data p).
Proof. reflexivity. Qed.

Lemma reads_line_raw s c : no_eol s -> is_eol c = true ->
  reads (read_line_then_ignore []) (s ++ [c]) s.
Proof.
  intros Hs Hc pre post _ Hl.
  unfold read_line_then_ignore. cbn [rdata rpos].
  rewrite <- app_assoc in *. cbn [app] in *.
  unfold bind at 1.
  rewrite read_until_eol_at; [|exact Hs | exact Hc | | exact Hl].
  - unfold bind. rewrite r_eof_at. cbn [orb fst]. unfold ret.
    rewrite len_app, N.add_assoc. reflexivity.
  - rewrite !len_app, len_cons. unfold len. lia.
Qed.

Lemma reads_line_nows s c : no_eol s -> is_eol c = true -> reads (read_line false) (s ++ [c]) s.
Proof. apply reads_line_raw. Qed.

(** A NUL-terminated string is read exactly in both modes. *)
Lemma reads_line0 b s : no_eol s -> reads (read_line b) (s ++ [x00]) s.
Proof.
  intros Hs. destruct b; [|apply reads_line_nows; [exact Hs | reflexivity]].
  intros pre post _ Hl. unfold read_line, read_line_then_ignore. cbn [rdata rpos].
  rewrite <- app_assoc in *. cbn [app] in *.
  unfold bind at 1.
  rewrite read_until_eol_at; [|exact Hs | reflexivity | | exact Hl].
  - unfold bind. rewrite r_eof_at. cbn [orb fst snd]. change (beq x00 x00) with true.
    rewrite orb_true_r. cbn [orb]. unfold ret.
    rewrite len_app, N.add_assoc. reflexivity.
  - rewrite !len_app, len_cons. unfold len. lia.
Qed.

Definition in_chars (chars : bytes) (c : byte) : bool := negb (beq c x00) && existsb (beq c) chars.

Lemma skip_run_at chars run : forall fuel pre c post,
  Forall (fun c => in_chars chars c = true) run -> in_chars chars c = false ->
  (length run < fuel)%nat -> len (pre ++ run ++ c :: post) < max_size ->
  skip_run fuel chars (mkR (pre ++ run ++ c :: post) (len pre)) =
  Ret (c, mkR (pre ++ run ++ c :: post) (len pre + len run + 1)).
Proof.
  induction run as [|x s IH]; intros fuel pre c post Hs Hc Hf Hl;
    (destruct fuel as [|fuel]; [cbn [length] in Hf; lia|]); cbn [skip_run app].
  - unfold bind at 1. rewrite read_char_at by exact Hl.
    unfold in_chars in Hc. rewrite Hc. unfold ret. rewrite len_nil, N.add_0_r. reflexivity.
  - inversion Hs as [|? ? Hx Hs']; subst.
    unfold bind at 1. rewrite (read_char_at pre x (s ++ c :: post) Hl).
    unfold in_chars in Hx. rewrite Hx.
    cbn [app] in Hl.
    specialize (IH fuel (pre ++ [x]) c post Hs' Hc).
    rewrite <- app_assoc in IH. cbn [app] in IH. cbn [length] in Hf.
    rewrite len_snoc in IH.
    rewrite IH by (lia || assumption). rewrite len_cons. do 2 f_equal. f_equal. lia.
Qed.

Lemma skip_run_end chars run : forall fuel pre,
  Forall (fun c => in_chars chars c = true) run ->
  (length run < fuel)%nat -> len (pre ++ run) < max_size ->
  skip_run fuel chars (mkR (pre ++ run) (len pre)) =
  Ret (x00, mkR (pre ++ run) (len pre + len run)).
Proof.
  induction run as [|x s IH]; intros fuel pre Hs Hf Hl;
    (destruct fuel as [|fuel]; [cbn [length] in Hf; lia|]); cbn [skip_run].
  - rewrite app_nil_r in *. unfold bind at 1. rewrite read_char_end by exact Hl.
    change (negb (beq x00 x00)) with false. cbn [andb]. unfold ret.
    rewrite len_nil, N.add_0_r. reflexivity.
  - inversion Hs as [|? ? Hx Hs']; subst.
    unfold bind at 1. rewrite (read_char_at pre x s Hl).
    unfold in_chars in Hx. rewrite Hx.
    specialize (IH fuel (pre ++ [x]) Hs').
    rewrite <- app_assoc in IH. cbn [app] in IH. cbn [length] in Hf.
    rewrite len_snoc in IH.
    rewrite IH by (lia || assumption). rewrite len_cons. do 2 f_equal. f_equal. lia.
Qed.

Lemma ssize_add_ok a b : (- 2 ^ 63 <= a + b < 2 ^ 63)%Z -> ssize_add a b = Ret (a + b)%Z.
Proof.
  intros [H1 H2]. unfold ssize_add.
  apply Z.leb_le in H1. apply Z.ltb_lt in H2. rewrite H1, H2. reflexivity.
Qed.

Lemma rd_seek_back data p : 1 <= p -> p <= len data -> len data < max_size ->
  rd_seek (-1) CUR (mkR data p) = Ret (tt, mkR data (p - 1)).
Proof.
  intros H1 H2 H3. unfold rd_seek, seek_internal. cbn [rdata rpos].
  rewrite sint_small by (pows; lia).
  rewrite ssize_add_ok by (pows; lia). cbn [obind].
  rewrite uint_small by (pows; lia).
  replace (Z.to_N (Z.of_N p + -1)) with (p - 1) by lia.
  destruct (N.ltb_spec (len data) (p - 1)); [lia|]. reflexivity.
Qed.

Lemma rd_seek_beg data p q : q <= len data -> len data < max_size ->
  rd_seek (Z.of_N q) BEG (mkR data p) = Ret (tt, mkR data q).
Proof.
  intros H2 H3. unfold rd_seek, seek_internal. cbn [rdata rpos obind].
  pows. rewrite uint_of_N by (pows; lia).
  destruct (N.ltb_spec (len data) q); [lia|]. reflexivity.
Qed.

(** Reading a line and then skipping the run of [chars] that follows. *)
Lemma read_line_skip chars s c run rest pre :
  chars <> [] -> no_eol s -> (c = x0d \/ c = x0a) ->
  Forall (fun c => in_chars chars c = true) run ->
  (match rest with [] => True | c :: r => in_chars chars c = false /\ (c = x00 -> r <> []) end) ->
  len (pre ++ s ++ c :: run ++ rest) < max_size ->
  read_line_then_ignore chars (mkR (pre ++ s ++ c :: run ++ rest) (len pre)) =
  Ret (s, mkR (pre ++ s ++ c :: run ++ rest) (len pre + len s + 1 + len run)).
Proof.
  intros Hch Hs Hc Hrun Hrest Hl.
  assert (Hc0 : beq c x00 = false) by (apply beq_false; destruct Hc; subst; discriminate).
  assert (Heol : is_eol c = true) by (destruct Hc; subst; reflexivity).
  unfold read_line_then_ignore. cbn [rdata rpos].
  set (data := pre ++ s ++ c :: run ++ rest) in *.
  assert (Hdl : len data = len pre + (len s + (1 + (len run + len rest)))).
  { unfold data. rewrite !len_app, len_cons, len_app. reflexivity. }
  set (fuel := S (N.to_nat (len data - len pre))).
  unfold bind at 1. unfold data at 1.
  rewrite read_until_eol_at; [|exact Hs | exact Heol | | exact Hl].
  2:{ unfold fuel. rewrite Hdl. unfold len. lia. }
  fold data. unfold bind at 1. rewrite r_eof_at. cbn [fst snd]. rewrite Hc0.
  replace (match chars with [] => true | _ => false end) with false by (destruct chars; [congruence|reflexivity]).
  cbn [orb].
  destruct (N.leb_spec (len data) (len pre + len s + 1)) as [He|He].
  { assert (run = []) as -> by (apply len_0; lia).
    rewrite len_nil, N.add_0_r. reflexivity. }
  unfold bind at 1.
  assert (Ed : data = ((pre ++ s) ++ [c]) ++ run ++ rest).
  { unfold data. rewrite <- !app_assoc. reflexivity. }
  assert (Ep : len pre + len s + 1 = len ((pre ++ s) ++ [c])).
  { rewrite !len_app. reflexivity. }
  destruct rest as [|r0 rest].
  - rewrite app_nil_r in *. rewrite Ed, Ep. rewrite skip_run_end.
    + unfold bind at 1. rewrite r_eof_at.
      destruct (N.leb_spec (len (((pre ++ s) ++ [c]) ++ run)) (len ((pre ++ s) ++ [c]) + len run)) as [?|Hx];
        [|rewrite !len_app in Hx; lia].
      change (beq x00 x00) with true. cbn [andb]. unfold ret. reflexivity.
    + exact Hrun.
    + unfold fuel. rewrite Hdl. rewrite len_nil. unfold len. lia.
    + rewrite <- Ed. exact Hl.
  - destruct Hrest as [Hr0 Hr].
    rewrite Ed, Ep. rewrite skip_run_at.
    + unfold bind at 1. rewrite r_eof_at.
      assert (Hl' : len (((pre ++ s) ++ [c]) ++ run ++ r0 :: rest) < max_size) by (rewrite <- Ed; exact Hl).
      assert (Hcond : (len (((pre ++ s) ++ [c]) ++ run ++ r0 :: rest) <=? len ((pre ++ s) ++ [c]) + len run + 1) && beq r0 x00 = false).
      { destruct (beqP r0 x00) as [E0|]; [|apply andb_false_r].
        specialize (Hr E0). apply len_nonempty in Hr.
        rewrite andb_true_r. apply N.leb_gt. lens. lia. }
      rewrite Hcond. unfold bind. rewrite rd_seek_back; [|lia| |exact Hl'].
      * unfold ret. do 3 f_equal. lia.
      * lens. lia.
    + exact Hrun.
    + exact Hr0.
    + unfold fuel. rewrite Hdl, len_cons. unfold len. lia.
    + rewrite <- Ed. exact Hl.
Qed.
