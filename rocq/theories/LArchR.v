(** The readers of the three formats take back the content an archive encodes. *)

From Coq Require Import String Lia.
From Verif Require Import MBase MStream MBoxes SBoxes MText MClasses MArchive SStream SArchive LBase LStream LBoxes LText LGraph LArchW.
Local Open Scope N_scope.
Local Open Scope m_scope.

(** ** Single entries, binary formats *)
Lemma b32_f32 x : b32 x = true -> f32 x.
Proof. unfold b32. intros H. apply N.ltb_lt in H. exact H. Qed.
Lemma b32_Forall l : forallb b32 l = true -> Forall f32 l.
Proof. intros H. apply Forall_forall. intros x Hx. rewrite forallb_forall in H. apply b32_f32, H, Hx. Qed.
Lemma words3 a b c : words_le [a; b; c] = le_enc 4 a ++ le_enc 4 b ++ le_enc 4 c.
Proof. rewrite !words_le_cons. change (words_le []) with (@nil byte). rewrite app_nil_r. reflexivity. Qed.
Lemma words2 a b : words_le [a; b] = le_enc 4 a ++ le_enc 4 b.
Proof. rewrite !words_le_cons. change (words_le []) with (@nil byte). rewrite app_nil_r. reflexivity. Qed.

Ltac bools := repeat match goal with
  | H : (_ && _)%bool = true |- _ => apply andb_prop in H as [? ?]
  | H : (_ <? _) = true |- _ => apply N.ltb_lt in H
  | H : (_ <? _)%Z = true |- _ => apply Z.ltb_lt in H
  | H : (_ <=? _)%Z = true |- _ => apply Z.leb_le in H
  end.

Lemma reads_color c : entry_wf (EColor c) = true ->
  reads (let* b := read_ubyte in let* g := read_ubyte in let* r := read_ubyte in
         let* a := read_ubyte in ret (mkColor r g b a)) (bin_bytes (EColor c)) c.
Proof.
  cbn [entry_wf bin_bytes]. intros H. bools. destruct c as [r g b a]. cbn [c_r c_g c_b c_a] in *.
  do 3 (eapply reads_bind; [apply reads_ubyte; assumption|]).
  apply (reads_map _ read_ubyte (fun a : N => mkColor r g b a)). apply reads_ubyte. assumption.
Qed.
Lemma reads_box b : entry_wf (EBox b) = true -> reads aabb_load (bin_bytes (EBox b)) b.
Proof.
  cbn [entry_wf bin_bytes]. unfold box_words. intros H. apply b32_Forall in H.
  inversion H as [|? ? H1 T1]; subst. inversion T1 as [|? ? H2 T2]; subst. inversion T2 as [|? ? H3 T3]; subst.
  inversion T3 as [|? ? H4 T4]; subst. inversion T4 as [|? ? H5 T5]; subst. inversion T5 as [|? ? H6 T6]; subst.
  rewrite !words_le_cons. change (words_le []) with (@nil byte). rewrite app_nil_r.
  destruct b as [[a b c] [d e g]]. cbn [bb_min bb_max v3x v3y v3z] in *. unfold aabb_load.
  eapply reads_cast; [eapply reads_bind; [apply (reads_vec3 (mkV3 a b c)); assumption|
    apply (reads_map _ read_vec3 (fun mx : vec3 => mkAabb (mkV3 a b c) mx)); apply (reads_vec3 (mkV3 d e g)); assumption] | |reflexivity].
  cbn [v3x v3y v3z]. rewrite <- !app_assoc. reflexivity.
Qed.
Lemma reads_bool (b : bool) : reads (let* n := read_ubyte in ret (negb (n =? 0))) (le_enc 1 (if b then 1 else 0)) b.
Proof.
  eapply reads_cast; [apply (reads_map _ read_ubyte (fun n : N => negb (n =? 0))); apply (reads_ubyte (if b then 1 else 0)); destruct b; reflexivity|reflexivity|].
  destruct b; reflexivity.
Qed.
Lemma reads_bool4 (b : bool) : reads (let* n := read_uint in ret (negb (n =? 0))) (le_enc 4 (if b then 1 else 0)) b.
Proof.
  eapply reads_cast; [apply (reads_map _ read_uint (fun n : N => negb (n =? 0))); apply (reads_uint (if b then 1 else 0)); destruct b; reflexivity|reflexivity|].
  destruct b; reflexivity.
Qed.
Lemma reads_bin_mat m : entry_wf (EMat3 m) = true -> reads read_mat3 (bin_bytes (EMat3 m)) m.
Proof.
  cbn [entry_wf bin_bytes]. intros H. apply andb_prop in H as [H1 H2]. apply reads_mat3; [apply Nat.eqb_eq, H1|].
  apply b32_Forall, H2.
Qed.
Lemma reads_bin_vec2 v : entry_wf (EVec2 v) = true -> reads read_vec2 (bin_bytes (EVec2 v)) v.
Proof.
  cbn [entry_wf bin_bytes]. intros H. apply andb_prop in H as [H1 H2]. rewrite words2. apply reads_vec2; apply b32_f32; assumption.
Qed.
Lemma reads_bin_vec3 v : entry_wf (EVec3 v) = true -> reads read_vec3 (bin_bytes (EVec3 v)) v.
Proof.
  cbn [entry_wf bin_bytes]. intros H. bools. rewrite words3. apply reads_vec3; apply b32_f32; assumption.
Qed.

Lemma reads_bin k e v : entry_ok ABinary e = true -> kmatch k e = Some v -> reads (bin_read k) (bin_bytes e) v.
Proof.
  unfold entry_ok, entry_fit. intros H Hk.
  apply andb_prop in H as [H H3]. apply andb_prop in H as [H1 H2].
  destruct k, e; cbn [kmatch] in Hk; try discriminate; cbn [bin_read];
    try (injection Hk as <-).
  - cbn [bin_bytes]. apply reads_line_nows; [apply no_eolb_spec; exact H2 | reflexivity].
  - cbn [entry_wf] in H1. bools. apply reads_int. split; assumption.
  - apply reads_float, b32_f32, H1.
  - apply reads_ubyte. cbn [entry_wf] in H1. bools. assumption.
  - apply reads_ushort. cbn [entry_wf] in H1. bools. assumption.
  - apply reads_ubyte. bools. assumption.
  - apply reads_bool.
  - apply reads_color, H1.
  - apply reads_bin_vec3, H1.
  - apply reads_bin_vec2, H1.
  - apply reads_box, H1.
  - apply reads_bin_mat, H1.
  - destruct (N.eqb_spec (len b) n) as [E|E]; [|discriminate]. injection Hk as <-.
    apply reads_fixed. symmetry. exact E.
Qed.

(** *** Safe binary *)
Lemma rd_seek_fwd data p k : p + k <= len data -> len data < max_size ->
  rd_seek (Z.of_N k) CUR (mkR data p) = Ret (tt, mkR data (p + k)).
Proof.
  intros H2 H3. unfold rd_seek, seek_internal. cbn [rdata rpos].
  rewrite sint_small by (pows; lia).
  rewrite ssize_add_ok by (pows; lia). cbn [obind].
  rewrite uint_small by (pows; lia).
  replace (Z.to_N (Z.of_N p + Z.of_N k)) with (p + k) by lia.
  destruct (N.ltb_spec (len data) (p + k)); [lia|]. reflexivity.
Qed.
Lemma reads_seek bs k : k = len bs -> reads (rd_seek (Z.of_N k) CUR) bs tt.
Proof.
  intros -> pre post _ Hl. rewrite rd_seek_fwd; [reflexivity| |exact Hl]. rewrite !len_app. lia.
Qed.
Lemma reads_bs_meta key tp : tp < 2 ^ 8 -> reads (bs_meta tp) (le_enc 1 T_HASH ++ le_enc 4 key ++ le_enc 1 tp) tt.
Proof.
  intros H. unfold bs_meta. eapply reads_bind; [apply reads_ubyte; reflexivity|].
  change (negb (T_HASH =? T_HASH)) with false. cbn iota.
  eapply reads_bind; [apply (reads_seek _ 4); rewrite len_le_enc; reflexivity|].
  eapply reads_if_last; [apply reads_ubyte; exact H|]. rewrite N.eqb_refl. apply reads_ret.
Qed.
Lemma reads_meta_then {A} key tp (m : rd A) bs v : tp < 2 ^ 8 -> reads m bs v ->
  reads (bs_meta tp ;; m) (le_enc 1 T_HASH ++ le_enc 4 key ++ le_enc 1 tp ++ bs) v.
Proof.
  intros H Hm. eapply reads_cast; [eapply reads_bind; [apply (reads_bs_meta key); exact H | exact Hm] | | reflexivity].
  rewrite <- !app_assoc. reflexivity.
Qed.
Lemma reads_sized {A} key tp n (m : rd A) bs v : tp < 2 ^ 8 -> n < 2 ^ 16 -> n = len bs -> reads m bs v ->
  reads (bs_sized tp n m) (le_enc 1 T_HASH ++ le_enc 4 key ++ le_enc 1 tp ++ le_enc 2 n ++ bs) v.
Proof.
  intros Ht Hn En Hm. unfold bs_sized, bs_meta_len. apply reads_assoc. apply reads_meta_then; [exact Ht|].
  eapply reads_bind; [apply reads_ushort; exact Hn|].
  rewrite N.ltb_irrefl. eapply reads_if_last; [exact Hm|].
  eapply reads_if_last; [|apply reads_ret]. rewrite N.sub_diag.
  apply reads_seek. reflexivity.
Qed.
Lemma reads_bs k e v key : entry_ok ABinsafe e = true -> kmatch k e = Some v ->
  reads (bs_read k) (le_enc 1 T_HASH ++ le_enc 4 key ++ le_enc 1 (safe_type e) ++ safe_bytes e) v.
Proof.
  unfold entry_ok, entry_fit. intros H Hk.
  apply andb_prop in H as [H _]. apply andb_prop in H as [H1 H2].
  destruct k, e; cbn [kmatch] in Hk; try discriminate; cbn [bs_read safe_type safe_bytes];
    try (injection Hk as <-).
  - unfold bs_meta_len. apply reads_assoc. apply reads_meta_then; [reflexivity|].
    eapply reads_bind; [apply reads_ushort; bools; assumption | apply reads_string].
  - apply reads_meta_then; [reflexivity|]. cbn [entry_wf] in H1. bools. apply reads_int. split; assumption.
  - apply reads_meta_then; [reflexivity|]. apply reads_float, b32_f32, H1.
  - apply reads_meta_then; [reflexivity|]. apply reads_ubyte. cbn [entry_wf] in H1. bools. assumption.
  - apply reads_meta_then; [reflexivity|]. apply reads_ushort. cbn [entry_wf] in H1. bools. assumption.
  - apply reads_meta_then; [reflexivity|]. apply reads_uint. cbn [entry_wf] in H1. bools. assumption.
  - apply reads_meta_then; [reflexivity|]. apply reads_bool4.
  - apply reads_meta_then; [reflexivity|]. apply reads_color, H1.
  - apply reads_meta_then; [reflexivity|]. apply reads_bin_vec3, H1.
  - apply reads_sized; [reflexivity|reflexivity| |apply reads_bin_vec2, H1]. cbn [bin_bytes]. rewrite len_words_le. reflexivity.
  - apply reads_sized; [reflexivity|reflexivity| |apply reads_box, H1]. cbn [bin_bytes]. rewrite len_words_le. reflexivity.
  - apply reads_sized; [reflexivity|reflexivity| |apply reads_bin_mat, H1]. cbn [bin_bytes]. rewrite len_words_le. reflexivity.
  - destruct (N.eqb_spec (len b) n) as [E|E]; [|discriminate]. injection Hk as <-. subst n.
    unfold bs_meta_len. apply reads_assoc. apply reads_meta_then; [reflexivity|].
    eapply reads_bind; [apply reads_ushort; bools; assumption|]. rewrite N.ltb_irrefl. apply reads_fixed. reflexivity.
Qed.

(** ** Single entries, ASCII *)
Lemma no_eolb_app a b : no_eolb (a ++ b) = (no_eolb a && no_eolb b)%bool.
Proof. apply forallb_app. Qed.
Lemma plain_no_eolb s : forallb plain s = true -> no_eolb s = true.
Proof.
  apply forallb_impl. intros c Hc. unfold plain in Hc. bools.
  repeat match goal with H : negb _ = true |- _ => apply negb_true_iff in H end.
  apply negb_true_iff. apply orb_false_iff. split; [apply orb_false_iff; split|]; assumption.
Qed.
Lemma floats_no_eolb l : no_eolb (flat_map (fun x => show_f x ++ [x20]) l) = true.
Proof.
  induction l as [|x l IH]; [reflexivity|]. cbn [flat_map]. rewrite no_eolb_app, IH, no_eolb_app.
  rewrite (plain_no_eolb _ (show_f_plain x)). reflexivity.
Qed.
Lemma text_no_eolb e : entry_fit AAscii e = true -> no_eolb (text_of e) = true.
Proof.
  unfold entry_fit. intros H. apply andb_prop in H as [_ H].
  destruct e; cbn [text_of]; rewrite ?no_eolb_app; rewrite ?(plain_no_eolb _ (dec_plain _)), ?(plain_no_eolb _ (decz_plain _)),
    ?(plain_no_eolb _ (show_f_plain _)); try reflexivity; try apply floats_no_eolb.
  - exact H.
  - destruct b; reflexivity.
  - apply plain_no_eolb, hex_write_plain. left. reflexivity.
Qed.
Definition as_line (name : bytes) (e : entry) : bytes := name ++ [x3d] ++ text_type e ++ [x3a] ++ text_of e.
Lemma key_ok_ascii name : key_ok AAscii name = true ->
  no_eolb name = true /\ existsb (beq x3d) name = false /\
  match name with c :: _ => beq c x5b = false /\ is_ws c = false | [] => True end.
Proof.
  cbn [key_ok]. intros H. apply andb_prop in H as [H H3]. apply andb_prop in H as [H1 H2].
  split; [exact H1|]. split; [apply negb_true_iff, H2|]. destruct name as [|c s]; [exact I|].
  apply andb_prop in H3 as [H3 H4]. split; apply negb_true_iff; assumption.
Qed.
Lemma as_line_no_eol name e : key_ok AAscii name = true -> entry_fit AAscii e = true -> no_eol (as_line name e).
Proof.
  intros Hn He. apply key_ok_ascii in Hn as (Hn & _). apply no_eolb_spec. unfold as_line. rewrite !no_eolb_app.
  rewrite Hn, (text_no_eolb e He). destruct e; reflexivity.
Qed.
Lemma after_opt_skip c s rest : existsb (beq c) s = false -> after_opt c (s ++ c :: rest) = Some rest.
Proof.
  induction s as [|x s IH]; cbn [existsb app after_opt]; intros H.
  - rewrite beq_refl. reflexivity.
  - apply orb_false_iff in H as [H1 H2].
    assert (E : beq x c = false). { apply beq_false. intros ->. rewrite beq_refl in H1. discriminate. }
    rewrite E. apply IH, H2.
Qed.
Lemma after_name name e : existsb (beq x3d) name = false -> after x3d (as_line name e) = text_type e ++ [x3a] ++ text_of e.
Proof. intros H. unfold after, as_line. cbn [app]. rewrite after_opt_skip by exact H. reflexivity. Qed.
Lemma before_type e : before x3a (text_type e ++ [x3a] ++ text_of e) = text_type e.
Proof.
  unfold before. rewrite (take_while_app _ (text_type e)); [reflexivity | | reflexivity].
  destruct e; reflexivity.
Qed.
Lemma after_type e : after x3a (text_type e ++ [x3a] ++ text_of e) = text_of e.
Proof. unfold after. cbn [app]. rewrite after_opt_skip; [reflexivity|]. destruct e; reflexivity. Qed.

(** The pure part of reading an ASCII entry: what is done with the text. *)
Lemma as_entry_line tp line X D p : bytes_eqb (before x3a (after x3d line)) tp = true ->
  read_line true (mkR D p) = Ret (line, X) -> as_entry tp (mkR D p) = Ret (after x3a (after x3d line), X).
Proof. intros Ht Hr. unfold as_entry, bind. rewrite Hr. rewrite Ht. reflexivity. Qed.

Lemma stream_floats_two a b : text_ok a = true -> text_ok b = true ->
  stream_floats 2 (flat_map (fun x => show_f x ++ [x20]) [a; b]) = [a; b].
Proof. intros H1 H2. apply (stream_floats_show [a; b]). cbn [forallb]. rewrite H1, H2. reflexivity. Qed.
Lemma stream_floats_vec a b c : text_ok a = true -> text_ok b = true -> text_ok c = true ->
  stream_floats 3 (show_f a ++ [x20] ++ show_f b ++ [x20] ++ show_f c) = [a; b; c].
Proof.
  intros H1 H2 H3. cbn [stream_floats app].
  rewrite (stream_float_show a) by (exact H1 || reflexivity). cbn [app].
  rewrite stream_float_ws. rewrite (stream_float_show b) by (exact H2 || reflexivity). cbn [app].
  rewrite stream_float_ws. rewrite <- (app_nil_r (show_f c)). rewrite (stream_float_show c []) by (exact H3 || exact I). reflexivity.
Qed.
Lemma reads_as k e v D p X name : key_ok AAscii name = true -> entry_ok AAscii e = true -> kmatch k e = Some v ->
  read_line true (mkR D p) = Ret (as_line name e, X) -> as_read k (mkR D p) = Ret (v, X).
Proof.
  intros Hn Ho Hk Hr. apply key_ok_ascii in Hn as (_ & Hn & _).
  assert (HE : as_entry (text_type e) (mkR D p) = Ret (text_of e, X)).
  { rewrite (as_entry_line _ (as_line name e) X); [|rewrite after_name, before_type by exact Hn; apply bytes_eqb_spec; reflexivity | exact Hr].
    rewrite after_name, after_type by exact Hn. reflexivity. }
  unfold entry_ok, entry_fit in Ho. apply andb_prop in Ho as [H H3]. apply andb_prop in H as [H1 H2].
  destruct k, e; cbn [kmatch] in Hk; try discriminate; cbn [as_read text_type text_of] in *;
    try (injection Hk as <-); first [exact HE | unfold bind at 1; rewrite HE; try reflexivity].
  - cbn [entry_wf] in H1. bools. unfold lift. rewrite stoi_decz by (split; assumption). reflexivity.
  - unfold lift. rewrite stof_show by exact H3. reflexivity.
  - cbn [entry_wf] in H1. bools. unfold bind, lift. rewrite stoul_dec; [|change (2 ^ 32) with 4294967296 in H1; pows; lia].
    unfold ret. rewrite N.mod_small by exact H1. reflexivity.
  - destruct b; reflexivity.
  - cbn [entry_wf] in H1. bools. cbn [app].
    change (2 ^ 8) with 256 in *.
    assert (Hw : forall x, x < 256 -> x < 2 ^ 16) by (intros x Hx; change (2 ^ 16) with 65536; lia).
    rewrite stream_u16_dec by (solve [apply Hw; assumption] || reflexivity). rewrite stream_u16_ws.
    rewrite stream_u16_dec by (solve [apply Hw; assumption] || reflexivity). rewrite stream_u16_ws.
    rewrite stream_u16_dec by (solve [apply Hw; assumption] || reflexivity). rewrite stream_u16_ws.
    rewrite <- (app_nil_r (dec (c_a c))).
    rewrite stream_u16_dec by (solve [apply Hw; assumption] || exact I).
    unfold ret. rewrite !u8_small by assumption. destruct c; reflexivity.
  - bools. rewrite stream_floats_vec by assumption. unfold ret. repeat match goal with x : vec3 |- _ => destruct x | x : vec2 |- _ => destruct x end; reflexivity.
  - bools. rewrite stream_floats_two by assumption. unfold ret. repeat match goal with x : vec3 |- _ => destruct x | x : vec2 |- _ => destruct x end; reflexivity.
  - rewrite (stream_floats_show (box_words b) H3 : stream_floats 6 _ = _). unfold ret. destruct b as [[] []]; reflexivity.
  - destruct (N.eqb_spec (len b) n) as [E|E]; [|discriminate]. injection Hk as <-.
    rewrite hex_write_len. rewrite N.mul_comm, N.div_mul by discriminate.
    destruct (N.ltb_spec (len b) n); [lia|]. unfold ret. rewrite (hex_write_ok b x00 false) by (exact H3 || reflexivity). reflexivity.
Qed.

(** ** Object headers *)
Lemma cstr_no_eol s : no_eol s -> cstr s = s.
Proof.
  intros H. unfold cstr. induction H as [|c s (H & _) _ IH]; [reflexivity|]. cbn [take_while].
  assert (E : beq c x00 = false) by (apply beq_false; exact H). rewrite E. cbn [negb]. rewrite IH. reflexivity.
Qed.
Definition class_word (h : ohead) : bytes := if no_class (oh_class h) then lit "%" else oh_class h.
Lemma class_word_ok h : head_ok h = true -> word_ok (class_word h) = true.
Proof.
  intros H. apply head_names in H as (_ & H2 & _). unfold class_word.
  destruct (no_class (oh_class h)) eqn:E; [reflexivity|]. destruct H2 as [E2 | H2]; [rewrite E2 in E; discriminate E | exact H2].
Qed.
Lemma class_word_shown h f : f <> ABinary -> class_word h = shown_class f (oh_class h).
Proof.
  intros Hf. unfold class_word, shown_class, no_class. destruct (oh_class h) as [|c s]; [destruct f; [contradiction|reflexivity|reflexivity]|].
  destruct (bytes_eqb (c :: s) (lit "%")) eqn:E; [apply bytes_eqb_spec in E; rewrite E|]; reflexivity.
Qed.
Lemma head_text_word h idx : head_text h idx = [x5b] ++ oh_name h ++ [x20] ++ class_word h ++ [x20] ++ dec (oh_ver h) ++ [x20] ++ idx ++ [x5d].
Proof. reflexivity. Qed.

Lemma tokens_word w : forall cur c rest, Forall (fun c => is_ws c = false /\ beq c x5d = false /\ beq c x00 = false) w ->
  bs_delim c = true -> beq c x00 = false -> (w ++ cur <> []) ->
  tokens bs_delim (w ++ c :: rest) cur = (rev cur ++ w) :: tokens bs_delim rest [].
Proof.
  induction w as [|x w IH]; intros cur c rest Hw Hc H0 Hne; cbn [app tokens].
  - rewrite H0, Hc, app_nil_r. destruct cur; [contradiction Hne; reflexivity | reflexivity].
  - inversion Hw as [|? ? (H1 & H2 & H3) H4]; subst. rewrite H3.
    assert (E : bs_delim x = false).
    { unfold bs_delim. rewrite H2, orb_false_r. apply beq_false. intros ->. discriminate H1. }
    rewrite E. rewrite IH; [|exact H4|exact Hc|exact H0|].
    + cbn [rev]. rewrite <- app_assoc. reflexivity.
    + destruct w; discriminate.
Qed.
Lemma plain_parts s : forallb plain s = true -> Forall (fun c => is_ws c = false /\ beq c x5d = false /\ beq c x00 = false) s.
Proof.
  intros H. apply Forall_forall. intros c Hc. rewrite forallb_forall in H. specialize (H c Hc). unfold plain in H. bools.
  repeat match goal with H : negb _ = true |- _ => apply negb_true_iff in H end. auto.
Qed.
Lemma decz_ne z : decz z <> [].
Proof. unfold decz. destruct (z <? 0)%Z; [discriminate|]. apply (dec_ok _). Qed.
Lemma word_ne s : word_ok s = true -> s <> [].
Proof. intros H ->. discriminate H. Qed.
Lemma uint_sint32 n : n < 2 ^ 32 -> uint 32 (sint 32 n) = n.
Proof.
  intros H. unfold uint, sint. change (2 ^ 32) with 4294967296 in *. rewrite N.mod_small by lia.
  change (2 ^ (32 - 1)) with 2147483648. change (2 ^ Z.of_N 32)%Z with 4294967296%Z.
  destruct (N.ltb_spec n 2147483648).
  - rewrite Z.mod_small by lia. lia.
  - lia.
Qed.
Lemma uint16_of n : n < 2 ^ 16 -> uint 16 (Z.of_N n) = n.
Proof. intros H. apply uint_of_N. exact H. Qed.
Lemma bs_head_text h : head_ok h = true ->
  bs_head (head_text h (decz (sint 32 (oh_idx h)))) = Ret (Some (mkH (oh_name h) (shown_class ABinsafe (oh_class h)) (oh_ver h) (oh_idx h))).
Proof.
  intros Hh. pose proof (class_word_ok h Hh) as Hc. pose proof (head_names h Hh) as (H1 & _ & H3 & H4).
  rewrite head_text_word. cbn [app bs_head]. rewrite beq_refl. cbn [negb].
  pose proof (word_ok_parts _ H1) as (_ & _ & W1). pose proof (word_ok_parts _ Hc) as (_ & _ & W2).
  rewrite (tokens_word (oh_name h)); [|exact W1|reflexivity|reflexivity|rewrite app_nil_r; apply word_ne, H1].
  rewrite (tokens_word (class_word h)); [|exact W2|reflexivity|reflexivity|rewrite app_nil_r; apply word_ne, Hc].
  rewrite (tokens_word (dec (oh_ver h))); [|apply plain_parts, dec_plain|reflexivity|reflexivity|rewrite app_nil_r; apply (dec_ok _)].
  rewrite (tokens_word (decz (sint 32 (oh_idx h)))); [|apply plain_parts, decz_plain|reflexivity|reflexivity|rewrite app_nil_r; apply decz_ne].
  cbn [rev app tokens].
  rewrite atoi_dec by (change (2 ^ 16) with 65536 in H3; change (2 ^ 31) with 2147483648; lia). cbn [obind].
  rewrite atoi_decz by (apply sint32_range; exact H4). cbn [obind].
  rewrite uint16_of, uint_sint32 by assumption. rewrite (class_word_shown h ABinsafe) by discriminate. reflexivity.
Qed.

Lemma scan_word_ok w rest : word_ok w = true -> match rest with c :: _ => is_ws c = true | [] => True end ->
  scan_word (w ++ rest) = Some (w, rest).
Proof.
  intros Hw Hr. unfold scan_word. pose proof (word_ok_parts _ Hw) as (W1 & W2 & W3).
  assert (Hd : drop_while is_ws (w ++ rest) = w ++ rest).
  { destruct w as [|c w]; [discriminate Hw|]. inversion W3 as [|? ? (Hc & _) _]; subst. apply drop_while_head. exact Hc. }
  rewrite Hd. rewrite (take_while_app _ w).
  - rewrite take_all by exact W2. destruct w as [|c w]; [discriminate Hw|]. rewrite drop_app_exact by reflexivity. reflexivity.
  - apply forallb_forall. intros c Hc. rewrite Forall_forall in W3. destruct (W3 c Hc) as (E & _). rewrite E. reflexivity.
  - destruct rest as [|c rest]; [exact I|]. rewrite Hr. reflexivity.
Qed.
Lemma scan_word_ws s : scan_word (x20 :: s) = scan_word s.
Proof. reflexivity. Qed.
Lemma head_text_no_eol h idx : head_ok h = true -> forallb plain idx = true -> no_eol (head_text h idx).
Proof.
  intros Hh Hi. pose proof (class_word_ok h Hh) as Hc. pose proof (head_names h Hh) as (H1 & _ & H3 & H4).
  rewrite head_text_word.
  assert (Hb : no_eol [x5b]) by (repeat constructor; discriminate).
  assert (Hs : no_eol [x20]) by (repeat constructor; discriminate).
  assert (He : no_eol [x5d]) by (repeat constructor; discriminate).
  apply no_eol_app; split; [exact Hb|]. apply no_eol_app; split; [apply word_no_eol, H1|]. apply no_eol_app; split; [exact Hs|].
  apply no_eol_app; split; [apply word_no_eol, Hc|]. apply no_eol_app; split; [exact Hs|]. apply no_eol_app; split; [apply plain_no_eol, dec_plain|].
  apply no_eol_app; split; [exact Hs|]. apply no_eol_app; split; [apply plain_no_eol, Hi | exact He].
Qed.
Lemma as_head_text h : head_ok h = true ->
  as_head (head_text h (dec (oh_idx h))) = Some (mkH (oh_name h) (shown_class AAscii (oh_class h)) (oh_ver h) (oh_idx h)).
Proof.
  intros Hh. pose proof (class_word_ok h Hh) as Hc. pose proof (head_names h Hh) as (H1 & _ & H3 & H4).
  unfold as_head. rewrite cstr_no_eol by (apply head_text_no_eol; [exact Hh | apply dec_plain]).
  rewrite head_text_word. cbn [app]. rewrite beq_refl. cbn [negb].
  rewrite (scan_word_ok (oh_name h)) by (exact H1 || reflexivity). rewrite scan_word_ws.
  rewrite (scan_word_ok (class_word h)) by (exact Hc || reflexivity). rewrite scan_int_ws, scan_int_dec by reflexivity.
  rewrite scan_int_ws, scan_int_dec by reflexivity.
  rewrite uint16_of by exact H3. rewrite uint_of_N by exact H4. rewrite (class_word_shown h AAscii) by discriminate. reflexivity.
Qed.

(** ** Positions *)
Section Pos.
  Variable D : bytes.
  Hypothesis HD : len D < 2 ^ 31.
  Notation pos := (pos D).
  Notation suf := (suf D).

  Lemma suf_app a b : suf (a ++ b) -> suf b.
  Proof. intros [pre E]. exists (pre ++ a). rewrite E, app_assoc. reflexivity. Qed.
  Lemma suf_strip f X : suf X -> suf (strip f X).
  Proof.
    intros H. destruct f; [exact H | exact H |]. cbn [strip].
    destruct (drop_while_split is_ws X) as (a & E & _). rewrite E in H. apply (suf_app a). exact H.
  Qed.
  Lemma HDm : len D < max_size.
  Proof. apply small_max, HD. Qed.
  Lemma pos_pre pre X : D = pre ++ X -> pos X = mkR D (len pre).
  Proof. intros E. unfold pos. f_equal. rewrite E, len_app. lia. Qed.
  Lemma at_reads {A} (m : rd A) bs a X : reads m bs a -> suf (bs ++ X) -> m (pos (bs ++ X)) = Ret (a, pos X).
  Proof.
    intros Hm [pre E]. rewrite (pos_pre pre) by exact E.
    assert (HL : len (pre ++ bs ++ X) < max_size) by (rewrite <- E; apply HDm).
    specialize (Hm pre X Logic.I HL). rewrite <- E in Hm. rewrite Hm.
    rewrite (pos_pre (pre ++ bs)) by (rewrite E, app_assoc; reflexivity). rewrite len_app. reflexivity.
  Qed.
  Lemma at_eof X : suf X -> rd_eof (pos X) = Ret (match X with [] => true | _ => false end, pos X).
  Proof.
    intros [pre E]. unfold rd_eof, pos. cbn [rdata rpos]. do 2 f_equal. rewrite E, len_app. destruct X as [|c X].
    - rewrite len_nil. apply N.leb_le. lia.
    - rewrite len_cons. apply N.leb_gt. lia.
  Qed.
  Lemma at_tell X : rd_tell (pos X) = Ret (len D - len X, pos X).
  Proof. reflexivity. Qed.
  Lemma at_back X p : r_back (len D - len X) (mkR D p) = Ret (tt, pos X).
  Proof.
    unfold r_back. rewrite sint_small by (pose proof HD; change (2 ^ 31) with 2147483648 in *; pows; lia).
    apply rd_seek_beg; [lia | apply HDm].
  Qed.
  Lemma at_back' X Y : r_back (len D - len X) (pos Y) = Ret (tt, pos X).
  Proof. apply at_back. Qed.

  (** *** Lines *)
  Lemma at_line s X : no_eol s -> after_ok AAscii X -> suf (s ++ x0a :: X) ->
    read_line true (pos (s ++ x0a :: X)) = Ret (s, pos (drop_while is_ws X)).
  Proof.
    intros Hs Hx [pre E]. rewrite (pos_pre pre) by exact E. destruct (drop_while_split is_ws X) as (run & Er & Hr & Hd).
    cbn [after_ok] in Hx. set (R := drop_while is_ws X) in *. rewrite Er in E.
    unfold read_line. rewrite E at 1. rewrite read_line_skip.
    - rewrite (pos_pre (pre ++ s ++ x0a :: run)).
      + rewrite <- E. rewrite !len_app, len_cons. do 3 f_equal. lia.
      + rewrite E. rewrite <- !app_assoc. reflexivity.
    - discriminate.
    - exact Hs.
    - right. reflexivity.
    - apply Forall_forall. intros c Hc. rewrite ws_chars_ws. rewrite forallb_forall in Hr. apply Hr, Hc.
    - destruct R as [|c r]; [exact I|]. split; [rewrite ws_chars_ws; exact Hd|]. intros -> ->. apply Hx. reflexivity.
    - rewrite <- E. apply HDm.
  Qed.

  (** *** Lines of safe binary archives *)
  Lemma le1_ne t X : match le_enc 1 t ++ X with [] => true | _ => false end = false.
  Proof. reflexivity. Qed.
  Lemma bs_begin_line l X : len l < 2 ^ 16 -> suf (safe_line l ++ X) ->
    bs_begin (pos (safe_line l ++ X)) =
    if len l <=? 2 then Ret (None, pos (safe_line l ++ X)) else
    match bs_head l with
    | Ret (Some o) => Ret (Some o, pos X)
    | Ret None => Ret (None, pos (safe_line l ++ X))
    | Throw e => Throw e | Undef => Undef | Fuel => Fuel
    end.
  Proof.
    intros Hl Hs. unfold bs_begin. unfold bind at 1. rewrite at_eof by exact Hs.
    replace (match safe_line l ++ X with [] => true | _ => false end) with false by reflexivity.
    unfold bind at 1. rewrite at_tell.
    unfold bind at 1. set (Z := safe_line l ++ X) in *.
    assert (HZ : Z = le_enc 1 T_STRING ++ le_enc 2 (len l) ++ l ++ X) by (unfold Z, safe_line; rewrite <- !app_assoc; reflexivity).
    assert (H1 : read_ubyte (pos Z) = Ret (T_STRING, pos (le_enc 2 (len l) ++ l ++ X))).
    { rewrite HZ. apply at_reads; [apply reads_ubyte; reflexivity | rewrite <- HZ; exact Hs]. }
    rewrite H1. change (negb (T_STRING =? T_STRING)) with false. cbn iota.
    rewrite HZ in Hs. apply suf_app in Hs.
    unfold bind at 1. rewrite (at_reads read_ushort (le_enc 2 (len l)) (len l)); [|apply reads_ushort; exact Hl | exact Hs].
    apply suf_app in Hs. unfold bind at 1. rewrite (at_reads (read_string (len l)) l l); [|apply reads_string | exact Hs].
    destruct (len l <=? 2).
    - unfold bind. rewrite at_back'. reflexivity.
    - unfold bind at 1, lift. destruct (bs_head l) as [[o|]| | |]; try reflexivity. unfold bind. rewrite at_back'. reflexivity.
  Qed.
  Lemma bs_begin_other t X : t < 2 ^ 8 -> t <> T_STRING -> suf (le_enc 1 t ++ X) ->
    bs_begin (pos (le_enc 1 t ++ X)) = Ret (None, pos (le_enc 1 t ++ X)).
  Proof.
    intros Ht Hn Hs. unfold bs_begin. unfold bind at 1. rewrite at_eof by exact Hs. rewrite le1_ne.
    unfold bind at 1. rewrite at_tell. unfold bind at 1. rewrite (at_reads read_ubyte (le_enc 1 t) t); [|apply reads_ubyte; exact Ht | exact Hs].
    destruct (N.eqb_spec t T_STRING) as [E|_]; [contradiction|]. cbn [negb]. unfold bind. rewrite at_back'. reflexivity.
  Qed.
  Lemma bs_end_line l X : len l < 2 ^ 16 -> suf (safe_line l ++ X) ->
    bs_end (pos (safe_line l ++ X)) =
    if bytes_eqb l (lit "[]") then Ret (true, pos X) else Ret (false, pos (safe_line l ++ X)).
  Proof.
    intros Hl Hs. unfold bs_end. unfold bind at 1. rewrite at_eof by exact Hs.
    replace (match safe_line l ++ X with [] => true | _ => false end) with false by reflexivity.
    unfold bind at 1. rewrite at_tell.
    unfold bind at 1. set (Z := safe_line l ++ X) in *.
    assert (HZ : Z = le_enc 1 T_STRING ++ le_enc 2 (len l) ++ l ++ X) by (unfold Z, safe_line; rewrite <- !app_assoc; reflexivity).
    assert (H1 : read_ubyte (pos Z) = Ret (T_STRING, pos (le_enc 2 (len l) ++ l ++ X))).
    { rewrite HZ. apply at_reads; [apply reads_ubyte; reflexivity | rewrite <- HZ; exact Hs]. }
    rewrite H1. change (negb (T_STRING =? T_STRING)) with false. cbn iota.
    rewrite HZ in Hs. apply suf_app in Hs.
    unfold bind at 1. rewrite (at_reads read_ushort (le_enc 2 (len l)) (len l)); [|apply reads_ushort; exact Hl | exact Hs].
    apply suf_app in Hs. destruct (N.eqb_spec (len l) 2) as [E|E]; cbn [negb].
    - unfold bind at 1. rewrite (at_reads (read_string 2) l l); [|apply reads_string_n; symmetry; exact E | exact Hs].
      destruct (bytes_eqb l (lit "[]")); [reflexivity|]. unfold bind. rewrite at_back'. reflexivity.
    - destruct (bytes_eqb l (lit "[]")) eqn:El; [apply bytes_eqb_spec in El; rewrite El in E; contradiction E; reflexivity|].
      unfold bind. rewrite at_back'. reflexivity.
  Qed.
  Lemma bs_end_other t X : t < 2 ^ 8 -> t <> T_STRING -> suf (le_enc 1 t ++ X) ->
    bs_end (pos (le_enc 1 t ++ X)) = Ret (false, pos (le_enc 1 t ++ X)).
  Proof.
    intros Ht Hn Hs. unfold bs_end. unfold bind at 1. rewrite at_eof by exact Hs. rewrite le1_ne.
    unfold bind at 1. rewrite at_tell. unfold bind at 1. rewrite (at_reads read_ubyte (le_enc 1 t) t); [|apply reads_ubyte; exact Ht | exact Hs].
    destruct (N.eqb_spec t T_STRING) as [E|_]; [contradiction|]. cbn [negb]. unfold bind. rewrite at_back'. reflexivity.
  Qed.
  Lemma reads_skip_hash key : key < 2 ^ 32 -> reads bs_skip_entry (le_enc 1 T_HASH ++ le_enc 4 key) tt.
  Proof.
    intros Hk. unfold bs_skip_entry. eapply reads_bind; [apply reads_ubyte; reflexivity|].
    change ((T_HASH =? T_STRING) || (T_HASH =? T_RAW) || (T_HASH =? T_RAWFLOAT))%bool with false.
    change ((T_HASH =? T_ENUM) || (T_HASH =? T_HASH) || (T_HASH =? T_INTEGER) || (T_HASH =? T_FLOAT) || (T_HASH =? T_BOOL)
          || (T_HASH =? T_COLOR))%bool with true. cbn iota.
    eapply reads_if_last; [apply reads_uint; exact Hk | apply reads_ret].
  Qed.
  Lemma reads_skip4 bs : len bs = 4 -> reads (read_uint ;; ret tt) bs tt.
  Proof.
    intros H. unfold read_uint. eapply reads_if_last; [|apply reads_ret].
    apply (reads_map _ (rd_fixed 4) le_dec). apply reads_fixed. symmetry. exact H.
  Qed.
  Lemma reads_skip_value e : entry_fit ABinsafe e = true -> reads bs_skip_entry (le_enc 1 (safe_type e) ++ safe_bytes e) tt.
  Proof.
    intros He. unfold entry_fit in He. apply andb_prop in He as [H1 H2]. unfold bs_skip_entry.
    eapply reads_bind; [apply reads_ubyte; destruct e; reflexivity|].
    destruct e; cbn [safe_type safe_bytes] in *;
      match goal with |- reads_if _ (if ?c then _ else _) _ _ => let v := eval vm_compute in c in change c with v end; cbn iota;
      try (eapply reads_bind; [apply reads_ushort; solve [reflexivity | bools; assumption] | apply reads_seek; first [reflexivity | cbn [bin_bytes]; rewrite len_words_le; reflexivity]]);
      match goal with |- reads_if _ (if ?c then _ else _) _ _ => let v := eval vm_compute in c in change c with v end; cbn iota;
      try (apply reads_skip4; cbn [bin_bytes]; rewrite ?len_app, ?len_le_enc; reflexivity);
      repeat (match goal with |- reads_if _ (if ?c then _ else _) _ _ => let v := eval vm_compute in c in change c with v end; cbn iota).
    - cbn [entry_wf] in H1. bools. eapply reads_if_last; [apply reads_ubyte; assumption | apply reads_ret].
    - cbn [entry_wf] in H1. bools. eapply reads_if_last; [apply reads_ushort; assumption | apply reads_ret].
    - cbn [bin_bytes entry_wf] in *. bools. rewrite words3. repeat (eapply reads_bind; [apply reads_float, b32_f32; assumption|]).
      eapply reads_if_last; [apply reads_float, b32_f32; assumption | apply reads_ret].
  Qed.
End Pos.

(** ** Steps of the three formats *)
Lemma drop_tabs d X : drop_while is_ws (tabs d ++ X) = drop_while is_ws X.
Proof. apply drop_while_skip. unfold tabs. induction d as [|d IH]; [reflexivity|]. cbn. exact IH. Qed.
Lemma strip_entry d name key e X : key_ok AAscii name = true ->
  drop_while is_ws (enc_entry AAscii d name key e ++ X) = as_line name e ++ x0a :: X.
Proof.
  intros Hn. apply key_ok_ascii in Hn as (_ & _ & Hn). cbn [enc_entry]. rewrite <- app_assoc, drop_tabs.
  unfold as_line. destruct name as [|c s].
  - cbn [app]. rewrite drop_while_head by reflexivity. do 3 (rewrite <- ?app_assoc; cbn [app]). reflexivity.
  - cbn [app]. rewrite drop_while_head by apply Hn. do 3 (rewrite <- ?app_assoc; cbn [app]). reflexivity.
Qed.
Lemma strip_opening d sz h X : drop_while is_ws (opening AAscii d sz h ++ X) = head_text h (dec (oh_idx h)) ++ x0a :: X.
Proof.
  cbn [opening]. rewrite <- app_assoc, drop_tabs, <- app_assoc. rewrite head_text_word. cbn [app].
  rewrite drop_while_head by reflexivity. reflexivity.
Qed.
Lemma strip_closing d X : drop_while is_ws (closing AAscii d ++ X) = lit "[]" ++ x0a :: X.
Proof. cbn [closing]. rewrite <- app_assoc, drop_tabs. reflexivity. Qed.

Lemma key_head_ne name e : key_ok AAscii name = true -> exists c s, as_line name e = c :: s /\ c <> x00 /\ beq c x5b = false /\ is_ws c = false.
Proof.
  intros H. apply key_ok_ascii in H as (H1 & _ & H2). destruct name as [|c s].
  - exists x3d. eexists. split; [reflexivity|]. split; [discriminate|]. split; reflexivity.
  - exists c. eexists. split; [reflexivity|]. split; [|exact H2].
    intros ->. discriminate H1.
Qed.
Lemma entry_after_ok f d name key e X : key_ok f name = true -> after_ok f (enc_entry f d name key e ++ X).
Proof.
  destruct f; try exact (fun _ => I). intros H. cbn [after_ok]. rewrite strip_entry by exact H.
  destruct (key_head_ne name e H) as (c & s & E & Hc & _). rewrite E. intros H2. injection H2 as H2 _. contradiction.
Qed.
Lemma opening_after_ok f d sz h X : after_ok f (opening f d sz h ++ X).
Proof. destruct f; try exact I. cbn [after_ok]. rewrite strip_opening, head_text_word. discriminate. Qed.
Lemma closing_after_ok f d X : f <> ABinary -> after_ok f (closing f d ++ X).
Proof. destruct f; try (intros; exact I). cbn [after_ok]. intros _. rewrite strip_closing. discriminate. Qed.
Lemma strip_raw b X : raw_ok b = true -> strip AAscii (b ++ X) = b ++ X.
Proof.
  destruct b as [|c [|c2 b]]; try discriminate. cbn [raw_ok strip]. intros H. apply beq_spec in H. subst c. reflexivity.
Qed.
Lemma node_after_ok f d n X : node_fit f n = true -> after_ok f (encode f d n ++ X).
Proof.
  unfold node_fit. destruct n as [name key e|h l|b]; cbn [node_is encode].
  - intros H. bools. apply entry_after_ok. assumption.
  - intros _. rewrite <- !app_assoc. apply opening_after_ok.
  - intros H. destruct f; try exact I. cbn [after_ok]. pose proof (strip_raw b X H) as Er. cbn [strip] in Er. rewrite Er.
    destruct b as [|c [|c2 b]]; discriminate.
Qed.
Lemma nodes_after_ok f d l X : forallb (node_fit f) l = true -> after_ok f X -> after_ok f (encodes f d l ++ X).
Proof.
  destruct l as [|n l]; [intros _ H; exact H|]. cbn [forallb]. intros H _. apply andb_prop in H as [H _].
  unfold encodes. cbn [flat_map]. rewrite <- app_assoc. apply node_after_ok, H.
Qed.

Lemma rdl_at f D {A} (m : rd A) a X Y E : m (pos D (strip f X)) = Ret (a, pos D (strip f Y)) -> rdl m (rat f D X E) = Ret (a, rat f D Y E).
Proof. intros H. unfold rdl, rat. cbn [ra_r ra_ends]. rewrite H. reflexivity. Qed.
Definition head_as (f : fmt) (h : ohead) : ohead := mkH (oh_name h) (shown_class f (oh_class h)) (oh_ver h) (oh_idx h).

Section Steps.
  Variable f : fmt.
  Variable D : bytes.
  Hypothesis HD : len D < 2 ^ 31.
  Notation rat := (rat f D).
  Notation here X := (suf D (strip f X)).

  Lemma here_drop bs X : f <> AAscii -> here (bs ++ X) -> here X.
  Proof. destruct f; intros H; try (contradiction H; reflexivity); cbn [strip]; apply suf_app. Qed.

  Lemma S_read k v d name key e X E : key_ok f name = true -> entry_ok f e = true -> kmatch k e = Some v ->
    after_ok f X -> here (enc_entry f d name key e ++ X) ->
    ar_read f k (rat (enc_entry f d name key e ++ X) E) = Ret (v, rat X E) /\ here X.
  Proof.
    intros Hn Ho Hk Ha Hh. destruct f.
    - split; [|apply suf_app in Hh; exact Hh]. apply (rdl_at _ D (bin_read k)). cbn [strip enc_entry] in *.
      apply (at_reads D HD); [apply reads_bin; assumption | exact Hh].
    - split; [|apply suf_app in Hh; exact Hh]. apply (rdl_at _ D (bs_read k)). cbn [strip enc_entry] in *.
      apply (at_reads D HD); [apply reads_bs; assumption | exact Hh].
    - cbn [strip] in *. rewrite strip_entry in Hh by exact Hn. split.
      + unfold SArchive.rat, ar_read, rdl. cbn [ra_r ra_ends strip]. rewrite strip_entry by exact Hn.
        unfold pos at 1. rewrite (reads_as k e v D _ (pos D (drop_while is_ws X)) name); [reflexivity|exact Hn|exact Ho|exact Hk|].
        apply (at_line D HD); [|exact Ha|exact Hh]. apply as_line_no_eol; [exact Hn|]. unfold entry_ok in Ho. bools. assumption.
      + apply (suf_strip D AAscii). change (as_line name e ++ x0a :: X) with (as_line name e ++ [x0a] ++ X) in Hh.
        apply suf_app in Hh. apply suf_app in Hh. exact Hh.
  Qed.

  Lemma as_begin_at line X : no_eol line -> after_ok AAscii X -> suf D (line ++ x0a :: X) ->
    as_begin (pos D (line ++ x0a :: X)) =
    if len line <=? 2 then Ret (None, pos D (line ++ x0a :: X)) else
    match as_head line with
    | Some o => Ret (Some o, pos D (drop_while is_ws X))
    | None => Ret (None, pos D (line ++ x0a :: X))
    end.
  Proof.
    intros Hl Ha Hs. unfold as_begin. unfold bind at 1. rewrite (at_eof D HD) by exact Hs.
    replace (match line ++ x0a :: X with [] => true | _ => false end) with false by (destruct line; reflexivity).
    unfold bind at 1. rewrite at_tell. unfold bind at 1. rewrite (at_line D HD) by assumption.
    destruct (len line <=? 2); [unfold bind; rewrite (at_back' D HD); reflexivity|].
    destruct (as_head line); [reflexivity|]. unfold bind; rewrite (at_back' D HD); reflexivity.
  Qed.
  Lemma as_end_at line X : no_eol line -> after_ok AAscii X -> suf D (line ++ x0a :: X) ->
    as_end (pos D (line ++ x0a :: X)) =
    if bytes_eqb (drop_while is_ws line) (lit "[]") then Ret (true, pos D (drop_while is_ws X))
    else Ret (false, pos D (line ++ x0a :: X)).
  Proof.
    intros Hl Ha Hs. unfold as_end. unfold bind at 1. rewrite (at_eof D HD) by exact Hs.
    replace (match line ++ x0a :: X with [] => true | _ => false end) with false by (destruct line; reflexivity).
    unfold bind at 1. rewrite at_tell. unfold bind at 1. rewrite (at_line D HD) by assumption.
    destruct (bytes_eqb (drop_while is_ws line) (lit "[]")); [reflexivity|]. unfold bind; rewrite (at_back' D HD); reflexivity.
  Qed.
  Lemma head_text_long h idx : head_ok h = true -> (len (head_text h idx) <=? 2) = false.
  Proof.
    intros H. apply N.leb_gt. apply head_names in H as (H & _). apply word_ok_parts in H as (H & _).
    rewrite head_text_word, !len_app. change (len [x5b]) with 1. change (len [x20]) with 1. lia.
  Qed.
  Lemma head_text_16 h : head_ok h = true -> len (head_text h (decz (sint 32 (oh_idx h)))) < 2 ^ 16.
  Proof.
    intros Fh. pose proof (head_names h Fh) as (_ & _ & _ & H4).
    pose proof (head_text_len h (decz (sint 32 (oh_idx h))) Fh (decz_len _ (sint32_range _ H4))).
    change (2 ^ 16) with 65536. lia.
  Qed.
  Lemma head_not_end h idx : head_ok h = true -> bytes_eqb (head_text h idx) (lit "[]") = false.
  Proof.
    intros H. destruct (bytes_eqb (head_text h idx) (lit "[]")) eqn:E; [|reflexivity].
    apply bytes_eqb_spec in E. pose proof (head_text_long h idx H) as L. rewrite E in L. discriminate L.
  Qed.

  Lemma S_begin d sz h X E : f <> ABinary -> head_ok h = true -> after_ok f X -> here (opening f d sz h ++ X) ->
    ar_begin f (rat (opening f d sz h ++ X) E) = Ret (Some (head_as f h), rat X E) /\ here X.
  Proof.
    intros Hf Hh Ha Hs. unfold head_as. destruct f; [contradiction Hf; reflexivity| |].
    - split; [|cbn [strip] in *; apply suf_app in Hs; exact Hs]. apply (rdl_at _ D bs_begin). cbn [strip opening] in *.
      rewrite (bs_begin_line D HD) by (exact Hs || apply head_text_16, Hh).
      rewrite head_text_long by exact Hh. rewrite bs_head_text by exact Hh. reflexivity.
    - cbn [strip] in *. rewrite strip_opening in Hs. split.
      + unfold ar_begin, rdl, SArchive.rat. cbn [strip ra_r ra_ends]. rewrite strip_opening.
        rewrite as_begin_at; [|apply head_text_no_eol; [exact Hh | apply dec_plain]|exact Ha|exact Hs].
        rewrite head_text_long by exact Hh. rewrite as_head_text by exact Hh. reflexivity.
      + apply (suf_strip D AAscii). apply suf_app in Hs. change (x0a :: X) with ([x0a] ++ X) in Hs. apply suf_app in Hs. exact Hs.
  Qed.
  (** The end of an object is seen as such, and not as a beginning. *)
  Lemma S_end d X E : f <> ABinary -> after_ok f X -> here (closing f d ++ X) ->
    ar_begin f (rat (closing f d ++ X) E) = Ret (None, rat (closing f d ++ X) E) /\
    ar_end f (rat (closing f d ++ X) E) = Ret (true, rat X E) /\ here X.
  Proof.
    intros Hf Ha Hs. destruct f; [contradiction Hf; reflexivity| |].
    - split; [|split; [|cbn [strip] in *; apply suf_app in Hs; exact Hs]].
      + apply (rdl_at _ D bs_begin). cbn [strip closing] in *. rewrite (bs_begin_line D HD) by (exact Hs || reflexivity). reflexivity.
      + apply (rdl_at _ D bs_end). cbn [strip closing] in *. rewrite (bs_end_line D HD) by (exact Hs || reflexivity). reflexivity.
    - cbn [strip] in *. rewrite strip_closing in Hs.
      assert (Hl : no_eol (lit "[]")) by (repeat constructor; discriminate).
      split; [|split].
      + apply (rdl_at _ D as_begin). cbn [strip]. rewrite strip_closing. rewrite as_begin_at by assumption. reflexivity.
      + apply (rdl_at _ D as_end). cbn [strip]. rewrite strip_closing. rewrite as_end_at by assumption. reflexivity.
      + apply (suf_strip D AAscii). apply suf_app in Hs. change (x0a :: X) with ([x0a] ++ X) in Hs. apply suf_app in Hs. exact Hs.
  Qed.
  (** A beginning is not an end. *)
  Lemma S_end_obj d sz h X E : f <> ABinary -> head_ok h = true -> after_ok f X -> here (opening f d sz h ++ X) ->
    ar_end f (rat (opening f d sz h ++ X) E) = Ret (false, rat (opening f d sz h ++ X) E).
  Proof.
    intros Hf Hh Ha Hs. destruct f; [contradiction Hf; reflexivity| |].
    - apply (rdl_at _ D bs_end). cbn [strip opening] in *. rewrite (bs_end_line D HD) by (exact Hs || apply head_text_16, Hh).
      rewrite head_not_end by exact Hh. reflexivity.
    - apply (rdl_at _ D as_end). cbn [strip] in *. rewrite strip_opening in *.
      rewrite as_end_at; [|apply head_text_no_eol; [exact Hh | apply dec_plain]|exact Ha|exact Hs].
      replace (drop_while is_ws (head_text h (dec (oh_idx h)))) with (head_text h (dec (oh_idx h)))
        by (rewrite head_text_word; reflexivity).
      rewrite head_not_end by exact Hh. reflexivity.
  Qed.
  (** Bytes of something else are not an end. *)
  Lemma S_end_raw b X E : f <> ABinary -> raw_ok b = true -> here (b ++ X) ->
    ar_end f (rat (b ++ X) E) = Ret (false, rat (b ++ X) E).
  Proof.
    intros Hf Hb Hs. destruct f; [contradiction Hf; reflexivity| |].
    - apply (rdl_at _ D bs_end). cbn [strip] in *. destruct b as [|c [|c2 b]]; try discriminate. cbn [raw_ok] in Hb. apply beq_spec in Hb. subst c.
      apply (bs_end_other D HD 0); [reflexivity|discriminate|exact Hs].
    - apply (rdl_at _ D as_end). cbn [strip] in *. pose proof (strip_raw b X Hb) as Er. cbn [strip] in Er. rewrite Er in *.
      destruct b as [|c [|c2 b]]; try discriminate. cbn [raw_ok] in Hb. apply beq_spec in Hb. subst c.
      unfold as_end. unfold bind at 1. rewrite (at_eof D HD) by exact Hs. cbn [app]. unfold bind at 1. rewrite at_tell.
      assert (Hc : read_char (pos D (x00 :: c2 :: b ++ X)) = Ret (x00, pos D (c2 :: b ++ X))).
      { apply (at_reads D HD read_char [x00] x00); [apply reads_char | exact Hs]. }
      assert (R : read_line true (pos D (x00 :: c2 :: b ++ X)) = Ret ([], pos D (c2 :: b ++ X))).
      { unfold read_line, read_line_then_ignore. cbn [read_until_eol]. unfold bind at 1. unfold bind at 1. rewrite Hc. 
        change (beq x00 x00 || beq x00 x0d || beq x00 x0a) with true. cbn iota. unfold ret. unfold bind.
        rewrite (at_eof D HD) by (apply (suf_app D [x00]); exact Hs). reflexivity. }
      unfold bind at 1. rewrite R. change (bytes_eqb (drop_while is_ws []) (lit "[]")) with false. cbn iota.
      unfold bind. rewrite (at_back' D HD). reflexivity.
  Qed.
  (** An entry is neither. *)
  Lemma S_entry d name key e X E : f <> ABinary -> key_ok f name = true -> entry_fit f e = true -> after_ok f X ->
    here (enc_entry f d name key e ++ X) ->
    ar_begin f (rat (enc_entry f d name key e ++ X) E) = Ret (None, rat (enc_entry f d name key e ++ X) E) /\
    ar_end f (rat (enc_entry f d name key e ++ X) E) = Ret (false, rat (enc_entry f d name key e ++ X) E).
  Proof.
    intros Hf Hn He Ha Hs. destruct f; [contradiction Hf; reflexivity| |].
    - cbn [strip enc_entry] in Hs. rewrite <- app_assoc in Hs. split.
      + apply (rdl_at _ D bs_begin). cbn [strip enc_entry]. rewrite <- app_assoc. apply (bs_begin_other D HD); [reflexivity|discriminate|exact Hs].
      + apply (rdl_at _ D bs_end). cbn [strip enc_entry]. rewrite <- app_assoc. apply (bs_end_other D HD); [reflexivity|discriminate|exact Hs].
    - cbn [strip] in Hs. rewrite strip_entry in Hs by exact Hn.
      destruct (key_head_ne name e Hn) as (c & s & El & Hc & Hb & Hw).
      pose proof (as_line_no_eol name e Hn He) as Hl.
      split.
      + apply (rdl_at _ D as_begin). cbn [strip]. rewrite strip_entry by exact Hn. rewrite as_begin_at by assumption.
        assert (Hz : as_head (as_line name e) = None).
        { unfold as_head. rewrite cstr_no_eol by exact Hl. rewrite El, Hb. reflexivity. }
        rewrite Hz. destruct (len (as_line name e) <=? 2); reflexivity.
      + apply (rdl_at _ D as_end). cbn [strip]. rewrite strip_entry by exact Hn. rewrite as_end_at by assumption.
        assert (Hz : bytes_eqb (drop_while is_ws (as_line name e)) (lit "[]") = false).
        { rewrite El, drop_while_head by exact Hw. destruct (bytes_eqb (c :: s) (lit "[]")) eqn:Eq; [|reflexivity].
          apply bytes_eqb_spec in Eq. injection Eq as -> _. discriminate Hb. }
        rewrite Hz. reflexivity.
  Qed.
End Steps.

Lemma node_ind2 (P : node -> Prop) : (forall name k e, P (NEntry name k e)) ->
  (forall h l, Forall P l -> P (NObj h l)) -> (forall b, P (NRaw b)) -> forall n, P n.
Proof.
  intros H1 H2 H3. fix IH 1. intros [name k e|h l|b]; [apply H1| |apply H3]. apply H2. induction l as [|n l IHl]; constructor; [apply IH | exact IHl].
Qed.

Section Turns.
  Variable f : fmt.
  (** Turns of the loop an entry or object takes. *)
  Fixpoint turns (n : node) : nat :=
    match n with
    | NEntry _ _ _ => match f with AAscii => 1 | _ => 2 end
    | NObj _ l => (2 + list_sum (map turns l))%nat
    | NRaw _ => 0%nat
    end.
End Turns.
Section TurnsLe.
  Variable f : fmt.
  Hypothesis Hf : f <> ABinary.
  Notation turns := (turns f).
  Lemma turns_le d n : node_fit f n = true -> N.of_nat (turns n) <= len (encode f d n).
  Proof.
    unfold node_fit. revert d. induction n as [name k e|h l IH|b] using node_ind2; intros d Hn; cbn [turns encode]; [| |apply N.le_0_l].
    - destruct f; [contradiction Hf; reflexivity| |]; cbn [enc_entry]; rewrite !len_app, ?len_le_enc; [lia|].
      change (len [x3d]) with 1. lia.
    - cbn [node_is] in Hn. apply andb_prop in Hn as [Hh Hl].
      assert (H : N.of_nat (list_sum (map turns l)) <= len (flat_map (encode f (S d)) l)).
      { induction IH as [|n l Hn' _ IHl]; [apply N.le_0_l|]. cbn [forallb] in Hl. apply andb_prop in Hl as [Hl1 Hl2].
        cbn [flat_map map list_sum fold_right]. rewrite len_app. specialize (IHl Hl2). specialize (Hn' (S d) Hl1).
        unfold list_sum in IHl. lia. }
      rewrite !len_app.
      assert (H2 : 2 <= len (closing f d)).
      { destruct f; [contradiction Hf; reflexivity| |]; cbn [closing]; [vm_compute; discriminate|]. rewrite !len_app.
        change (len (lit "[]")) with 2. lia. }
      lia.
  Qed.
End TurnsLe.
Lemma turns_strip f d n X : f <> ABinary -> node_fit f n = true ->
  N.of_nat (turns f n) <= len (strip f (encode f d n ++ X)) - len X /\ len X <= len (strip f (encode f d n ++ X)).
Proof.
  intros Hf Hn. pose proof (turns_le f Hf d n Hn) as Ht. destruct f; [contradiction Hf; reflexivity| |].
  - cbn [strip]. rewrite len_app. lia.
  - cbn [strip] in *. unfold node_fit in Hn. destruct n as [name k e|h l|b]; cbn [node_is encode turns] in *.
    3:{ pose proof (strip_raw b X Hn) as E. cbn [strip] in E. rewrite E, len_app. lia. }
    + bools. rewrite strip_entry by assumption. rewrite len_app, len_cons. lia.
    + apply andb_prop in Hn as [Hh Hl]. rewrite <- !app_assoc, strip_opening. rewrite len_app, len_cons, !len_app.
      assert (H : N.of_nat (list_sum (map (turns AAscii) l)) <= len (flat_map (encode AAscii (S d)) l)).
      { clear - Hf Hl. induction l as [|n l IHl]; [apply N.le_0_l|]. cbn [forallb] in Hl. apply andb_prop in Hl as [Hl1 Hl2].
        cbn [flat_map map list_sum fold_right]. rewrite len_app. specialize (IHl Hl2).
        pose proof (turns_le AAscii Hf (S d) n Hl1) as Hq. unfold list_sum in IHl. lia. }
      cbn [closing]. rewrite !len_app. change (len (lit "[]")) with 2. lia.
Qed.
Section Loop.
  Variable f : fmt.
  Variable D : bytes.
  Notation rat := (rat f D).
  Definition goes (k : nat) (L L' : Z) (X Y : bytes) (E : list N) : Prop :=
    forall fuel, skip_loop (k + fuel) f L (rat X E) = skip_loop fuel f L' (rat Y E).
  Lemma goes_trans k1 k2 L1 L2 L3 X Y Z E : goes k1 L1 L2 X Y E -> goes k2 L2 L3 Y Z E -> goes (k1 + k2) L1 L3 X Z E.
  Proof. intros H1 H2 fuel. rewrite <- Nat.add_assoc, H1, H2. reflexivity. Qed.

  Lemma loop_begin L X Y E o fuel : (0 <= L)%Z -> ar_begin f (rat X E) = Ret (Some o, rat Y E) ->
    skip_loop (S fuel) f L (rat X E) = skip_loop fuel f (L + 1) (rat Y E).
  Proof.
    intros HL Hb. cbn [skip_loop]. unfold bind at 1. rewrite Hb. unfold bind, ret.
    destruct (Z.ltb_spec 0 (L + 1)); [reflexivity | lia].
  Qed.
  Lemma loop_end L X Y E fuel : ar_begin f (rat X E) = Ret (None, rat X E) -> ar_end f (rat X E) = Ret (true, rat Y E) ->
    skip_loop (S fuel) f L (rat X E) = if (0 <? L - 1)%Z then skip_loop fuel f (L - 1) (rat Y E) else Ret (tt, rat Y E).
  Proof.
    intros Hb He. cbn [skip_loop]. unfold bind at 1. rewrite Hb. unfold bind. rewrite He. unfold ret.
    destruct (0 <? L - 1)%Z; reflexivity.
  Qed.
  Lemma loop_entry L X Y E fuel : (0 < L)%Z -> ar_begin f (rat X E) = Ret (None, rat X E) -> ar_end f (rat X E) = Ret (false, rat X E) ->
    ar_skip_entry f (rat X E) = Ret (tt, rat Y E) ->
    skip_loop (S fuel) f L (rat X E) = skip_loop fuel f L (rat Y E).
  Proof.
    intros HL Hb He Hs. cbn [skip_loop]. unfold bind at 1. rewrite Hb. unfold bind. rewrite He, Hs. unfold ret.
    destruct (Z.ltb_spec 0 L); [reflexivity | lia].
  Qed.

End Loop.

Section Skip.
  Variable f : fmt.
  Variable D : bytes.
  Hypothesis HD : len D < 2 ^ 31.
  Hypothesis Hf : f <> ABinary.
  Notation rat := (rat f D).
  Notation here X := (suf D (strip f X)).
  Notation turns := (turns f).
  Notation goes := (goes f D).

  Lemma bs_value_quiet e X : entry_fit ABinsafe e = true -> skip_entry_ok ABinsafe e = true ->
    suf D (le_enc 1 (safe_type e) ++ safe_bytes e ++ X) ->
    bs_begin (pos D (le_enc 1 (safe_type e) ++ safe_bytes e ++ X)) = Ret (None, pos D (le_enc 1 (safe_type e) ++ safe_bytes e ++ X)) /\
    bs_end (pos D (le_enc 1 (safe_type e) ++ safe_bytes e ++ X)) = Ret (false, pos D (le_enc 1 (safe_type e) ++ safe_bytes e ++ X)).
  Proof.
    intros He Hq Hs.
    destruct e; try (split; [apply (bs_begin_other D HD); [reflexivity|discriminate|exact Hs]|apply (bs_end_other D HD); [reflexivity|discriminate|exact Hs]]).
    unfold entry_fit in He. cbn [entry_wf andb] in He. bools. cbn [skip_entry_ok] in Hq. apply andb_prop in Hq as [Hq1 Hq2].
    apply negb_true_iff in Hq1. cbn [safe_type safe_bytes] in *. rewrite <- app_assoc in *.
    assert (EL : le_enc 1 T_STRING ++ le_enc 2 (len s) ++ s ++ X = safe_line s ++ X) by (unfold safe_line; rewrite <- !app_assoc; reflexivity).
    rewrite EL in *. rewrite (bs_begin_line D HD), (bs_end_line D HD) by assumption.
    rewrite Hq1. destruct (bs_head s) as [[?|]| | |]; try discriminate. destruct (len s <=? 2); split; reflexivity.
  Qed.

  Lemma goes_entry L d name key e X E : (0 < L)%Z -> key_ok f name = true -> key < 2 ^ 32 -> entry_fit f e = true -> skip_entry_ok f e = true ->
    after_ok f X -> here (enc_entry f d name key e ++ X) ->
    goes (turns (NEntry name key e)) L L (enc_entry f d name key e ++ X) X E /\ here X.
  Proof.
    intros HL Hn Hk He Hq Ha Hs. destruct (S_entry f D HD d name key e X E Hf Hn He Ha Hs) as [Hb Hen]. cbn [turns].
    destruct f; [contradiction Hf; reflexivity| |].
    - cbn [strip enc_entry] in *. rewrite <- !app_assoc in *.
      assert (Hs2 : suf D ((le_enc 1 T_HASH ++ le_enc 4 key) ++ le_enc 1 (safe_type e) ++ safe_bytes e ++ X)) by (rewrite <- app_assoc; exact Hs).
      assert (Hs3 := suf_app _ _ _ Hs2).
      assert (Hs4 : suf D ((le_enc 1 (safe_type e) ++ safe_bytes e) ++ X)) by (rewrite <- app_assoc; exact Hs3).
      split; [|apply suf_app in Hs4; exact Hs4]. intros fuel. cbn [Nat.add].
      destruct (bs_value_quiet e X He Hq Hs3) as [Hb2 He2].
      erewrite loop_entry; [|exact HL|exact Hb|exact Hen|].
      2:{ apply (rdl_at ABinsafe D bs_skip_entry) with (Y := le_enc 1 (safe_type e) ++ safe_bytes e ++ X). cbn [strip].
          rewrite (app_assoc (le_enc 1 T_HASH)). apply (at_reads D HD); [apply reads_skip_hash; exact Hk | exact Hs2]. }
      eapply loop_entry; [exact HL| | |].
      + apply (rdl_at ABinsafe D bs_begin). exact Hb2.
      + apply (rdl_at ABinsafe D bs_end). exact He2.
      + apply (rdl_at ABinsafe D bs_skip_entry). cbn [strip]. rewrite (app_assoc (le_enc 1 (safe_type e))).
        apply (at_reads D HD); [apply reads_skip_value; exact He | exact Hs4].
    - cbn [strip] in Hs. rewrite strip_entry in Hs by exact Hn. split.
      + intros fuel. cbn [Nat.add]. eapply loop_entry; [exact HL|exact Hb|exact Hen|].
        apply (rdl_at AAscii D as_skip_entry). cbn [strip]. rewrite strip_entry by exact Hn. unfold as_skip_entry, bind.
        rewrite (at_line D HD) by (assumption || apply as_line_no_eol; assumption). reflexivity.
      + apply (suf_strip D AAscii). apply suf_app in Hs. change (x0a :: X) with ([x0a] ++ X) in Hs. apply suf_app in Hs. exact Hs.
  Qed.
  Lemma goes_node n : forall L d X E, (0 < L)%Z -> node_fit f n = true -> skip_ok f n = true -> after_ok f X -> here (encode f d n ++ X) ->
    goes (turns n) L L (encode f d n ++ X) X E /\ here X.
  Proof.
    unfold node_fit. induction n as [name k e|h l IH|b] using node_ind2; intros L d X E HL Hn Hq Ha Hs; cbn [node_is skip_ok encode] in *.
    3:{ destruct f; [contradiction Hf; reflexivity | discriminate Hq | discriminate Hq]. }
    - bools. apply goes_entry; assumption.
    - apply andb_prop in Hn as [Hh Hl]. rewrite <- !app_assoc in *.
      assert (Ha2 : after_ok f (closing f d ++ X)) by (apply closing_after_ok; exact Hf).
      assert (Ha3 : after_ok f (flat_map (encode f (S d)) l ++ closing f d ++ X)) by (apply (nodes_after_ok f (S d)); assumption).
      destruct (S_begin f D HD d (head_size h + len (flat_map (encode f (S d)) l)) h _ E Hf Hh Ha3 Hs) as [Hb Hs2].
      assert (HB : goes (list_sum (map turns l)) (L + 1) (L + 1) (flat_map (encode f (S d)) l ++ closing f d ++ X) (closing f d ++ X) E /\ here (closing f d ++ X)).
      { clear Hs Hb Ha3. induction IH as [|n l Hn' _ IHl]; [split; [intros fuel; reflexivity | exact Hs2]|].
        cbn [forallb flat_map map list_sum fold_right] in *. apply andb_prop in Hl as [Hl1 Hl2]. apply andb_prop in Hq as [Hq1 Hq2].
        rewrite <- app_assoc in *.
        assert (Ha4 : after_ok f (flat_map (encode f (S d)) l ++ closing f d ++ X)) by (apply (nodes_after_ok f (S d)); assumption).
        destruct (Hn' (L + 1)%Z (S d) _ E ltac:(lia) Hl1 Hq1 Ha4 Hs2) as [G1 Hs3].
        destruct (IHl Hl2 Hq2 Hs3) as [G2 Hs4]. split; [|exact Hs4]. eapply goes_trans; [exact G1 | exact G2]. }
      destruct HB as [G Hs3]. destruct (S_end f D HD d X E Hf Ha Hs3) as (Hb2 & He2 & Hs4).
      split; [|exact Hs4]. cbn [turns]. intros fuel.
      replace (2 + list_sum (map turns l) + fuel)%nat with (S (list_sum (map turns l) + S fuel))%nat by lia.
      rewrite (loop_begin _ _ _ _ _ _ _ _ (Z.lt_le_incl _ _ HL) Hb). rewrite G. rewrite (loop_end _ _ _ _ _ _ _ Hb2 He2).
      replace (L + 1 - 1)%Z with L by lia. destruct (Z.ltb_spec 0 L); [reflexivity | lia].
  Qed.
  Lemma goes_nodes l : forall L d X E, (0 < L)%Z -> forallb (node_fit f) l = true -> forallb (skip_ok f) l = true -> after_ok f X -> here (encodes f d l ++ X) ->
    goes (list_sum (map turns l)) L L (encodes f d l ++ X) X E /\ here X.
  Proof.
    unfold encodes. induction l as [|n l IH]; intros L d X E HL Hn Hq Ha Hs; [split; [intros fuel; reflexivity | exact Hs]|].
    cbn [forallb flat_map map list_sum fold_right] in *. apply andb_prop in Hn as [Hl1 Hl2]. apply andb_prop in Hq as [Hq1 Hq2].
    rewrite <- app_assoc in *.
    assert (Ha4 : after_ok f (flat_map (encode f d) l ++ X)) by (apply (nodes_after_ok f d); assumption).
    destruct (goes_node n L d _ E HL Hl1 Hq1 Ha4 Hs) as [G1 Hs3].
    destruct (IH L d X E HL Hl2 Hq2 Ha Hs3) as [G2 Hs4]. split; [|exact Hs4]. eapply goes_trans; [exact G1 | exact G2].
  Qed.
  Lemma turns_nodes d l X : forallb (node_fit f) l = true ->
    N.of_nat (list_sum (map turns l)) <= len (strip f (encodes f d l ++ X)).
  Proof.
    destruct l as [|n l]; [intros _; apply N.le_0_l|]. cbn [forallb map list_sum fold_right]. intros H. apply andb_prop in H as [H1 H2].
    unfold encodes. cbn [flat_map]. rewrite <- app_assoc.
    pose proof (turns_strip f d n (flat_map (encode f d) l ++ X) Hf H1) as [T1 T2].
    assert (H : N.of_nat (list_sum (map turns l)) <= len (flat_map (encode f d) l)).
    { clear - Hf H2. induction l as [|n l IHl]; [apply N.le_0_l|]. cbn [forallb] in H2. apply andb_prop in H2 as [Hl1 Hl2].
      cbn [flat_map map list_sum fold_right]. rewrite len_app. specialize (IHl Hl2).
      pose proof (turns_le f Hf d n Hl1) as Hq. unfold list_sum in IHl. lia. }
    rewrite len_app in T1, T2. unfold list_sum in H. lia.
  Qed.
  (** Skipping the rest of the current object, and skipping the next object. *)
  Lemma S_skip_cur l d X E : forallb (node_fit f) l = true -> forallb (skip_ok f) l = true -> after_ok f X ->
    here (encodes f (S d) l ++ closing f d ++ X) ->
    ar_skip f true (rat (encodes f (S d) l ++ closing f d ++ X) E) = Ret (tt, rat X E) /\ here X.
  Proof.
    intros Hl Hq Ha Hs.
    assert (Ha2 : after_ok f (closing f d ++ X)) by (apply closing_after_ok; exact Hf).
    destruct (goes_nodes l 1%Z (S d) _ E ltac:(lia) Hl Hq Ha2 Hs) as [G Hs2].
    destruct (S_end f D HD d X E Hf Ha Hs2) as (Hb2 & He2 & Hs4). split; [|exact Hs4].
    set (Y := encodes f (S d) l ++ closing f d ++ X) in *.
    pose proof (turns_nodes (S d) l (closing f d ++ X) Hl) as Ht. fold Y in Ht.
    assert (Hfu : exists fuel, S (S (N.to_nat (len (rdata (ra_r (rat Y E))) - rpos (ra_r (rat Y E))))) = (list_sum (map turns l) + S fuel)%nat).
    { unfold SArchive.rat, pos. cbn [ra_r rdata rpos]. destruct Hs as [pre ED].
      assert (len (strip f Y) <= len D) by (rewrite ED, len_app; lia).
      exists (S (N.to_nat (len D - (len D - len (strip f Y)))) - list_sum (map turns l))%nat. lia. }
    destruct Hfu as [fuel Hfu].
    assert (R : skip_loop (list_sum (map turns l) + S fuel) f 1 (rat Y E) = Ret (tt, rat X E)).
    { rewrite G. rewrite (loop_end _ _ _ _ _ _ _ Hb2 He2). reflexivity. }
    destruct f; [contradiction Hf; reflexivity| |]; cbn [ar_skip]; rewrite Hfu; exact R.
  Qed.
  Lemma S_skip_next h l d X E : head_ok h = true -> forallb (node_fit f) l = true -> forallb (skip_ok f) l = true -> after_ok f X ->
    here (encode f d (NObj h l) ++ X) ->
    ar_skip f false (rat (encode f d (NObj h l) ++ X) E) = Ret (tt, rat X E) /\ here X.
  Proof.
    intros Hh Hl Hq Ha Hs.
    assert (Hn : node_fit f (NObj h l) = true).
    { unfold node_fit. cbn [node_is]. rewrite Hh. exact Hl. }
    pose proof (turns_strip f d _ X Hf Hn) as [Ht _].
    cbn [encode] in *. rewrite <- !app_assoc in *.
    assert (Ha2 : after_ok f (closing f d ++ X)) by (apply closing_after_ok; exact Hf).
    assert (Ha3 : after_ok f (flat_map (encode f (S d)) l ++ closing f d ++ X)) by (apply (nodes_after_ok f (S d)); assumption).
    destruct (S_begin f D HD d (head_size h + len (flat_map (encode f (S d)) l)) h _ E Hf Hh Ha3 Hs) as [Hb Hs2].
    destruct (goes_nodes l 1%Z (S d) _ E ltac:(lia) Hl Hq Ha2 Hs2) as [G Hs3].
    destruct (S_end f D HD d X E Hf Ha Hs3) as (Hb2 & He2 & Hs4). split; [|exact Hs4].
    set (Y := opening f d (head_size h + len (flat_map (encode f (S d)) l)) h ++ flat_map (encode f (S d)) l ++ closing f d ++ X) in *.
    assert (Hfu : exists fuel, S (S (N.to_nat (len (rdata (ra_r (rat Y E))) - rpos (ra_r (rat Y E))))) = S (list_sum (map turns l) + S fuel)%nat).
    { unfold SArchive.rat, pos. cbn [ra_r rdata rpos]. destruct Hs as [pre ED].
      assert (len (strip f Y) <= len D) by (rewrite ED, len_app; lia). cbn [turns] in Ht.
      exists (N.to_nat (len D - (len D - len (strip f Y))) - list_sum (map turns l))%nat. lia. }
    destruct Hfu as [fuel Hfu].
    assert (R : skip_loop (S (list_sum (map turns l) + S fuel)) f 0 (rat Y E) = Ret (tt, rat X E)).
    { rewrite (loop_begin _ _ _ _ _ _ _ _ (Z.le_refl 0) Hb). change (0 + 1)%Z with 1%Z. unfold encodes in G. rewrite G.
      rewrite (loop_end _ _ _ _ _ _ _ Hb2 He2). reflexivity. }
    destruct f; [contradiction Hf; reflexivity| |]; cbn [ar_skip]; rewrite Hfu; exact R.
  Qed.
End Skip.

(** ** The reader and the content it still has to read *)
Fixpoint senc (f : fmt) (st : nstack) : bytes :=
  match st with
  | [] => []
  | l :: st' => encodes f (length st') l ++ match st' with [] => [] | _ => closing f (pred (length st')) ++ senc f st' end
  end.
Definition all_ok (f : fmt) (st : nstack) : Prop := Forall (fun l => forallb (node_ok f) l = true) st.
Lemma node_ok_fit f n : node_ok f n = true -> node_fit f n = true.
Proof.
  unfold node_ok, node_fit. induction n as [name k e|h l IH|b] using node_ind2; cbn [node_is]; intros H; [| |exact H].
  - apply andb_prop in H as [-> H]. unfold entry_ok in H. bools. assumption.
  - apply andb_prop in H as [-> H]. cbn [andb]. apply forallb_forall. intros n Hn. rewrite Forall_forall in IH.
    rewrite forallb_forall in H. apply IH; [exact Hn | apply H, Hn].
Qed.
Lemma nodes_ok_fit f l : forallb (node_ok f) l = true -> forallb (node_fit f) l = true.
Proof. apply forallb_impl. apply node_ok_fit. Qed.

(** Where the open objects of a binary archive end. *)
Fixpoint bends (D tail : bytes) (st : nstack) : list N :=
  match st with
  | [] => []
  | _ :: st' => match st' with [] => [] | _ => (len D - len (senc ABinary st' ++ tail)) :: bends D tail st' end
  end.
Section StackBasics.
  Variable f : fmt.
  Variables D tail : bytes.
  Hypothesis Htail : after_ok f tail.
  Notation bends := (bends D tail).
  Definition rst (st : nstack) : rar := rat f D (senc f st ++ tail) (match f with ABinary => bends st | _ => [] end).
  Definition good (st : nstack) : Prop := st <> [] /\ all_ok f st /\ suf D (strip f (senc f st ++ tail)).

  Lemma senc_cons n l st : senc f ((n :: l) :: st) = encode f (length st) n ++ senc f (l :: st).
  Proof. cbn [senc encodes flat_map]. unfold encodes. rewrite <- app_assoc. reflexivity. Qed.
  Lemma senc_nil l st : senc f ([] :: l :: st) = closing f (length st) ++ senc f (l :: st).
  Proof. reflexivity. Qed.
  Lemma senc_in l l2 st : senc f (l :: l2 :: st) = encodes f (S (length st)) l ++ closing f (length st) ++ senc f (l2 :: st).
  Proof. reflexivity. Qed.
  Lemma senc_after st : all_ok f st -> after_ok f (senc f st ++ tail).
  Proof.
    destruct f eqn:Ef; try (intros; exact I). rewrite <- Ef in *.
    induction st as [|l st IH]; intros H; [exact Htail|]. inversion H as [|? ? H1 H2]; subst.
    cbn [senc]. rewrite <- app_assoc. apply nodes_after_ok; [apply nodes_ok_fit, H1|].
    destruct st; [exact Htail|]. rewrite <- app_assoc. apply closing_after_ok. discriminate.
  Qed.
  Lemma bends_same l l' st : bends (l :: st) = bends (l' :: st).
  Proof. reflexivity. Qed.
  Lemma all_ok_cons l st : all_ok f (l :: st) <-> forallb (node_ok f) l = true /\ all_ok f st.
  Proof. unfold all_ok. split; [intros H; inversion H; auto | intros [H1 H2]; constructor; assumption]. Qed.

End StackBasics.
Section Stack.
  Variable f : fmt.
  Variables D tail : bytes.
  Hypothesis HD : len D < 2 ^ 31.
  Hypothesis Htail : after_ok f tail.
  Notation bends := (bends D tail).
  Notation rst := (rst f D tail).
  Notation good := (good f D tail).
  Notation senc_after := (senc_after f tail Htail).

  Lemma R_read k v st st' : n_read k st = Ret (v, st') -> good st -> ar_read f k (rst st) = Ret (v, rst st') /\ good st'.
  Proof.
    unfold n_read. destruct st as [|[|[name key e|h l|b] l0] st]; try discriminate.
    destruct (kmatch k e) as [v'|] eqn:Ek; [|discriminate]. intros H; injection H as <- <-. intros (_ & Ha & Hs).
    apply all_ok_cons in Ha as [Ha1 Ha2]. cbn [forallb] in Ha1. apply andb_prop in Ha1 as [Ha0 Ha1].
    unfold node_ok in Ha0. cbn [node_is] in Ha0. apply andb_prop in Ha0 as [H0 He]. apply andb_prop in H0 as [Hk _].
    assert (Ha : all_ok f (l0 :: st)) by (apply all_ok_cons; split; assumption).
    unfold LArchR.rst. rewrite senc_cons in *. cbn [encode] in *. rewrite <- app_assoc in *.
    rewrite (bends_same D tail _ l0).
    destruct (S_read f D HD k v' (length st) name key e (senc f (l0 :: st) ++ tail) (match f with ABinary => bends (l0 :: st) | _ => [] end) Hk He Ek (senc_after _ Ha) Hs) as [R1 R2].
    split; [exact R1|]. split; [discriminate|]. split; assumption.
  Qed.

  Lemma bin_open_reads h sz : head_ok h = true -> sz < 2 ^ 32 ->
    reads (let* ver := read_ushort in let* idx := read_uint in let* name := read_line false in let* cls := read_line false in
           ret (mkH name cls ver idx)) (le_enc 2 (oh_ver h) ++ le_enc 4 (oh_idx h) ++ (oh_name h ++ [x00]) ++ oh_class h ++ [x00]) h.
  Proof.
    intros Hh _. pose proof (head_names h Hh) as (H1 & H2 & H3 & H4).
    eapply reads_bind; [apply reads_ushort; exact H3|]. eapply reads_bind; [apply reads_uint; exact H4|].
    eapply reads_bind; [apply reads_line0, word_no_eol, H1|].
    eapply reads_if_last; [apply reads_line0|].
    - destruct H2 as [E|H2]; [rewrite E; constructor | apply word_no_eol, H2].
    - destruct h; apply reads_ret.
  Qed.
  Lemma shown_bin h : mkH (oh_name h) (shown_class ABinary (oh_class h)) (oh_ver h) (oh_idx h) = h.
  Proof. destruct h as [n c v i]. cbn [oh_name oh_class oh_ver oh_idx]. destruct c; reflexivity. Qed.
  Lemma len_opening_bin' d sz h : len (opening ABinary d sz h) = head_size h.
  Proof. unfold head_size. cbn [opening]. rewrite !len_app, !len_le_enc. change (len [x00]) with 1. lia. Qed.
  Lemma bin_begin_at d h body X E : head_ok h = true ->
    suf D (opening ABinary d (head_size h + len body) h ++ body ++ X) ->
    bin_begin (mkRar (pos D (opening ABinary d (head_size h + len body) h ++ body ++ X)) E) =
    Ret (Some h, mkRar (pos D (body ++ X)) ((len D - len X) :: E)).
  Proof.
    intros Hh Hs. unfold bin_begin. unfold bind at 1, rdl at 1. cbn [ra_r ra_ends]. rewrite (at_eof D HD) by exact Hs.
    set (sz := head_size h + len body) in *.
    replace (match opening ABinary d sz h ++ body ++ X with [] => true | _ => false end) with false by reflexivity.
    unfold bind at 1, rdl at 1. cbn [ra_r ra_ends]. rewrite at_tell.
    pose proof Hs as [pre ED].
    assert (HL : len pre + sz + len X = len D).
    { rewrite ED, !len_app, len_opening_bin'. unfold sz. lia. }
    assert (Hz : sz < 2 ^ 32) by (change (2 ^ 31) with 2147483648 in HD; change (2 ^ 32) with 4294967296; lia).
    assert (HP : len D - len (opening ABinary d sz h ++ body ++ X) = len pre) by (rewrite !len_app, len_opening_bin'; unfold sz in *; lia).
    rewrite HP.
    assert (EO : opening ABinary d sz h ++ body ++ X = le_enc 4 sz ++ (le_enc 2 (oh_ver h) ++ le_enc 4 (oh_idx h) ++ (oh_name h ++ [x00]) ++ oh_class h ++ [x00]) ++ body ++ X).
    { cbn [opening]. rewrite <- !app_assoc. reflexivity. }
    rewrite EO in *.
    unfold bind at 1, rdl at 1. cbn [ra_r ra_ends].
    rewrite (at_reads D HD read_uint (le_enc 4 sz) sz); [|apply reads_uint; exact Hz | exact Hs].
    apply suf_app in Hs. unfold bind at 1. cbn [ra_r ra_ends].
    replace (u64 (len pre + sz)) with (len D - len X).
    2:{ rewrite u64_small; [lia|]. change (2 ^ 31) with 2147483648 in HD. change (2 ^ 64) with 18446744073709551616. lia. }
    pose proof (at_reads D HD _ _ _ (body ++ X) (bin_open_reads h sz Hh Hz) Hs) as R.
    unfold bind in R. unfold bind, rdl. cbn [ra_r ra_ends].
    destruct (read_ushort (pos D ((le_enc 2 (oh_ver h) ++ le_enc 4 (oh_idx h) ++ (oh_name h ++ [x00]) ++ oh_class h ++ [x00]) ++ body ++ X))) as [[ver s1]| | |]; try discriminate.
    cbn [ra_r ra_ends]. destruct (read_uint s1) as [[idx s2]| | |]; try discriminate. cbn [ra_r ra_ends].
    destruct (read_line false s2) as [[nm s3]| | |]; try discriminate. cbn [ra_r ra_ends].
    destruct (read_line false s3) as [[cl s4]| | |]; try discriminate.
    unfold ret in *. injection R as R1 R2. rewrite R1, R2. reflexivity.
  Qed.
  Lemma R_begin o st st' : n_begin f st = Ret (o, st') -> good st -> ar_begin f (rst st) = Ret (o, rst st') /\ good st'.
  Proof.
    unfold n_begin. destruct st as [|[|[name key e|h cs|b] l0] st]; try discriminate.
    intros H; injection H as <- <-. intros (_ & Ha & Hs).
    apply all_ok_cons in Ha as [Ha1 Ha2]. cbn [forallb] in Ha1. apply andb_prop in Ha1 as [Ha0 Ha1].
    unfold node_ok in Ha0. cbn [node_is] in Ha0. apply andb_prop in Ha0 as [Hh Hc].
    assert (Ha : all_ok f (cs :: l0 :: st)).
    { apply all_ok_cons; split; [exact Hc|]. apply all_ok_cons; split; assumption. }
    unfold LArchR.rst. rewrite senc_cons in *. cbn [encode] in *. rewrite <- !app_assoc in *.
    assert (ES : flat_map (encode f (S (length st))) cs ++ closing f (length st) ++ senc f (l0 :: st) ++ tail = senc f (cs :: l0 :: st) ++ tail).
    { rewrite senc_in. unfold encodes. rewrite <- !app_assoc. reflexivity. }
    destruct (match f with ABinary => true | _ => false end) eqn:Ef.
    - destruct f; try discriminate. cbn [closing app] in *. rewrite shown_bin.
      assert (ES2 : bends (cs :: l0 :: st) = (len D - len (senc ABinary (l0 :: st) ++ tail)) :: bends (l0 :: st)) by reflexivity.
      rewrite ES2. unfold rat. cbn [strip ar_begin] in *. rewrite <- ES. cbn [app].
      split; [apply bin_begin_at; assumption|]. split; [discriminate|]. split; [exact Ha|]. rewrite <- ES. cbn [app strip].
      apply suf_app in Hs. exact Hs.
    - assert (Hf : f <> ABinary) by (destruct f; discriminate). rewrite ES in *.
      assert (EE : forall s : nstack, match f with ABinary => bends s | _ => [] end = []) by (destruct f; [discriminate| |]; reflexivity).
      rewrite !EE.
      destruct (S_begin f D HD (length st) (head_size h + len (flat_map (encode f (S (length st))) cs)) h (senc f (cs :: l0 :: st) ++ tail) [] Hf Hh (senc_after _ Ha) Hs) as [R1 R2].
      split; [exact R1|]. split; [discriminate|]. split; assumption.
  Qed.

  Lemma enc_bin_ne d n X : node_ok ABinary n = true -> exists c s, encode ABinary d n ++ X = c :: s.
  Proof.
    unfold node_ok. destruct n as [name k e|h l|b]; cbn [node_is encode enc_entry]; intros H.
    3:{ destruct b; [discriminate|]. eexists; eexists; reflexivity. }
    - apply andb_prop in H as [_ H]. unfold entry_ok, entry_fit in H. apply andb_prop in H as [H _]. apply andb_prop in H as [H1 H2].
      destruct e; cbn [bin_bytes]; try (eexists; eexists; reflexivity).
      + destruct s; eexists; eexists; reflexivity.
      + destruct b; [discriminate|]. eexists; eexists; reflexivity.
    - eexists; eexists; reflexivity.
  Qed.
  Lemma R_end b st st' : n_end st = Ret (b, st') -> good st -> ar_end f (rst st) = Ret (b, rst st') /\ good st'.
  Proof.
    unfold n_end. destruct st as [|[|n l] [|l0 st]]; try discriminate; intros H; injection H as <- <-; intros (_ & Ha & Hs).
    - apply all_ok_cons in Ha as [_ Ha]. pose proof (senc_after _ Ha) as HA.
      unfold LArchR.rst. rewrite senc_nil in *. rewrite <- app_assoc in *.
      destruct (match f with ABinary => true | _ => false end) eqn:Ef.
      + destruct f; try discriminate. cbn [closing app] in *.
        split; [|split; [discriminate|]; split; assumption].
        cbn [ar_end]. unfold bin_end, bind at 1, rdl at 1, rat. cbn [ra_r ra_ends strip]. rewrite at_tell. unfold bind, top_end. cbn [ra_r ra_ends bends].
        rewrite N.eqb_refl. reflexivity.
      + assert (Hf : f <> ABinary) by (destruct f; discriminate).
        assert (EE : forall s : nstack, match f with ABinary => bends s | _ => [] end = []) by (destruct f; [discriminate| |]; reflexivity).
        rewrite !EE. destruct (S_end f D HD (length st) (senc f (l0 :: st) ++ tail) [] Hf HA Hs) as (_ & R1 & R2).
        split; [exact R1|]. split; [discriminate|]. split; assumption.
    - split; [|split; [discriminate|]; split; assumption].
      pose proof Ha as Ha'. apply all_ok_cons in Ha as [Ha1 Ha2]. cbn [forallb] in Ha1. apply andb_prop in Ha1 as [Ha0 Ha1].
      assert (HA : all_ok f (l :: l0 :: st)) by (apply all_ok_cons; split; assumption).
      pose proof (senc_after _ HA) as HX.
      unfold LArchR.rst. destruct (match f with ABinary => true | _ => false end) eqn:Ef.
      + destruct f; try discriminate.
        cbn [ar_end]. unfold bin_end, bind at 1, rdl at 1, rat. cbn [ra_r ra_ends strip]. rewrite at_tell.
        unfold bind, top_end. cbn [ra_r ra_ends bends].
        destruct (enc_bin_ne (length (l0 :: st)) n (senc ABinary (l :: l0 :: st) ++ tail) Ha0) as (c & s & Ec).
        cbn [strip] in Hs. rewrite senc_cons, <- app_assoc in *.
        assert (Hne : (len D - len (encode ABinary (length (l0 :: st)) n ++ senc ABinary (l :: l0 :: st) ++ tail) =? len D - len (senc ABinary (l0 :: st) ++ tail)) = false).
        { apply N.eqb_neq. pose proof Hs as [pre ED].
          assert (0 < len (encode ABinary (length (l0 :: st)) n)).
          { destruct (enc_bin_ne (length (l0 :: st)) n [] Ha0) as (c1 & s1 & Ec1). rewrite app_nil_r in Ec1. rewrite Ec1, len_cons. lia. }
          assert (len D = len pre + len (encode ABinary (length (l0 :: st)) n ++ senc ABinary (l :: l0 :: st) ++ tail)) by (rewrite ED at 1; apply len_app).
          rewrite senc_in in *. rewrite !len_app in *. lia. }
        rewrite Hne. unfold rdl. cbn [ra_r ra_ends]. rewrite (at_eof D HD) by exact Hs. rewrite Ec. reflexivity.
      + assert (Hf : f <> ABinary) by (destruct f; discriminate).
        rewrite senc_cons, <- app_assoc in *. unfold node_ok in Ha0. destruct n as [name k e|h cs|b]; cbn [encode node_is] in *.
        3:{ apply (S_end_raw f D HD); assumption. }
        * apply andb_prop in Ha0 as [H0 He]. apply andb_prop in H0 as [Hk _].
          apply (S_entry f D HD); try assumption. unfold entry_ok in He. bools. assumption.
        * apply andb_prop in Ha0 as [Hh Hc]. rewrite <- !app_assoc in *.
          apply (S_end_obj f D HD); try assumption. apply nodes_after_ok; [apply nodes_ok_fit, Hc|].
          apply closing_after_ok. exact Hf.
  Qed.

  Lemma R_skip cur st st' : n_skip f cur st = Ret (tt, st') -> good st -> ar_skip f cur (rst st) = Ret (tt, rst st') /\ good st'.
  Proof.
    unfold n_skip. destruct cur.
    - destruct st as [|l [|l2 st]]; try discriminate. destruct (forallb (skip_ok f) l) eqn:Eq; [|discriminate].
      intros H; injection H as <-. intros (_ & Ha & Hs). apply all_ok_cons in Ha as [Ha1 Ha2].
      pose proof (senc_after _ Ha2) as HX. unfold LArchR.rst. rewrite senc_in in *. rewrite <- !app_assoc in *.
      destruct (match f with ABinary => true | _ => false end) eqn:Ef.
      + destruct f; try discriminate. cbn [closing app] in *.
        split; [|split; [discriminate|]; split; [assumption|]; apply suf_app in Hs; exact Hs].
        cbn [ar_skip]. unfold bin_skip, bind, top_end, rat. cbn [ra_r ra_ends bends].
        unfold rdl. cbn [ra_r ra_ends strip]. rewrite (at_back' D HD). reflexivity.
      + assert (Hf : f <> ABinary) by (destruct f; discriminate).
        assert (EE : forall s : nstack, match f with ABinary => bends s | _ => [] end = []) by (destruct f; [discriminate| |]; reflexivity).
        rewrite !EE. destruct (S_skip_cur f D HD Hf l (length st) (senc f (l2 :: st) ++ tail) [] (nodes_ok_fit _ _ Ha1) Eq HX Hs) as [R1 R2].
        split; [exact R1|]. split; [discriminate|]. split; assumption.
    - destruct st as [|[|[name key e|h cs|b] l0] st]; try discriminate. destruct (forallb (skip_ok f) cs) eqn:Eq; [|discriminate].
      intros H; injection H as <-. intros (_ & Ha & Hs).
      apply all_ok_cons in Ha as [Ha1 Ha2]. cbn [forallb] in Ha1. apply andb_prop in Ha1 as [Ha0 Ha1].
      unfold node_ok in Ha0. cbn [node_is] in Ha0. apply andb_prop in Ha0 as [Hh Hc].
      assert (Ha : all_ok f (l0 :: st)) by (apply all_ok_cons; split; assumption).
      pose proof (senc_after _ Ha) as HX. unfold LArchR.rst. rewrite senc_cons, <- app_assoc in *. rewrite (bends_same D tail _ l0).
      destruct (match f with ABinary => true | _ => false end) eqn:Ef.
      + destruct f; try discriminate. cbn [strip] in *.
        split; [|split; [discriminate|]; split; [assumption|]; apply suf_app in Hs; exact Hs].
        assert (EO : exists z r, encode ABinary (length st) (NObj h cs) = le_enc 4 z ++ r /\ z = 4 + len r).
        { cbn [encode]. eexists. eexists. split; [cbn [opening closing]; rewrite app_nil_r, <- !app_assoc; reflexivity|].
          unfold head_size. rewrite !len_app, !len_le_enc. change (len [x00]) with 1. lia. }
        destruct EO as (z & r & EO & Ez). rewrite EO, <- app_assoc in *.
        assert (Hz : z < 2 ^ 32).
        { destruct Hs as [pre ED]. assert (len D = len pre + (4 + len r + len (senc ABinary (l0 :: st) ++ tail))) by (rewrite ED, !len_app, len_le_enc; lia).
          change (2 ^ 31) with 2147483648 in HD. change (2 ^ 32) with 4294967296. lia. }
        cbn [ar_skip]. unfold bin_skip, bind at 1, rdl at 1, rat. cbn [ra_r ra_ends strip].
        rewrite (at_reads D HD read_uint (le_enc 4 z) z); [|apply reads_uint; exact Hz | exact Hs].
        apply suf_app in Hs. unfold rdl. cbn [ra_r ra_ends].
        rewrite (at_reads D HD _ r tt); [reflexivity| |exact Hs].
        apply reads_seek. rewrite Ez. unfold u32. change (2 ^ 32) with 4294967296 in *.
        replace (4 + len r + (4294967296 - 4)) with (len r + 1 * 4294967296) by lia.
        rewrite N.mod_add by discriminate. apply N.mod_small. lia.
      + assert (Hf : f <> ABinary) by (destruct f; discriminate).
        assert (EE : forall s : nstack, match f with ABinary => bends s | _ => [] end = []) by (destruct f; [discriminate| |]; reflexivity).
        rewrite !EE. destruct (S_skip_next f D HD Hf h cs (length st) (senc f (l0 :: st) ++ tail) [] Hh (nodes_ok_fit _ _ Hc) Eq HX Hs) as [R1 R2].
        split; [exact R1|]. split; [discriminate|]. split; assumption.
  Qed.
End Stack.

(** ** Whole load functions *)
Section Runs.
  Variable f : fmt.
  Variables D tail : bytes.
  Hypothesis HD : len D < 2 ^ 31.
  Hypothesis Htail : after_ok f tail.
  Context {Ob : Type}.
  Variable load : otype -> option (prog oid Ob).
  Variable flags_of : Ob -> Z.
  Notation rst := (rst f D tail).
  Notation good := (good f D tail).
  Definition up (g : @rg nstack Ob) : @rg rar Ob := mkRg (rst (rg_s g)) (rg_cache g) (rg_heap g).
  (** Whatever the content-level reader returns or throws, the byte-level reader does too. *)
  Definition agrees {A} (m : M rg A) (m' : M rg A) : Prop :=
    forall g, good (rg_s g) ->
      match m g with
      | Ret (a, g') => m' (up g) = Ret (a, up g') /\ good (rg_s g')
      | Throw e => m' (up g) = Throw e
      | _ => True
      end.
  Lemma agrees_ret {A} (a : A) : agrees (ret a) (ret a).
  Proof. intros g Hg. split; [reflexivity | exact Hg]. Qed.
  Lemma agrees_bind {A B} (m m' : M rg A) (k k' : A -> M rg B) : agrees m m' -> (forall a, agrees (k a) (k' a)) ->
    agrees (bind m k) (bind m' k').
  Proof.
    intros Hm Hk g Hg. specialize (Hm g Hg). unfold bind. destruct (m g) as [[a g1]|e| |]; try exact I.
    - destruct Hm as [Hm Hg1]. rewrite Hm. apply Hk. exact Hg1.
    - rewrite Hm. reflexivity.
  Qed.
  Lemma agrees_rgl {A} (m : M nstack A) (m' : M rar A) :
    (forall st a st', m st = Ret (a, st') -> good st -> m' (rst st) = Ret (a, rst st') /\ good st') ->
    (forall st e, m st <> Throw e) -> agrees (rgl m) (rgl m').
  Proof.
    intros Hm Ht g Hg. unfold rgl. destruct (m (rg_s g)) as [[a s1]|e| |] eqn:E; try exact I.
    - destruct (Hm _ _ _ E Hg) as [R Hg1]. cbn [up rg_s rg_cache rg_heap]. rewrite R. split; [reflexivity | exact Hg1].
    - destruct (Ht _ _ E).
  Qed.
  Lemma agrees_read k : agrees (rgl (p_read (nprims f) k)) (rgl (p_read (fmt_prims f) k)).
  Proof.
    apply agrees_rgl; cbn [nprims fmt_prims p_read]; [intros; apply (R_read f D tail HD Htail); assumption|].
    intros st e H. unfold n_read in H. destruct st as [|[|[? ? ?|? ?|?] ?] ?]; try discriminate. destruct (kmatch k e0); discriminate.
  Qed.
  Lemma agrees_begin : agrees (rgl (p_begin (nprims f))) (rgl (p_begin (fmt_prims f))).
  Proof.
    apply agrees_rgl; cbn [nprims fmt_prims p_begin]; [intros; apply (R_begin f D tail HD Htail); assumption|].
    intros st e H. unfold n_begin in H. destruct st as [|[|[? ? ?|? ?|?] ?] ?]; discriminate.
  Qed.
  Lemma agrees_end : agrees (rgl (p_end (nprims f))) (rgl (p_end (fmt_prims f))).
  Proof.
    apply agrees_rgl; cbn [nprims fmt_prims p_end]; [intros; apply (R_end f D tail HD Htail); assumption|].
    intros st e H. unfold n_end in H. destruct st as [|[|? ?] [|? ?]]; discriminate.
  Qed.
  Lemma agrees_skip c : agrees (rgl (p_skip (nprims f) c)) (rgl (p_skip (fmt_prims f) c)).
  Proof.
    apply agrees_rgl; cbn [nprims fmt_prims p_skip]; [intros ? [] ? ? ?; apply (R_skip f D tail HD Htail); assumption|].
    intros st e H. unfold n_skip in H. destruct c.
    - destruct st as [|? [|? ?]]; try discriminate. destruct (forallb _ _); discriminate.
    - destruct st as [|[|[? ? ?|? ?|?] ?] ?]; try discriminate. destruct (forallb _ _); discriminate.
  Qed.
  Lemma agrees_runp {A} (rec rec' : M rg (option oid)) (p : prog oid A) : agrees rec rec' ->
    agrees (runp (nprims f) flags_of rec p) (runp (fmt_prims f) flags_of rec' p).
  Proof.
    intros Hr. induction p as [a|e| | |k c IH|c IH|c IH|c IH|b p IH]; cbn [runp].
    - apply agrees_ret.
    - intros g Hg. reflexivity.
    - intros g Hg. exact I.
    - intros g Hg. exact I.
    - apply agrees_bind; [apply agrees_read | exact IH].
    - apply agrees_bind; [exact Hr|]. intros o g Hg. cbn [up rg_heap]. apply IH. exact Hg.
    - apply agrees_bind; [apply agrees_begin | exact IH].
    - apply agrees_bind; [apply agrees_end | exact IH].
    - apply agrees_bind; [apply agrees_skip | intros _; exact IH].
  Qed.
  Lemma agrees_read_obj n : agrees (read_obj (nprims f) load flags_of n) (read_obj (fmt_prims f) load flags_of n).
  Proof.
    induction n as [|n IH]; [intros g Hg; exact I|]. cbn [read_obj].
    apply agrees_bind; [apply agrees_begin|]. intros [h|]; [|apply agrees_ret].
    assert (HE : agrees (let* e := rgl (p_end (nprims f)) in if e then ret tt else rgl (p_skip (nprims f) true))
                        (let* e := rgl (p_end (fmt_prims f)) in if e then ret tt else rgl (p_skip (fmt_prims f) true))).
    { apply agrees_bind; [apply agrees_end|]. intros [|]; [apply agrees_ret | apply agrees_skip]. }
    destruct (bytes_eqb (oh_class h) [xa7]).
    - apply agrees_bind; [apply agrees_end|]. intros e. apply agrees_bind.
      + destruct e; [apply agrees_ret | apply agrees_skip].
      + intros _ g Hg. split; [reflexivity | exact Hg].
    - destruct (bytes_eqb (oh_class h) (lit "%")).
      + apply agrees_bind; [apply agrees_skip|]. intros _. apply agrees_ret.
      + apply agrees_bind.
        * destruct (load (type_of_class (oh_class h))) as [p|]; [|apply agrees_ret].
          intros g Hg. cbn [up rg_s rg_cache rg_heap].
          pose proof (agrees_bind _ _ _ _ (agrees_runp _ _ p IH)
            (fun v => (fun g' Hg' => conj eq_refl Hg') : agrees (fun g' => Ret (Some (len (rg_heap g)), mkRg (rg_s g') (rg_cache g') (heap_set (rg_heap g') (len (rg_heap g)) v)))
                                   (fun g' => Ret (Some (len (rg_heap g)), mkRg (rg_s g') (rg_cache g') (heap_set (rg_heap g') (len (rg_heap g)) v))))) as HB.
          apply (HB (mkRg (rg_s g) ((oh_idx h, len (rg_heap g)) :: rg_cache g)
                            (rg_heap g ++ [mkHobj (type_of_class (oh_class h)) (oh_idx h) None])) Hg).
        * intros made. apply agrees_bind; [apply agrees_end|]. intros e. apply agrees_bind.
          -- destruct e; [apply agrees_ret | apply agrees_skip].
          -- intros _. apply agrees_ret.
  Qed.
End Runs.
