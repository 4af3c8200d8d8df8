(** The writers of the three formats produce the encoding of the content. *)

From Coq Require Import String Lia.
From Verif Require Import MBase MStream MBoxes MText MClasses MArchive SStream SArchive LBase LStream LText LDaedalus.
Local Open Scope N_scope.
Local Open Scope m_scope.

(** ** Writing over old bytes *)
Definition emits (m : wr unit) (bs : bytes) : Prop :=
  forall pre old, len pre + len bs < max_size ->
    m (mkW (pre ++ old) (len pre)) = Ret (tt, mkW (pre ++ bs ++ drop (len bs) old) (len pre + len bs)).
Lemma ret_w b b' p p' : b = b' -> p = p' -> Ret (tt, mkW b p) = Ret (tt, mkW b' p').
Proof. congruence. Qed.
Lemma emits_ret : emits (ret tt) [].
Proof. intros pre old _. rewrite len_nil, drop_0, N.add_0_r. reflexivity. Qed.
Lemma emits_raw bs : emits (wr_write bs) bs.
Proof.
  intros pre old Hl. unfold wr_write. cbn [wpos wbuf].
  destruct (N.ltb_spec (len pre + len bs) max_size); [|lia]. apply ret_w; [|reflexivity].
  unfold overwrite. destruct (N.ltb_spec (len (pre ++ old)) (len pre + len bs)) as [Hs|Hs];
    rewrite len_app in Hs.
  - rewrite len_app, <- app_assoc, take_app_exact by reflexivity. f_equal. f_equal.
    rewrite (drop_all (len pre + len bs)) by (rewrite !len_app, len_zeros; lia).
    symmetry. apply drop_all. lia.
  - rewrite take_app_exact by reflexivity. f_equal. f_equal.
    rewrite drop_app_r by lia. f_equal. lia.
Qed.
Lemma emits_seq m1 m2 b1 b2 : emits m1 b1 -> emits m2 b2 -> emits (bind m1 (fun _ => m2)) (b1 ++ b2).
Proof.
  intros H1 H2 pre old Hl. rewrite len_app in Hl. unfold bind. rewrite H1 by lia.
  specialize (H2 (pre ++ b1) (drop (len b1) old)). rewrite len_app in H2.
  rewrite <- app_assoc in H2. rewrite H2 by lia. apply ret_w; [|rewrite len_app; lia].
  rewrite drop_drop, len_app, <- !app_assoc. do 4 f_equal. lia.
Qed.
Lemma emits_cast m b b' : emits m b -> b = b' -> emits m b'.
Proof. intros H <-. exact H. Qed.
Lemma emits_iter {A} (g : A -> wr unit) (enc : A -> bytes) l :
  (forall x, emits (g x) (enc x)) -> emits (iterM g l) (flat_map enc l).
Proof.
  intros H. induction l as [|x l IH]; cbn [iterM flat_map]; [apply emits_ret|]. apply emits_seq; [apply H | exact IH].
Qed.
Lemma emits_string0 s : emits (write_string0 s) (s ++ [x00]).
Proof. apply emits_seq; apply emits_raw. Qed.
Lemma emits_line s : emits (write_line s) (s ++ [x0a]).
Proof. apply emits_seq; apply emits_raw. Qed.

(** A buffer with header [hd], the bytes [e] written so far, over [old]. *)
Definition wat (hd old e : bytes) : wstate := mkW (hd ++ e ++ drop (len e) old) (len hd + len e).
Lemma emits_wat m bs hd old e : emits m bs -> len hd + len e + len bs < max_size ->
  m (wat hd old e) = Ret (tt, wat hd old (e ++ bs)).
Proof.
  intros H Hl. unfold wat. rewrite app_assoc, <- len_app. rewrite H by (rewrite len_app; lia).
  apply ret_w; [|rewrite !len_app; lia].
  rewrite drop_drop, !len_app, <- !app_assoc. do 4 f_equal. lia.
Qed.

(** ** The state that belongs to abstract content *)
Definition prov (h : ohead) : N := u32 (6 + len (oh_name h) + len (oh_class h) + 2).
Fixpoint popen (f : fmt) (op : list (ohead * list node)) : bytes :=
  match op with
  | [] => []
  | (h, prev) :: op' => popen f op' ++ encodes f (length op') prev ++ opening f (length op') (prov h) h
  end.
Definition penc (f : fmt) (w : nw) : bytes := popen f (nw_open w) ++ encodes f (length (nw_open w)) (nw_cur w).
Fixpoint starts (hd : bytes) (op : list (ohead * list node)) : list N :=
  match op with
  | [] => []
  | (h, prev) :: op' => len hd + len (popen ABinary op' ++ encodes ABinary (length op') prev) :: starts hd op'
  end.
Definition Wst (f : fmt) (hd old : bytes) (hp : N) (sv : bool) (w : nw) : war :=
  mkWar (wat hd old (penc f w)) (nw_idx w)
        (match f with ABinsafe => nw_keys w | _ => [] end)
        (match f with AAscii => N.of_nat (length (nw_open w)) | _ => 0 end)
        (match f with ABinary => starts hd (nw_open w) | _ => [] end) hp sv.

Definition wfits (f : fmt) (hd : bytes) (w : nw) : Prop :=
  forallb (node_fit f) (nw_cur w) = true /\
  Forall (fun o => head_ok (fst o) = true /\ forallb (node_fit f) (snd o) = true) (nw_open w) /\
  len hd + len (penc f w) < 2 ^ 31 /\ nw_idx w < 2 ^ 32 /\ len (nw_keys w) <= 2 ^ 16.

Lemma encodes_app f d a b : encodes f d (a ++ b) = encodes f d a ++ encodes f d b.
Proof. apply flat_map_app. Qed.
Lemma encodes_one f d n : encodes f d [n] = encode f d n.
Proof. apply app_nil_r. Qed.
Lemma small_max n : n < 2 ^ 31 -> n < max_size.
Proof. intros H. rewrite max_size_val. change (2 ^ 31) with 2147483648 in H. lia. Qed.

(** *** The bytes of entries *)
Lemma u8_small n : n < 2 ^ 8 -> u8 n = n.
Proof. apply N.mod_small. Qed.
Lemma u16_small n : n < 2 ^ 16 -> u16 n = n.
Proof. apply N.mod_small. Qed.
Lemma u32_small n : n < 2 ^ 32 -> u32 n = n.
Proof. apply N.mod_small. Qed.
Lemma emits_bin e : emits (bin_entry e) (bin_bytes e).
Proof.
  destruct e; cbn [bin_entry bin_bytes]; try apply emits_raw.
  - apply emits_string0.
  - repeat (apply emits_seq; [apply emits_raw|]). apply emits_raw.
  - eapply emits_cast; [apply emits_seq; apply emits_raw|]. reflexivity.
Qed.

Lemma wrl_wat {m bs} hd old e idx K I S hp sv : emits m bs -> len hd + len e + len bs < max_size ->
  wrl m (mkWar (wat hd old e) idx K I S hp sv) = Ret (tt, mkWar (wat hd old (e ++ bs)) idx K I S hp sv).
Proof.
  intros H Hl. unfold wrl. cbn [wa_w wa_index wa_keys wa_indent wa_starts wa_head wa_save].
  rewrite (emits_wat _ _ _ _ _ H Hl). reflexivity.
Qed.

Lemma key_pos_bound name l : forall i j, key_pos name l i = Some j -> i <= j < i + len l.
Proof.
  induction l as [|k l IH]; intros i j; cbn [key_pos]; [discriminate|].
  rewrite len_cons. destruct (bytes_eqb k name).
  - intros E. injection E as <-. lia.
  - intros E. apply IH in E. lia.
Qed.
Definition key_of (name : bytes) (K : list bytes) : N * list bytes :=
  match key_pos name K 0 with Some i => (i, K) | None => (len K, K ++ [name]) end.
Lemma bs_wmeta_wat name tp hd old e idx K I S hp sv : len (snd (key_of name K)) <= 2 ^ 16 ->
  len hd + len e + 6 < max_size ->
  bs_wmeta name tp (mkWar (wat hd old e) idx K I S hp sv) =
  Ret (tt, mkWar (wat hd old (e ++ le_enc 1 T_HASH ++ le_enc 4 (fst (key_of name K)) ++ le_enc 1 tp)) idx
                 (snd (key_of name K)) I S hp sv).
Proof.
  intros Hk Hl. unfold bs_wmeta. unfold bind at 1.
  rewrite (wrl_wat (bs := le_enc 1 T_HASH)); [|apply emits_raw | rewrite len_le_enc; lia].
  unfold bind at 1. cbn [wa_keys]. unfold key_of in *.
  destruct (key_pos name K 0) as [i|] eqn:Ek; cbn [fst snd] in *.
  - apply key_pos_bound in Ek. rewrite (u16_small i) by lia.
    rewrite (wrl_wat (bs := le_enc 4 i)); [|apply emits_raw | rewrite len_app, !len_le_enc; lia].
    rewrite (wrl_wat (bs := le_enc 1 tp)); [|apply emits_raw | rewrite !len_app, !len_le_enc; lia].
    rewrite <- !app_assoc. reflexivity.
  - rewrite len_app, len_cons, len_nil in Hk. rewrite u32_small by (change (2 ^ 32) with 4294967296; change (2 ^ 16) with 65536 in Hk; lia).
    unfold bind at 1, set_keys. cbn [wa_w wa_index wa_keys wa_indent wa_starts wa_head wa_save].
    rewrite (wrl_wat (bs := le_enc 4 (len K))); [|apply emits_raw | rewrite len_app, !len_le_enc; lia].
    rewrite (wrl_wat (bs := le_enc 1 tp)); [|apply emits_raw | rewrite !len_app, !len_le_enc; lia].
    rewrite <- !app_assoc. reflexivity.
Qed.

Lemma as_windent_wat hd old e idx K d S hp sv : len hd + len e + N.of_nat d < max_size ->
  as_windent (mkWar (wat hd old e) idx K (N.of_nat d) S hp sv) =
  Ret (tt, mkWar (wat hd old (e ++ tabs d)) idx K (N.of_nat d) S hp sv).
Proof.
  intros Hl. unfold as_windent. cbn [wa_indent]. rewrite Nnat.Nat2N.id.
  rewrite (wrl_wat (bs := tabs d)); [reflexivity | apply emits_raw |]. unfold tabs. rewrite len_repeat. exact Hl.
Qed.

(** The safe binary entry, without its key. *)
Lemma bs_entry_split name e : entry_fit ABinsafe e = true ->
  exists m, (forall s, bs_entry name e s = (bs_wmeta name (safe_type e) ;; wrl m) s) /\ emits m (safe_bytes e).
Proof.
  intros He. unfold entry_fit in He. apply andb_prop in He as [Hw He].
  destruct e as [s|z|x|n|n|n|b|c|v|v|b|m|b]; cbn [bs_entry safe_type safe_bytes bin_bytes].
  - eexists. split; [reflexivity|]. apply N.ltb_lt in He. rewrite u16_small by exact He. apply emits_seq; apply emits_raw.
  - eexists. split; [reflexivity | apply emits_raw].
  - eexists. split; [reflexivity | apply emits_raw].
  - eexists. split; [reflexivity | apply emits_raw].
  - eexists. split; [reflexivity | apply emits_raw].
  - eexists. split; [reflexivity | apply emits_raw].
  - eexists. split; [reflexivity | apply emits_raw].
  - eexists. split; [reflexivity | apply (emits_bin (EColor c))].
  - eexists. split; [reflexivity | apply (emits_bin (EVec3 v))].
  - eexists. split; [reflexivity|]. apply emits_seq; apply emits_raw.
  - eexists. split; [reflexivity|]. apply emits_seq; apply emits_raw.
  - eexists. split; [reflexivity|]. 
    cbn [entry_wf] in Hw. apply andb_prop in Hw as [Hw _].
    assert (Hl : len (words_le (transpose3 m)) = 36) by (rewrite len_words_le; reflexivity).
    rewrite Hl. change (u16 36) with 36. rewrite take_all by (rewrite Hl; lia). apply emits_seq; apply emits_raw.
  - eexists. split; [reflexivity|]. apply N.ltb_lt in He. rewrite u16_small by exact He.
    rewrite take_all by lia. apply emits_seq; apply emits_raw.
Qed.

(** The ASCII entry, without its indentation. *)
Lemma as_entry_split name e : entry_fit AAscii e = true ->
  exists m, (forall s, as_wentry_of name e s = (as_windent ;; wrl m) s) /\
            emits m (name ++ [x3d] ++ text_type e ++ [x3a] ++ text_of e ++ [x0a]).
Proof.
  intros He. unfold entry_fit in He. apply andb_prop in He as [Hw He].
  assert (Hgen : forall type value,
    emits (write_string name ;; write_char x3d ;; write_string type ;; write_char x3a ;; write_line value)
          (name ++ [x3d] ++ type ++ [x3a] ++ value ++ [x0a])).
  { intros type value. do 4 (apply emits_seq; [apply emits_raw|]). apply emits_line. }
  assert (Hfl : forall l, emits (write_string name ;; write_string (lit "=rawFloat:") ;;
       iterM (fun x => write_string (show_f x) ;; write_char x20) l ;; write_char x0a)
       (name ++ [x3d] ++ lit "rawFloat" ++ [x3a] ++ flat_map (fun x => show_f x ++ [x20]) l ++ [x0a])).
  { intros l. eapply emits_cast.
    - apply emits_seq; [apply emits_raw|]. apply emits_seq; [apply emits_raw|].
      apply emits_seq; [|apply emits_raw]. apply emits_iter. intros x. apply emits_seq; apply emits_raw.
    - reflexivity. }
  destruct e as [s|z|x|n|n|n|b|c|v|v|b|m|b]; cbn [as_wentry_of text_type text_of];
    cbn [entry_wf] in Hw; unfold as_wentry, as_wfloats, as_wraw.
  - eexists. split; [reflexivity | apply Hgen].
  - apply andb_prop in Hw as [Hw1 Hw2]. apply Z.leb_le in Hw1. apply Z.ltb_lt in Hw2, He.
    rewrite decz_short by (split; assumption). eexists. split; [reflexivity | apply Hgen].
  - eexists. split; [reflexivity | apply Hgen].
  - apply N.ltb_lt in Hw. rewrite u8_small by exact Hw. eexists. split; [reflexivity | apply Hgen].
  - apply N.ltb_lt in Hw. rewrite u16_small by exact Hw. eexists. split; [reflexivity | apply Hgen].
  - apply N.ltb_lt in Hw. rewrite u32_small by exact Hw. eexists. split; [reflexivity | apply Hgen].
  - eexists. split; [reflexivity | apply Hgen].
  - eexists. split; [reflexivity | apply Hgen].
  - eexists. split; [reflexivity | apply Hgen].
  - eexists. split; [reflexivity | apply Hfl].
  - eexists. split; [reflexivity | apply Hfl].
  - eexists. split; [reflexivity | apply Hfl].
  - apply N.ltb_lt in He. rewrite u16_small by exact He. rewrite take_all by lia.
    eexists. split; [reflexivity|]. eapply emits_cast.
    + apply emits_seq; [apply emits_raw|]. apply emits_seq; [apply emits_raw|]. apply emits_seq; apply emits_raw.
    + reflexivity.
Qed.

(** ** One step *)
Section Steps.
  Variable f : fmt.
  Variables hd old : bytes.
  Variable hp : N.
  Variable sv : bool.
  Notation wst := (Wst f hd old hp sv).
  Notation WP := (fmt_wprims f).

  Lemma penc_put n keys w : penc f (nw_put n keys w) = penc f w ++ encode f (length (nw_open w)) n.
  Proof. unfold penc, nw_put. cbn [nw_cur nw_open]. rewrite encodes_app, encodes_one, app_assoc. reflexivity. Qed.

  Lemma head_names h : head_ok h = true ->
    word_ok (oh_name h) = true /\ (oh_class h = [] \/ word_ok (oh_class h) = true) /\ oh_ver h < 2 ^ 16 /\ oh_idx h < 2 ^ 32.
  Proof.
    unfold head_ok. intros H. apply andb_prop in H as [H H4]. apply andb_prop in H as [H H3]. apply andb_prop in H as [H1 H2].
    apply N.ltb_lt in H3, H4. split; [exact H1|]. split; [|split; assumption].
    apply orb_prop in H2 as [H2|H2]; [right; exact H2 | left; apply len_0, N.eqb_eq, H2].
  Qed.

  Lemma W_entry name e w w' : nw_entry name e w = Ret (tt, w') -> wfits f hd w' ->
    wp_entry WP name e (wst w) = Ret (tt, wst w').
  Proof.
    intros H (Fc & Fo & Fl & Fi & Fk).
    assert (Hw' : w' = nw_put (NEntry name (fst (key_of name (nw_keys w))) e) (snd (key_of name (nw_keys w))) w).
    { unfold nw_entry in H. unfold key_of. destruct (key_pos name (nw_keys w) 0); injection H as <-; reflexivity. }
    clear H. rewrite Hw' in Fl, Fc. rewrite penc_put in Fl. cbn [nw_put nw_cur encode] in Fl, Fc.
    rewrite forallb_app in Fc. apply andb_prop in Fc as [_ Fc]. cbn [forallb] in Fc. rewrite andb_true_r in Fc.
    unfold node_fit in Fc. cbn [node_is] in Fc. apply andb_prop in Fc as [Fc Fe]. apply andb_prop in Fc as [Fn _].
    rewrite len_app in Fl.
    assert (Hm : forall b, b <= len (enc_entry f (length (nw_open w)) name (fst (key_of name (nw_keys w))) e) ->
                 len hd + len (penc f w) + b < max_size) by (intros b Hb; apply small_max; lia).
    assert (Hk : len (snd (key_of name (nw_keys w))) <= 2 ^ 16) by (rewrite Hw' in Fk; exact Fk).
    rewrite Hw'. unfold Wst. rewrite penc_put. cbn [nw_put nw_idx nw_keys nw_open encode].
    destruct f; cbn [fmt_wprims wp_entry enc_entry] in *.
    - apply wrl_wat; [apply emits_bin | apply Hm; lia].
    - destruct (bs_entry_split name e Fe) as (m & -> & Hem). unfold bind.
      rewrite !len_app, !len_le_enc in Hm.
      rewrite bs_wmeta_wat; [|exact Hk | apply Hm; lia].
      rewrite (wrl_wat (bs := safe_bytes e)); [|exact Hem|].
      + rewrite <- !app_assoc. reflexivity.
      + rewrite !len_app, !len_le_enc. specialize (Hm (6 + len (safe_bytes e)) ltac:(lia)). lia.
    - destruct (as_entry_split name e Fe) as (m & -> & Hem). unfold bind.
      assert (Ht : forall d, len (tabs d) = N.of_nat d) by (intros d; apply len_repeat).
      rewrite len_app, Ht in Hm.
      rewrite as_windent_wat by (apply Hm; lia).
      rewrite (wrl_wat (bs := name ++ [x3d] ++ text_type e ++ [x3a] ++ text_of e ++ [x0a])); [|exact Hem|].
      + rewrite <- !app_assoc. reflexivity.
      + rewrite len_app, Ht. specialize (Hm _ (N.le_refl _)). lia.
  Qed.

  Lemma head_text_len h idx : head_ok h = true -> len idx <= 11 -> len (head_text h idx) < 300.
  Proof.
    intros H Hi. apply head_names in H as (H1 & H2 & H3 & H4).
    apply word_ok_parts in H1 as (_ & H1 & _).
    assert (Hc : len (if no_class (oh_class h) then lit "%" else oh_class h) <= 127).
    { destruct (no_class (oh_class h)); [vm_compute; discriminate|]. destruct H2 as [-> | H2]; [vm_compute; discriminate|].
      apply word_ok_parts in H2 as (_ & H2 & _). exact H2. }
    assert (Hv : len (dec (oh_ver h)) <= 5).
    { apply (dec_len _ 5); [|lia]. change (10 ^ N.of_nat 5) with 100000. change (2 ^ 16) with 65536 in H3. lia. }
    unfold head_text. rewrite !len_app, !len_cons, !len_nil. lia.
  Qed.
  Lemma bs_line_text h : head_ok h = true ->
    bs_line (oh_name h) (match oh_class h with [] => lit "%" | _ => oh_class h end) (oh_ver h) (oh_idx h) =
    head_text h (decz (sint 32 (oh_idx h))).
  Proof.
    intros H. apply head_names in H as (H1 & H2 & H3 & H4). unfold bs_line, head_text.
    rewrite (word_cstr _ H1). do 4 f_equal.
    destruct (oh_class h) as [|c cl] eqn:Ec; [reflexivity|].
    destruct H2 as [H2|H2]; [discriminate|]. rewrite (word_cstr _ H2).
    unfold no_class. destruct (bytes_eqb (c :: cl) (lit "%")) eqn:Eb; [|reflexivity].
    apply bytes_eqb_spec in Eb. rewrite Eb. reflexivity.
  Qed.
  Lemma sint32_range n : n < 2 ^ 32 -> (- 2 ^ 31 <= sint 32 n < 2 ^ 31)%Z.
  Proof.
    intros H. unfold sint. change (2 ^ 32) with 4294967296 in *. rewrite N.mod_small by lia.
    change (2 ^ (32 - 1)) with 2147483648. change (2 ^ 31)%Z with 2147483648%Z.
    destruct (N.ltb_spec n 2147483648); lia.
  Qed.
  Lemma emits_safe_line l : len l < 2 ^ 16 -> emits (bs_wline l) (safe_line l).
  Proof.
    intros H. unfold bs_wline. rewrite u16_small by exact H.
    apply emits_seq; [apply emits_raw|]. apply emits_seq; apply emits_raw.
  Qed.

  Lemma penc_begin w h : penc f (mkNw [] ((h, nw_cur w) :: nw_open w) (if no_class (oh_class h) then nw_idx w else nw_idx w + 1) (nw_keys w)) =
    penc f w ++ opening f (length (nw_open w)) (prov h) h.
  Proof.
    unfold penc. cbn [nw_open nw_cur popen length encodes flat_map]. rewrite app_nil_r, app_assoc. reflexivity.
  Qed.

  Lemma W_begin name cls ver w i w' : nw_begin name cls ver w = Ret (i, w') -> wfits f hd w' ->
    wp_begin WP name cls ver (wst w) = Ret (i, wst w').
  Proof.
    intros H (Fc & Fo & Fl & Fi & Fk). unfold nw_begin in H. injection H as <- <-.
    set (h := mkH name cls ver (if no_class cls then 0 else nw_idx w)) in *.
    pose proof (penc_begin w h) as Ep. change (oh_class h) with cls in Ep. rewrite Ep in Fl.
    cbn [nw_open nw_idx nw_keys] in Fo, Fi, Fk.
    inversion Fo as [|? ? [Fh _] _]; subst. cbn [fst] in Fh.
    pose proof (head_names h Fh) as (H1 & H2 & H3 & H4). cbn [h oh_name oh_class oh_ver oh_idx] in H1, H2, H3, H4.
    rewrite len_app in Fl.
    assert (Hm : len hd + len (penc f w) + len (opening f (length (nw_open w)) (prov h) h) < max_size) by (apply small_max; lia).
    unfold Wst at 2. rewrite Ep. cbn [nw_open nw_idx nw_keys].
    assert (Hnext : forall e K I S, next_index cls (mkWar e (nw_idx w) K I S hp sv) =
        Ret (if no_class cls then 0 else nw_idx w,
             mkWar e (if no_class cls then nw_idx w else nw_idx w + 1) K I S hp sv)).
    { intros e K I S. unfold next_index. destruct (no_class cls) eqn:En; [reflexivity|].
      cbn [wa_w wa_index wa_keys wa_indent wa_starts wa_head wa_save]. rewrite u32_small by exact Fi. reflexivity. }
    unfold Wst. destruct f; cbn [fmt_wprims wp_begin opening] in *.
    - unfold bin_wbegin. unfold bind at 1, wrl at 1, wr_tell at 1. cbn [wa_w wa_index wa_keys wa_indent wa_starts wa_head wa_save].
      unfold bind at 1, set_starts at 1. cbn [wa_w wa_index wa_keys wa_indent wa_starts wa_head wa_save].
      unfold bind at 1. cbn [wa_index].
      rewrite (wrl_wat (bs := opening ABinary (length (nw_open w)) (prov h) h)); [|apply emits_seq; [apply emits_raw|]; apply emits_seq; [apply emits_raw|]; apply emits_seq; [apply emits_raw|]; apply emits_seq; apply emits_string0 | exact Hm].
      rewrite Hnext. cbn [wpos wat]. cbn [length starts]. unfold penc. reflexivity.
    - unfold bs_wbegin. unfold bind at 1. cbn [wa_index].
      change name with (oh_name h) at 1. change ver with (oh_ver h) at 1.
      change (if no_class cls then 0 else nw_idx w) with (oh_idx h) at 1. 
      change cls with (oh_class h) at 1 2.
      rewrite (bs_line_text h Fh).
      rewrite (wrl_wat (bs := safe_line (head_text h (decz (sint 32 (oh_idx h)))))); [| |exact Hm].
      + apply Hnext.
      + apply emits_safe_line. pose proof (head_text_len h (decz (sint 32 (oh_idx h))) Fh (decz_len _ (sint32_range _ H4))).
        change (2 ^ 16) with 65536. lia.
    - unfold as_wbegin. rewrite len_app in Hm.
      assert (Ht : len (tabs (length (nw_open w))) = N.of_nat (length (nw_open w))) by apply len_repeat.
      unfold bind at 1. rewrite as_windent_wat by lia.
      unfold bind at 1. cbn [wa_index].
      rewrite (wrl_wat (bs := head_text h (dec (oh_idx h)) ++ [x0a])).
      + unfold bind at 1, set_indent. cbn [wa_w wa_index wa_keys wa_indent wa_starts wa_head wa_save].
        rewrite Hnext. rewrite <- !app_assoc. cbn [length]. do 3 f_equal.
        rewrite u32_small; [lia|]. rewrite Ht in Hm. change (2 ^ 31) with 2147483648 in Fl.
        rewrite len_app in Fl. change (2 ^ 32) with 4294967296. lia.
      + eapply emits_cast; [do 9 (apply emits_seq; [apply emits_raw|]); apply emits_raw|].
        unfold head_text. rewrite <- !app_assoc. reflexivity.
      + rewrite len_app. lia.
  Qed.

  Lemma wr_seek_beg p b q : p < 2 ^ 31 -> wr_seek (Z.of_N p) BEG (mkW b q) = Ret (tt, mkW b p).
  Proof.
    intros H. unfold wr_seek, seek_internal. cbn [wpos wbuf obind].
    rewrite uint_of_N by (change (2 ^ 64) with 18446744073709551616; change (2 ^ 31) with 2147483648 in H; lia). reflexivity.
  Qed.
  (** Replacing the size of a binary object that has been written. *)
  Lemma patch hdr (A : bytes) x y R : len hdr + len A < 2 ^ 31 -> len hdr + len (A ++ le_enc 4 x ++ R) < 2 ^ 31 ->
    (wr_seek (Z.of_N (len hdr + len A)) BEG ;; write_uint y ;;
     wr_seek (Z.of_N (len hdr + len (A ++ le_enc 4 x ++ R))) BEG)
      (wat hdr old (A ++ le_enc 4 x ++ R)) =
    Ret (tt, wat hdr old (A ++ le_enc 4 y ++ R)).
  Proof.
    intros H1 H2. unfold wat.
    assert (Hl : len (A ++ le_enc 4 x ++ R) = len (A ++ le_enc 4 y ++ R)) by (rewrite !len_app, !len_le_enc; reflexivity).
    unfold bind at 1. rewrite wr_seek_beg by exact H1.
    replace (hdr ++ (A ++ le_enc 4 x ++ R) ++ drop (len (A ++ le_enc 4 x ++ R)) old)
      with ((hdr ++ A) ++ le_enc 4 x ++ R ++ drop (len (A ++ le_enc 4 x ++ R)) old) by (rewrite <- !app_assoc; reflexivity).
    replace (len hdr + len A) with (len (hdr ++ A)) by apply len_app. unfold bind at 1.
    unfold write_uint. rewrite (emits_raw (le_enc 4 y)).
    - rewrite wr_seek_beg by exact H2. apply ret_w; [|rewrite Hl; reflexivity].
      rewrite len_le_enc, (drop_app_exact (N.of_nat 4)) by (rewrite len_le_enc; reflexivity).
      rewrite Hl, <- !app_assoc. reflexivity.
    - apply small_max. rewrite len_le_enc, len_app. rewrite !len_app, len_le_enc in H2. lia.
  Qed.
  Lemma opening_size g d x y h : g <> ABinary -> opening g d x h = opening g d y h.
  Proof. destruct g; [congruence | reflexivity | reflexivity]. Qed.
  Lemma opening_bin d x h : opening ABinary d x h =
    le_enc 4 x ++ le_enc 2 (oh_ver h) ++ le_enc 4 (oh_idx h) ++ (oh_name h ++ [x00]) ++ (oh_class h ++ [x00]).
  Proof. reflexivity. Qed.
  Lemma len_opening_bin d x h : len (opening ABinary d x h) = head_size h.
  Proof. rewrite opening_bin, !len_app, !len_le_enc, !len_cons, !len_nil. unfold head_size. lia. Qed.
  Lemma len_opening d x y h : len (opening f d x h) = len (opening f d y h).
  Proof. destruct f; [rewrite !len_opening_bin; reflexivity | reflexivity | reflexivity]. Qed.

  Lemma W_end w w' : nw_end w = Ret (tt, w') -> wfits f hd w' ->
    wp_end WP (wst w) = Ret (tt, wst w').
  Proof.
    intros H (Fc & Fo & Fl & Fi & Fk). unfold nw_end in H.
    destruct (nw_open w) as [|[h prev] op] eqn:Eo; [discriminate|]. injection H as <-.
    unfold penc in Fl. cbn [nw_open nw_cur] in Fl. rewrite encodes_app, encodes_one in Fl. cbn [encode] in Fl.
    fold (encodes f (S (length op)) (nw_cur w)) in Fl.
    unfold Wst. unfold penc at 2. cbn [nw_open nw_cur nw_idx nw_keys]. rewrite encodes_app, encodes_one. cbn [encode].
    fold (encodes f (S (length op)) (nw_cur w)).
    set (body := encodes f (S (length op)) (nw_cur w)) in *.
    assert (HA : match f with ABinary => popen ABinary op ++ encodes ABinary (length op) prev = popen f op ++ encodes f (length op) prev | _ => True end)
      by (clear; destruct f; exact I || reflexivity).
    set (A := popen f op ++ encodes f (length op) prev) in *.
    assert (Ep : penc f w = A ++ opening f (length op) (prov h) h ++ body).
    { unfold penc, A, body. rewrite Eo. cbn [popen length]. rewrite <- !app_assoc. reflexivity. }
    rewrite Ep. rewrite Eo. cbn [starts length].
    replace (popen f op ++ encodes f (length op) prev ++ opening f (length op) (head_size h + len body) h ++ body ++ closing f (length op))
      with (A ++ opening f (length op) (head_size h + len body) h ++ body ++ closing f (length op)) in *
      by (unfold A; rewrite <- !app_assoc; reflexivity).
    assert (Hsz : len hd + len A + len (opening f (length op) (prov h) h) + len body + len (closing f (length op)) < 2 ^ 31).
    { rewrite (len_opening _ (prov h) (head_size h + len body)). rewrite !len_app in Fl. lia. }
    clearbody A body. clear Fl Ep.
    destruct f; cbn [fmt_wprims wp_end closing] in *.
    - rewrite app_nil_r. unfold bin_wend, bind at 1, wrl at 1, wr_tell. cbn [wa_w wa_index wa_keys wa_indent wa_starts wa_head wa_save].
      unfold bind at 1, set_starts. cbn [wa_w wa_index wa_keys wa_indent wa_starts wa_head wa_save].
      cbn [wpos wat]. rewrite len_opening_bin in Hsz. rewrite HA.
      assert (E : u32 (len hd + len (A ++ opening ABinary (length op) (prov h) h ++ body) - (len hd + len A)) = head_size h + len body).
      { rewrite !len_app, len_opening_bin. rewrite u32_small; [lia|].
        change (2 ^ 31) with 2147483648 in Hsz. change (2 ^ 32) with 4294967296. lia. }
      rewrite E. rewrite !opening_bin.
      unfold wrl. cbn [wa_w wa_index wa_keys wa_indent wa_starts wa_head wa_save].
      rewrite <- !app_assoc.
      rewrite (patch hd A (prov h) (head_size h + len body)); [reflexivity | lia |].
      rewrite !len_app, !len_le_enc, !len_cons, !len_nil. unfold head_size in Hsz. lia.
    - rewrite (opening_size _ _ (head_size h + len body) (prov h)) by discriminate.
      rewrite (wrl_wat (bs := safe_line (lit "[]"))); [|apply emits_safe_line; reflexivity | apply small_max; rewrite !len_app; lia].
      rewrite <- !app_assoc. reflexivity.
    - rewrite (opening_size _ _ (head_size h + len body) (prov h)) by discriminate.
      assert (Ht : len (tabs (length op)) = N.of_nat (length op)) by apply len_repeat.
      change (2 ^ 31) with 2147483648 in Hsz.
      rewrite !len_app, Ht in Hsz.
      unfold as_wend, bind at 1, set_indent. cbn [wa_w wa_index wa_keys wa_indent wa_starts wa_head wa_save].
      replace (u32 (N.of_nat (S (length op)) + (2 ^ 32 - 1))) with (N.of_nat (length op)).
      2:{ unfold u32. change (2 ^ 32) with 4294967296.
          apply (N.mod_unique _ _ 1); lia. }
      unfold bind. rewrite as_windent_wat; [|apply small_max; rewrite !len_app, ?Ht; change (2 ^ 31) with 2147483648; lia].
      rewrite (wrl_wat (bs := lit "[]" ++ [x0a])); [|apply emits_line | apply small_max; rewrite !len_app, ?Ht; change (2 ^ 31) with 2147483648; lia].
      rewrite <- !app_assoc. reflexivity.
  Qed.

  Lemma W_ref name idx w w' : nw_ref name idx w = Ret (tt, w') -> wfits f hd w' ->
    wp_ref WP name idx (wst w) = Ret (tt, wst w').
  Proof.
    intros H (Fc & Fo & Fl & Fi & Fk). unfold nw_ref in H. injection H as <-.
    set (h := mkH name [xa7] 0 idx) in *. rewrite penc_put in Fl. cbn [nw_put nw_cur] in Fc.
    rewrite forallb_app in Fc. apply andb_prop in Fc as [_ Fc]. cbn [forallb] in Fc. rewrite andb_true_r in Fc.
    unfold node_fit in Fc. cbn [node_is forallb] in Fc. rewrite andb_true_r in Fc.
    pose proof (head_names h Fc) as (H1 & H2 & H3 & H4). cbn [h oh_name oh_class oh_ver oh_idx] in H1, H2, H3, H4.
    unfold Wst. rewrite penc_put. cbn [nw_put nw_open nw_idx nw_keys].
    cbn [encode flat_map] in *. rewrite len_nil, N.add_0_r in *. cbn [app] in *.
    rewrite !len_app in Fl. set (A := penc f w) in *. clearbody A.
    destruct f; cbn [fmt_wprims wp_ref closing] in *.
    - rewrite app_nil_r. rewrite len_opening_bin in Fl. unfold wrl. cbn [wa_w wa_index wa_keys wa_indent wa_starts wa_head wa_save].
      unfold bin_wref. unfold bind at 1, wr_tell at 1. cbn [wpos wat].
      assert (Hm : len hd + len A + head_size h < max_size) by (apply small_max; lia).
      assert (Em : forall (k : wr unit),
         (write_uint (u32 (6 + len name + 1 + 2)) ;; write_ushort 0 ;; write_uint idx ;;
          write_string0 name ;; write_string0 [xa7] ;; k) (wat hd old A) =
         k (wat hd old (A ++ opening ABinary (length (nw_open w)) (prov h) h))).
      { intros k.
        assert (E : emits (write_uint (u32 (6 + len name + 1 + 2)) ;; write_ushort 0 ;; write_uint idx ;;
          write_string0 name ;; write_string0 [xa7]) (opening ABinary (length (nw_open w)) (prov h) h)).
        { unfold opening. do 3 (apply emits_seq; [apply emits_raw|]). apply emits_seq; apply emits_string0. }
        transitivity ((let* _ := (write_uint (u32 (6 + len name + 1 + 2)) ;; write_ushort 0 ;; write_uint idx ;;
          write_string0 name ;; write_string0 [xa7]) in k) (wat hd old A)).
        - unfold bind.
          destruct (write_uint (u32 (6 + len name + 1 + 2)) (wat hd old A)) as [[[] s1]| | |]; [|reflexivity..].
          destruct (write_ushort 0 s1) as [[[] s2]| | |]; [|reflexivity..].
          destruct (write_uint idx s2) as [[[] s3]| | |]; [|reflexivity..].
          destruct (write_string0 name s3) as [[[] s4]| | |]; [|reflexivity..]. reflexivity.
        - unfold bind at 1. rewrite (emits_wat _ _ hd old A E); [reflexivity|]. rewrite len_opening_bin. exact Hm. }
      fold (wat hd old A).
      rewrite (Em (let* cur := wr_tell in wr_seek (Z.of_N (len hd + len A)) BEG ;; write_uint (u32 (cur - (len hd + len A))) ;; wr_seek (Z.of_N cur) BEG)).
      unfold bind at 1, wr_tell at 1. cbn [wpos wat]. fold (wat hd old (A ++ opening ABinary (length (nw_open w)) (prov h) h)).
      replace (u32 (len hd + len (A ++ opening ABinary (length (nw_open w)) (prov h) h) - (len hd + len A))) with (head_size h).
      2:{ rewrite len_app, len_opening_bin. rewrite u32_small; [lia|].
          change (2 ^ 31) with 2147483648 in Fl. change (2 ^ 32) with 4294967296. lia. }
      rewrite !opening_bin. rewrite (patch hd A (prov h) (head_size h)); [reflexivity | lia |].
      rewrite !len_app, !len_le_enc, !len_cons, !len_nil. unfold head_size in Fl. lia.
    - pose proof (bs_line_text h Fc) as Et. cbn [h oh_name oh_class oh_ver oh_idx] in Et.
      unfold bs_wref. rewrite Et.
      assert (E : emits (bs_wline (head_text h (decz (sint 32 idx))) ;; bs_wend)
                        (safe_line (head_text h (decz (sint 32 idx))) ++ safe_line (lit "[]"))).
      { apply emits_seq; apply emits_safe_line; [|reflexivity].
        pose proof (head_text_len h (decz (sint 32 idx)) Fc (decz_len _ (sint32_range _ H4))).
        change (2 ^ 16) with 65536. lia. }
      rewrite (wrl_wat (bs := safe_line (head_text h (decz (sint 32 idx))) ++ safe_line (lit "[]"))); [reflexivity | exact E |].
      apply small_max. rewrite len_app. unfold opening in Fl. cbn [h oh_idx] in Fl. lia.
    - assert (Ht : len (tabs (length (nw_open w))) = N.of_nat (length (nw_open w))) by apply len_repeat.
      unfold opening in *. rewrite !len_app in Fl. rewrite !Ht in Fl.
      unfold as_wref. unfold bind at 1. rewrite as_windent_wat by (apply small_max; lia).
      unfold bind at 1. rewrite (wrl_wat (bs := head_text h (dec (oh_idx h)) ++ [x0a])).
      + unfold bind. rewrite as_windent_wat by (apply small_max; rewrite !len_app, ?Ht; lia).
        rewrite (wrl_wat (bs := lit "[]" ++ [x0a])); [|apply emits_line | apply small_max; rewrite !len_app, ?Ht; lia].
        rewrite <- !app_assoc. reflexivity.
      + eapply emits_cast; [do 5 (apply emits_seq; [apply emits_raw|]); apply emits_raw|].
        unfold head_text. cbn [h oh_name oh_class oh_ver oh_idx]. rewrite <- !app_assoc. reflexivity.
      + apply small_max. rewrite !len_app, ?Ht. lia.
  Qed.
End Steps.

(** ** Whole graphs *)
From Verif Require Import LGraph.
Section Runs.
  Variable f : fmt.
  Variables hd old : bytes.
  Variable hp : N.
  Variable sv : bool.
  Variable graph : oid -> option (otype * N * list (wop oid)).
  Notation wst := (Wst f hd old hp sv).
  Notation fits := (wfits f hd).

  Lemma len_encode_cons d a b : len (encodes f d a) <= len (encodes f d (a ++ b)).
  Proof. rewrite encodes_app, len_app. lia. Qed.
  Lemma back_put n keys w : len (nw_keys w) <= len keys -> fits (nw_put n keys w) -> fits w.
  Proof.
    intros Hk (F1 & F2 & F3 & F4 & F5). rewrite penc_put in F3. cbn [nw_put nw_cur nw_open nw_idx nw_keys] in *.
    rewrite forallb_app in F1. apply andb_prop in F1 as [F1 _]. rewrite len_app in F3.
    split; [exact F1|]. split; [exact F2|]. split; [lia|]. split; [exact F4 | lia].
  Qed.
  Lemma back_entry name e w w' : nw_entry name e w = Ret (tt, w') -> fits w' -> fits w.
  Proof.
    unfold nw_entry. destruct (key_pos name (nw_keys w) 0); intros H; injection H as <-; apply back_put;
      rewrite ?len_app; lia.
  Qed.
  Lemma back_ref name i w w' : nw_ref name i w = Ret (tt, w') -> fits w' -> fits w.
  Proof. unfold nw_ref. intros H; injection H as <-. apply back_put. lia. Qed.
  Lemma back_begin name cls ver w i w' : nw_begin name cls ver w = Ret (i, w') -> fits w' -> fits w.
  Proof.
    unfold nw_begin. intros H; injection H as <- <-. intros (F1 & F2 & F3 & F4 & F5).
    cbn [nw_cur nw_open nw_idx nw_keys] in *. inversion F2 as [|? ? [G1 G2] G3]; subst. cbn [fst snd] in *.
    split; [exact G2|]. split; [exact G3|]. split; [|split; [destruct (no_class cls); lia | exact F5]].
    unfold penc in F3. cbn [nw_open nw_cur popen] in F3. rewrite !len_app in F3. unfold penc. rewrite len_app. lia.
  Qed.
  Lemma back_end w w' : nw_end w = Ret (tt, w') -> fits w' -> fits w.
  Proof.
    unfold nw_end. destruct (nw_open w) as [|[h prev] op] eqn:Eo; [discriminate|]. intros H; injection H as <-.
    intros (F1 & F2 & F3 & F4 & F5). cbn [nw_cur nw_open nw_idx nw_keys] in *.
    rewrite forallb_app in F1. apply andb_prop in F1 as [F1 F6]. cbn [forallb] in F6. rewrite andb_true_r in F6.
    unfold node_fit in F6. cbn [node_is] in F6. apply andb_prop in F6 as [F6 F7].
    split; [exact F7|]. split; [rewrite Eo; constructor; [split; assumption | exact F2]|].
    split; [|split; assumption].
    unfold penc in *. cbn [nw_open nw_cur] in F3. rewrite encodes_app, encodes_one in F3. cbn [encode] in F3.
    rewrite Eo. cbn [popen length]. rewrite !len_app in *.
    rewrite (len_opening f _ (prov h) (head_size h + len (flat_map (encode f (S (length op))) (nw_cur w)))).
    unfold encodes at 2. lia.
  Qed.

  Section Ops.
    Variable n : nat.
    Hypothesis IHn : forall name r w wc w' wc',
      write_obj nwprims graph n name r (mkWg w wc) = Ret (tt, mkWg w' wc') -> fits w' ->
      fits w /\ write_obj (fmt_wprims f) graph n name r (mkWg (wst w) wc) = Ret (tt, mkWg (wst w') wc').
    Lemma W_op o : forall w wc w' wc',
      run_wop nwprims (write_obj nwprims graph n) o (mkWg w wc) = Ret (tt, mkWg w' wc') -> fits w' ->
      fits w /\ run_wop (fmt_wprims f) (write_obj (fmt_wprims f) graph n) o (mkWg (wst w) wc) = Ret (tt, mkWg (wst w') wc').
    Proof.
      induction o as [name e|name r|name cls ver l IHl|e|] using wop_ind2; intros w wc w' wc' Hr Hf.
      - cbn [run_wop] in *. unfold wgl in *. cbn [wg_s wg_cache nwprims wp_entry] in *.
        destruct (nw_entry name e w) as [[[] w1]| | |] eqn:E; try discriminate. injection Hr as <- <-.
        split; [eapply back_entry; eassumption|]. rewrite (W_entry _ _ _ _ _ _ _ _ _ E Hf). reflexivity.
      - cbn [run_wop] in *. apply IHn; assumption.
      - rewrite run_wop_sub in Hr.
        change (run_wop (fmt_wprims f) (write_obj (fmt_wprims f) graph n) (WSub name cls ver l)) with
          (wgl (wp_begin (fmt_wprims f) name cls ver) ;; run_wops (fmt_wprims f) (write_obj (fmt_wprims f) graph n) l ;; wgl (wp_end (fmt_wprims f))).
        apply bind_Ret in Hr as (i & [w1 wc1] & H1 & H2). apply bind_Ret in H2 as ([] & [w2 wc2] & H2 & H3).
        unfold wgl in H1 at 1. cbn [nwprims wp_begin wg_s wg_cache] in H1.
        destruct (nw_begin name cls ver w) as [[i1 w3]| | |] eqn:E1; try discriminate. injection H1 as <- <- <-.
        unfold wgl in H3 at 1. cbn [nwprims wp_end wg_s wg_cache] in H3.
        destruct (nw_end w2) as [[[] w4]| | |] eqn:E2; try discriminate. injection H3 as <- <-.
        pose proof (back_end _ _ E2 Hf) as Hf2.
        assert (Hl : forall w wc w' wc', run_wops nwprims (write_obj nwprims graph n) l (mkWg w wc) = Ret (tt, mkWg w' wc') -> fits w' ->
          fits w /\ run_wops (fmt_wprims f) (write_obj (fmt_wprims f) graph n) l (mkWg (wst w) wc) = Ret (tt, mkWg (wst w') wc')).
        { clear - IHl. induction IHl as [|o l Ho _ IH]; intros w wc w' wc' H Hf; cbn [run_wops] in *.
          - injection H as <- <-. split; [exact Hf | reflexivity].
          - apply bind_Ret in H as ([] & [w1 wc1] & H1 & H2).
            destruct (IH _ _ _ _ H2 Hf) as [Hf1 R2]. destruct (Ho _ _ _ _ H1 Hf1) as [Hf0 R1].
            split; [exact Hf0|]. unfold bind. rewrite R1. exact R2. }
        destruct (Hl _ _ _ _ H2 Hf2) as [Hf3 R].
        split; [eapply back_begin; eassumption|].
        unfold bind, wgl. cbn [wg_s wg_cache]. rewrite (W_begin _ _ _ _ _ _ _ _ _ _ _ E1 Hf3), R. cbn [wg_s wg_cache].
        rewrite (W_end _ _ _ _ _ _ _ E2 Hf). reflexivity.
      - discriminate.
      - discriminate.
    Qed.
    Lemma W_ops l : forall w wc w' wc',
      run_wops nwprims (write_obj nwprims graph n) l (mkWg w wc) = Ret (tt, mkWg w' wc') -> fits w' ->
      fits w /\ run_wops (fmt_wprims f) (write_obj (fmt_wprims f) graph n) l (mkWg (wst w) wc) = Ret (tt, mkWg (wst w') wc').
    Proof.
      induction l as [|o l IH]; intros w wc w' wc' H Hf; cbn [run_wops] in *.
      - injection H as <- <-. split; [exact Hf | reflexivity].
      - apply bind_Ret in H as ([] & [w1 wc1] & H1 & H2).
        destruct (IH _ _ _ _ H2 Hf) as [Hf1 R2]. destruct (W_op _ _ _ _ _ H1 Hf1) as [Hf0 R1].
        split; [exact Hf0|]. unfold bind. rewrite R1. exact R2.
    Qed.
  End Ops.

  Lemma W_obj n : forall name r w wc w' wc',
    write_obj nwprims graph n name r (mkWg w wc) = Ret (tt, mkWg w' wc') -> fits w' ->
    fits w /\ write_obj (fmt_wprims f) graph n name r (mkWg (wst w) wc) = Ret (tt, mkWg (wst w') wc').
  Proof.
    induction n as [|n IHn]; intros name r w wc w' wc' Hr Hf; [discriminate|].
    cbn [write_obj] in *. destruct r as [r|].
    - cbn [wg_cache] in *. destruct (wcache_find r wc) as [i|].
      + unfold wgl in *. cbn [wg_s wg_cache nwprims wp_ref] in *.
        destruct (nw_ref name i w) as [[[] w1]| | |] eqn:E; try discriminate. injection Hr as <- <-.
        split; [eapply back_ref; eassumption|]. rewrite (W_ref _ _ _ _ _ _ _ _ _ E Hf). reflexivity.
      + destruct (graph r) as [[[t ver] ops]|]; [|discriminate]. destruct (class_of_type t) as [cls|]; [|discriminate].
        apply bind_Ret in Hr as (i & [w1 wc1] & H1 & H2).
        unfold wgl in H1 at 1. cbn [wg_s wg_cache nwprims wp_begin] in H1.
        destruct (nw_begin name cls ver w) as [[i1 w3]| | |] eqn:E1; try discriminate. injection H1 as <- <- <-.
        unfold bind at 1, cache_put at 1 in H2. cbn [wg_s wg_cache] in H2.
        apply bind_Ret in H2 as ([] & [w2 wc2] & H2 & H3).
        unfold wgl in H3 at 1. cbn [wg_s wg_cache nwprims wp_end] in H3.
        destruct (nw_end w2) as [[[] w4]| | |] eqn:E2; try discriminate. injection H3 as <- <-.
        pose proof (back_end _ _ E2 Hf) as Hf2.
        destruct (W_ops n IHn _ _ _ _ _ H2 Hf2) as [Hf3 R].
        split; [eapply back_begin; eassumption|].
        unfold bind, wgl, cache_put. cbn [wg_s wg_cache]. rewrite (W_begin _ _ _ _ _ _ _ _ _ _ _ E1 Hf3). cbn [wg_s wg_cache]. rewrite R. cbn [wg_s wg_cache].
        rewrite (W_end _ _ _ _ _ _ _ E2 Hf). reflexivity.
    - apply bind_Ret in Hr as (i & [w1 wc1] & H1 & H2).
      unfold wgl in H1, H2. cbn [wg_s wg_cache nwprims wp_begin wp_end] in H1, H2.
      destruct (nw_begin name (lit "%") 0 w) as [[i1 w3]| | |] eqn:E1; try discriminate. injection H1 as <- <- <-.
      destruct (nw_end w3) as [[[] w4]| | |] eqn:E2; try discriminate. injection H2 as <- <-.
      pose proof (back_end _ _ E2 Hf) as Hf2. split; [eapply back_begin; eassumption|].
      unfold bind, wgl. cbn [wg_s wg_cache]. rewrite (W_begin _ _ _ _ _ _ _ _ _ _ _ E1 Hf2). cbn [wg_s wg_cache].
      rewrite (W_end _ _ _ _ _ _ _ E2 Hf). reflexivity.
  Qed.
End Runs.
