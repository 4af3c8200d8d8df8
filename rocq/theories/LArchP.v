(** Sequences of entries, skipping, wrong types: the lemmas behind the properties of archives. *)

From Coq Require Import String Lia.
From Verif Require Import MBase MStream MBoxes SBoxes MText MClasses MArchive SStream SArchive LBase LStream LBoxes LText LGraph LArchW LArchR LArchH.
Local Open Scope N_scope.
Local Open Scope m_scope.

Lemma create_at f e save : len (header_text f e false) + 25 < 2 ^ 31 ->
  exists old, (f <> ABinsafe -> old = []) /\ len old <= (match f with ABinsafe => 4 | _ => 0 end) /\
    ar_create f e save w_empty = Ret (Wst f (header_text f e false ++ head_rest f 0 0) old 0 save nw_empty).
Proof.
  intros Hl. assert (Hi0 : idx_fits f 0) by (destruct f; reflexivity).
  unfold ar_create, w_empty. cbn [wpos].
  destruct (wheader_at f e [] 0 0 [] 0 [] 0 false) as (p & E & Ep); try (exact eq_refl || exact Hi0).
  - apply N.le_0_l.
  - constructor.
  - destruct f; lia.
  - intros X; contradiction X; reflexivity.
  - intros _ _. split; reflexivity.
  - exists (match f with ABinsafe => le_enc 4 0 | _ => [] end).
    split; [destruct f; intros X; try reflexivity; contradiction X; reflexivity|].
    split; [destruct f; vm_compute; discriminate|].
    match type of E with ?X = _ => match goal with |- context [ar_wheader f e ?s] => change (ar_wheader f e s) with X end end.
    rewrite E. cbn [wa_w wa_index wa_keys wa_indent wa_starts wa_head]. f_equal.
    unfold Wst, wat. cbn [nw_empty nw_open nw_cur nw_idx nw_keys penc popen encodes flat_map length app starts].
    rewrite Ep. cbn [N.eqb]. change (len (penc f nw_empty)) with 0. rewrite drop_0, N.add_0_r.
    destruct f; cbn [head_rest]; rewrite ?drop_nil; reflexivity.
Qed.

(** ** Entries *)
Fixpoint put_all (l : list (bytes * entry)) (w : nw) : nw :=
  match l with
  | [] => w
  | (name, e) :: l' => put_all l' (match key_pos name (nw_keys w) 0 with
      | Some i => nw_put (NEntry name i e) (nw_keys w) w
      | None => nw_put (NEntry name (len (nw_keys w)) e) (nw_keys w ++ [name]) w end)
  end.
Definition is_entry (x : bytes * entry) (n : node) : Prop := exists key, key < 2 ^ 32 /\ n = NEntry (fst x) key (snd x).
Lemma key_pos_lt name l : forall i k, key_pos name l i = Some k -> k < i + len l.
Proof.
  induction l as [|x l IH]; intros i k; cbn [key_pos]; [discriminate|]. rewrite len_cons. destruct (bytes_eqb _ _).
  - intros E; injection E as <-. lia.
  - intros E. apply IH in E. lia.
Qed.
Lemma put_all_spec l : forall w, len (names_of l (nw_keys w)) <= 2 ^ 16 -> exists nds,
  Forall2 is_entry l nds /\ nw_cur (put_all l w) = nw_cur w ++ nds /\ nw_open (put_all l w) = nw_open w /\
  nw_idx (put_all l w) = nw_idx w /\ nw_keys (put_all l w) = names_of l (nw_keys w) /\ len (nw_keys w) <= 2 ^ 16.
Proof.
  induction l as [|[name e] l IH]; intros w Hk; cbn [put_all names_of] in *.
  - exists []. rewrite app_nil_r. repeat split; auto.
  - destruct (key_pos name (nw_keys w) 0) as [i|] eqn:Ek.
    + set (w2 := nw_put (NEntry name i e) (nw_keys w) w). destruct (IH w2 Hk) as (nds & A & B & C & D & E & F).
      exists (NEntry name i e :: nds). split.
      { constructor; [|exact A]. exists i. split; [|reflexivity]. apply key_pos_lt in Ek. cbn [w2 nw_put nw_keys] in F.
        change (2 ^ 16) with 65536 in F. change (2 ^ 32) with 4294967296. lia. }
      rewrite B, C, D, E. cbn [w2 nw_put nw_cur nw_open nw_idx nw_keys]. rewrite <- app_assoc. repeat split; auto.
    + set (w2 := nw_put (NEntry name (len (nw_keys w)) e) (nw_keys w ++ [name]) w). destruct (IH w2 Hk) as (nds & A & B & C & D & E & F).
      cbn [w2 nw_put nw_keys] in F. rewrite len_app in F. change (len [name]) with 1 in F.
      exists (NEntry name (len (nw_keys w)) e :: nds). split.
      { constructor; [|exact A]. eexists. split; [|reflexivity]. change (2 ^ 16) with 65536 in F. change (2 ^ 32) with 4294967296. lia. }
      rewrite B, C, D, E. cbn [w2 nw_put nw_cur nw_open nw_idx nw_keys]. rewrite <- app_assoc. repeat split; auto. lia.
Qed.
Lemma write_all_at f hd old hp sv l : forall w, wfits f hd (put_all l w) ->
  wfits f hd w /\ write_all f l (Wst f hd old hp sv w) = Ret (tt, Wst f hd old hp sv (put_all l w)).
Proof.
  induction l as [|[name e] l IH]; intros w Hf; cbn [put_all write_all] in *; [split; [exact Hf | reflexivity]|].
  set (w2 := match key_pos name (nw_keys w) 0 with Some i => _ | None => _ end) in *.
  destruct (IH w2 Hf) as [F2 R].
  assert (En : nw_entry name e w = Ret (tt, w2)) by (unfold nw_entry, w2; destruct (key_pos name (nw_keys w) 0); reflexivity).
  split; [exact (back_entry f hd hp (fun _ => None) name e w w2 En F2)|].
  unfold bind. rewrite (W_entry f hd old hp sv name e w w2 En F2). exact R.
Qed.
Lemma len_enc_key f d name key key' e : len (enc_entry f d name key e) = len (enc_entry f d name key' e).
Proof. destruct f; cbn [enc_entry]; rewrite ?len_app, ?len_le_enc; reflexivity. Qed.
Lemma len_entries f l nds : Forall2 is_entry l nds ->
  len (encodes f 0 nds) = len (flat_map (fun x => enc_entry f 0 (fst x) 0 (snd x)) l).
Proof.
  induction 1 as [|x n l nds (key & _ & ->) _ IH]; [reflexivity|]. cbn [flat_map]. unfold encodes in *. cbn [flat_map encode].
  rewrite !len_app, IH. f_equal. apply len_enc_key.
Qed.
Lemma kmatch_own e : kmatch (kind_of e) e = Some (val_of e).
Proof. destruct e; try reflexivity. cbn. rewrite N.eqb_refl. reflexivity. Qed.
Lemma read_all_at f D (HD : len D < 2 ^ 31) X E (HX : after_ok f X) l nds : Forall2 is_entry l nds ->
  Forall (fun x => key_ok f (fst x) = true /\ entry_ok f (snd x) = true) l ->
  suf D (strip f (encodes f 0 nds ++ X)) ->
  read_all f (map kind_of (map snd l)) (rat f D (encodes f 0 nds ++ X) E) = Ret (map typed (map snd l), rat f D X E).
Proof.
  induction 1 as [|[name e] n l nds (key & Hkey & ->) Hl IH]; intros Hok Hs; [reflexivity|].
  inversion Hok as [|? ? [Hk He] Hok']; subst. cbn [fst snd] in *. cbn [map read_all].
  unfold encodes in *. cbn [flat_map encode] in *. rewrite <- app_assoc in *.
  assert (HA : after_ok f (flat_map (encode f 0) nds ++ X)).
  { apply (nodes_after_ok f 0); [|exact HX]. apply forallb_forall. intros n Hn.
    clear - Hl Hok' Hn. induction Hl as [|x m l nds (k & Hk & ->) _ IH]; [destruct Hn|]. inversion Hok' as [|? ? [H1 H2] H3]; subst.
    destruct Hn as [<-|Hn]; [|apply IH; assumption]. unfold node_fit. cbn [node_is]. apply N.ltb_lt in Hk. rewrite H1, Hk.
    unfold entry_ok in H2. apply andb_prop in H2 as [H2 _]. exact H2. }
  destruct (S_read f D HD (kind_of e) (val_of e) 0 name key e _ E Hk He (kmatch_own e) HA Hs) as [R1 R2].
  cbn [snd].   unfold bind at 1. rewrite R1. unfold bind. rewrite (IH Hok' R2). reflexivity.
Qed.
Theorem entries_round_trip f e save l :
  Forall (fun x => key_ok f (fst x) = true /\ entry_ok f (snd x) = true) l -> entries_fit f e l ->
  entries_come_back f e save l.
Proof.
  intros Hok [Hl Hk]. destruct (create_at f e save) as (old & Hold & Lold & E0); [lia|].
  set (hd := header_text f e false ++ head_rest f 0 0) in *.
  destruct (put_all_spec l nw_empty Hk) as (nds & A & B & C & D & E & _).
  cbn [nw_empty nw_cur nw_open nw_idx nw_keys app] in *.
  set (w := put_all l nw_empty) in *.
  assert (EP : penc f w = encodes f 0 nds) by (unfold penc; rewrite B, C; reflexivity).
  pose proof (len_entries f l nds A) as Le.
  assert (Lhd : len hd <= len (header_text f e false) + 25).
  { unfold hd. rewrite len_app, (len_head_rest f) by (destruct f; reflexivity). destruct f; lia. }
  assert (FIT : wfits f hd w).
  { unfold wfits. rewrite B, C, D, EP. split; [|split; [constructor|split; [rewrite Le; lia|split; [reflexivity|]]]].
    - apply forallb_forall. intros n Hn.
      clear - A Hok Hn. induction A as [|x m l nds (k & Hk & ->) _ IH]; [destruct Hn|]. inversion Hok as [|? ? [H1 H2] H3]; subst.
      destruct Hn as [<-|Hn]; [|apply IH; assumption]. unfold node_fit. cbn [node_is]. apply N.ltb_lt in Hk. rewrite H1, Hk.
      unfold entry_ok in H2. apply andb_prop in H2 as [H2 _]. exact H2.
    - rewrite E. exact Hk. }
  destruct (write_all_at f hd old 0 save l nw_empty FIT) as [_ R].
  exists (Wst f hd old 0 save nw_empty), (Wst f hd old 0 save w). split; [exact E0|]. split; [exact R|].
  unfold Wst. cbn [wa_w]. unfold wat. rewrite EP. change (penc f nw_empty) with (@nil byte). change (len (@nil byte)) with 0.
  cbn [wbuf wpos]. rewrite N.add_0_r.
  set (X := drop (len (encodes f 0 nds)) old). set (Dt := hd ++ encodes f 0 nds ++ X).
  assert (HXo : f <> ABinsafe -> X = []) by (intros Hf; unfold X; rewrite (Hold Hf); apply drop_nil).
  assert (LD : len Dt < 2 ^ 31).
  { unfold Dt, hd. rewrite !len_app, (len_head_rest f) by (destruct f; reflexivity). unfold X. rewrite len_drop, Le.
    destruct f; lia. }
  assert (HA : after_ok f X) by (destruct f; [exact I | exact I | rewrite HXo by discriminate; cbn; discriminate]).
  assert (ES : strip f (encodes f 0 nds ++ X) = encodes f 0 nds ++ X).
  { destruct f; try reflexivity. rewrite HXo by discriminate. rewrite app_nil_r. cbn [strip].
    destruct A as [|x n l nds (key & Hkey & ->) _]; [reflexivity|]. inversion Hok as [|? ? [H1 _] _]; subst.
    unfold encodes. cbn [flat_map encode]. rewrite strip_entry by exact H1. cbn [enc_entry tabs repeat]. unfold as_line.
    rewrite <- !app_assoc. reflexivity. }
  pose proof (read_all_at f Dt LD X [] HA l nds A Hok) as RA. rewrite ES in RA.
  assert (P1 : rat f Dt (encodes f 0 nds ++ X) [] = mkRar (mkR Dt (len hd)) []).
  { unfold rat, pos. rewrite ES. f_equal. f_equal. unfold Dt. rewrite len_app. lia. }
  assert (P2 : rat f Dt X [] = mkRar (mkR Dt (len hd + len (encodes f 0 nds))) []).
  { unfold rat, pos. assert (EX : strip f X = X) by (destruct f; try reflexivity; rewrite HXo by discriminate; reflexivity).
    rewrite EX. f_equal. f_equal. unfold Dt. rewrite !len_app. lia. }
  rewrite P1, P2 in RA. apply RA. exists hd. reflexivity.
Qed.

(** ** Skipping *)
Section Skips.
  Variable f : fmt.
  Variable D : bytes.
  Hypothesis HD : len D < 2 ^ 31.
  Notation here X := (suf D (strip f X)).
  Lemma skip_next h l d X E : head_ok h = true -> forallb (node_fit f) l = true -> forallb (skip_ok f) l = true -> after_ok f X ->
    here (encode f d (NObj h l) ++ X) ->
    ar_skip f false (rat f D (encode f d (NObj h l) ++ X) E) = Ret (tt, rat f D X E) /\ here X.
  Proof.
    intros Hh Hl Hq Ha Hs. destruct (match f with ABinary => true | _ => false end) eqn:Ef.
    - destruct f; try discriminate. cbn [strip] in *. split; [|apply suf_app in Hs; exact Hs].
      assert (EO : exists z r, encode ABinary d (NObj h l) = le_enc 4 z ++ r /\ z = 4 + len r).
      { cbn [encode]. eexists. eexists. split; [cbn [opening closing]; rewrite app_nil_r, <- !app_assoc; reflexivity|].
        unfold head_size. rewrite !len_app, !len_le_enc. change (len [x00]) with 1. lia. }
      destruct EO as (z & r & EO & Ez). rewrite EO, <- app_assoc in *.
      assert (Hz : z < 2 ^ 32).
      { destruct Hs as [pre ED]. assert (len D = len pre + (4 + len r + len X)) by (rewrite ED, !len_app, len_le_enc; lia).
        change (2 ^ 31) with 2147483648 in HD. change (2 ^ 32) with 4294967296. lia. }
      cbn [ar_skip]. unfold bin_skip, bind at 1, rdl at 1, rat. cbn [ra_r ra_ends strip].
      rewrite (at_reads D HD read_uint (le_enc 4 z) z); [|apply reads_uint; exact Hz | exact Hs].
      apply suf_app in Hs. unfold rdl. cbn [ra_r ra_ends].
      rewrite (at_reads D HD _ r tt); [reflexivity| |exact Hs].
      apply reads_seek. rewrite Ez. unfold u32. change (2 ^ 32) with 4294967296 in *.
      replace (4 + len r + (4294967296 - 4)) with (len r + 1 * 4294967296) by lia.
      rewrite N.mod_add by discriminate. apply N.mod_small. lia.
    - assert (Hf : f <> ABinary) by (destruct f; discriminate). apply (S_skip_next f D HD Hf); assumption.
  Qed.
  Lemma pass_all X E (HX : after_ok f X) d l : forallb (node_ok f) l = true -> forallb (skip_ok f) l = true ->
    here (encodes f d l ++ X) ->
    iterM (pass f) l (rat f D (encodes f d l ++ X) E) = Ret (tt, rat f D X E) /\ here X.
  Proof.
    induction l as [|n l IH]; intros Ho Hq Hs; [split; [reflexivity | exact Hs]|].
    cbn [forallb] in Ho, Hq. apply andb_prop in Ho as [Ho1 Ho2]. apply andb_prop in Hq as [Hq1 Hq2].
    unfold encodes in *. cbn [flat_map] in *. rewrite <- app_assoc in *. cbn [iterM].
    assert (HA : after_ok f (flat_map (encode f d) l ++ X)) by (apply (nodes_after_ok f d); [apply nodes_ok_fit; exact Ho2 | exact HX]).
    assert (R : pass f n (rat f D (encode f d n ++ flat_map (encode f d) l ++ X) E) = Ret (tt, rat f D (flat_map (encode f d) l ++ X) E) /\
                here (flat_map (encode f d) l ++ X)).
    { destruct n as [name key e|h cs|b].
      3:{ cbn [skip_ok] in Hq1. destruct f; try discriminate. unfold node_ok in Ho1. cbn [node_is] in Ho1.
          assert (He : entry_ok ABinary (ERaw b) = true) by (destruct b; [discriminate | reflexivity]).
          destruct (S_read ABinary D HD (kind_of (ERaw b)) (val_of (ERaw b)) d [] 0 (ERaw b) _ E eq_refl He (kmatch_own (ERaw b)) HA Hs) as [R1 R2].
          split; [|exact R2]. cbn [pass]. unfold bind. cbn [encode enc_entry bin_bytes kind_of] in *. rewrite R1. reflexivity. }
      - unfold node_ok in Ho1. cbn [node_is] in Ho1. apply andb_prop in Ho1 as [H0 He]. apply andb_prop in H0 as [Hk _].
        cbn [encode] in *. destruct (S_read f D HD (kind_of e) (val_of e) d name key e _ E Hk He (kmatch_own e) HA Hs) as [R1 R2].
        split; [|exact R2]. cbn [pass]. unfold bind. rewrite R1. reflexivity.
      - unfold node_ok in Ho1. cbn [node_is] in Ho1. apply andb_prop in Ho1 as [Hh Hc]. cbn [pass].
        apply skip_next; try assumption. apply nodes_ok_fit. exact Hc. }
    destruct R as [R1 R2]. unfold bind. rewrite R1. apply IH; assumption.
  Qed.
End Skips.
Section Inside.
  Lemma skip_inside f D (HD : len D < 2 ^ 31) h l1 l2 d X E : head_ok h = true -> forallb (node_ok f) l1 = true -> forallb (node_fit f) l2 = true ->
    forallb (skip_ok f) (l1 ++ l2) = true -> after_ok f X -> suf D (strip f (encode f d (NObj h (l1 ++ l2)) ++ X)) ->
    exists s1 s2, ar_begin f (rat f D (encode f d (NObj h (l1 ++ l2)) ++ X) E) = Ret (Some (mkH (oh_name h) (shown_class f (oh_class h)) (oh_ver h) (oh_idx h)), s1) /\
      iterM (pass f) l1 s1 = Ret (tt, s2) /\ ar_skip f true s2 = Ret (tt, rat f D X E).
  Proof.
    intros Hh H1 H2 Hq Ha Hs. rewrite forallb_app in Hq. apply andb_prop in Hq as [Hq1 Hq2].
    cbn [encode] in *. rewrite flat_map_app, <- !app_assoc in *.
    set (sz := head_size h + len (flat_map (encode f (S d)) l1 ++ flat_map (encode f (S d)) l2)) in *.
    destruct (match f with ABinary => true | _ => false end) eqn:Ef.
    - destruct f; try discriminate. cbn [closing app strip] in *.
      exists (rat ABinary D (flat_map (encode ABinary (S d)) l1 ++ flat_map (encode ABinary (S d)) l2 ++ X) ((len D - len X) :: E)).
      exists (rat ABinary D (flat_map (encode ABinary (S d)) l2 ++ X) ((len D - len X) :: E)). split.
      { unfold rat. cbn [strip ar_begin]. rewrite shown_bin. rewrite !(app_assoc (flat_map (encode ABinary (S d)) l1)) in *.
        apply bin_begin_at; assumption. }
      apply suf_app in Hs.
      destruct (pass_all ABinary D HD (flat_map (encode ABinary (S d)) l2 ++ X) ((len D - len X) :: E) I (S d) l1 H1 Hq1 Hs) as [R1 R2].
      split; [exact R1|]. unfold ar_skip, bin_skip, bind, top_end, rdl, rat. cbn [ra_r ra_ends strip].
      rewrite (at_back' D HD). reflexivity.
    - assert (Hf : f <> ABinary) by (destruct f; discriminate).
      assert (A1 : after_ok f (closing f d ++ X)) by (apply closing_after_ok; exact Hf).
      assert (A2 : after_ok f (flat_map (encode f (S d)) l2 ++ closing f d ++ X)) by (apply (nodes_after_ok f (S d)); assumption).
      assert (A3 : after_ok f (flat_map (encode f (S d)) l1 ++ flat_map (encode f (S d)) l2 ++ closing f d ++ X))
        by (apply (nodes_after_ok f (S d)); [apply nodes_ok_fit; exact H1 | exact A2]).
      destruct (S_begin f D HD d sz h _ E Hf Hh A3 Hs) as [R0 S0].
      destruct (pass_all _ D HD (flat_map (encode f (S d)) l2 ++ closing f d ++ X) E A2 (S d) l1 H1 Hq1 S0) as [R1 S1].
      destruct (S_skip_cur f D HD Hf l2 d X E H2 Hq2 Ha S1) as [R2 _].
      eexists. eexists. split; [exact R0|]. split; [exact R1 | exact R2].
  Qed.
End Inside.

(** ** Wrong types *)
Lemma bs_meta_wrong D (HD : len D < 2 ^ 31) key t tp X : t < 2 ^ 8 -> t <> tp -> suf D (le_enc 1 T_HASH ++ le_enc 4 key ++ le_enc 1 t ++ X) ->
  bs_meta tp (pos D (le_enc 1 T_HASH ++ le_enc 4 key ++ le_enc 1 t ++ X)) = Throw ParserError.
Proof.
  intros Ht Hn Hs. unfold bs_meta. unfold bind at 1.
  rewrite (at_reads D HD read_ubyte (le_enc 1 T_HASH) T_HASH); [|apply reads_ubyte; reflexivity | exact Hs]. apply suf_app in Hs.
  change (negb (T_HASH =? T_HASH)) with false. cbv iota. unfold bind at 1.
  rewrite (at_reads D HD (rd_seek 4 CUR) (le_enc 4 key) tt); [|apply (reads_seek (le_enc 4 key) 4); rewrite len_le_enc; reflexivity | exact Hs].
  apply suf_app in Hs. unfold bind at 1.
  rewrite (at_reads D HD read_ubyte (le_enc 1 t) t); [|apply reads_ubyte; exact Ht | exact Hs].
  destruct (N.eqb_spec t tp); [contradiction | reflexivity].
Qed.
Lemma safe_type_small e : safe_type e < 2 ^ 8.
Proof. destruct e; reflexivity. Qed.
Theorem wrong_type f D k d name key e X E : len D < 2 ^ 31 -> f <> ABinary -> key_ok f name = true -> entry_fit f e = true ->
  after_ok f X -> suf D (strip f (enc_entry f d name key e ++ X)) -> stored_type f e <> asked_type f k ->
  ar_read f k (rat f D (enc_entry f d name key e ++ X) E) = Throw ParserError.
Proof.
  intros HD Hf Hk Hfit Ha Hs Hn. destruct f; [contradiction Hf; reflexivity| |].
  - cbn [strip enc_entry stored_type asked_type] in *. unfold ar_read, rdl, rat. cbn [ra_r ra_ends strip]. rewrite <- !app_assoc in *.
    assert (W : forall tp, safe_type e <> tp -> bs_meta tp (pos D (le_enc 1 T_HASH ++ le_enc 4 key ++ le_enc 1 (safe_type e) ++ safe_bytes e ++ X)) = Throw ParserError).
    { intros tp Ht. apply (bs_meta_wrong D HD); [apply safe_type_small | exact Ht | exact Hs]. }
    assert (H : bs_read k (pos D (le_enc 1 T_HASH ++ le_enc 4 key ++ le_enc 1 (safe_type e) ++ safe_bytes e ++ X)) = Throw ParserError).
    { destruct k; cbn [bs_read]; unfold bs_sized, bs_meta_len; unfold bind; rewrite W; try reflexivity; intros Eq; apply Hn; rewrite Eq; reflexivity. }
    rewrite H. reflexivity.
  - cbn [strip] in Hs. rewrite strip_entry in Hs by exact Hk. unfold ar_read, rdl, rat. cbn [ra_r ra_ends strip]. rewrite strip_entry by exact Hk.
    assert (W : forall tp, text_type e <> tp -> as_entry tp (pos D (as_line name e ++ x0a :: X)) = Throw ParserError).
    { intros tp Ht. unfold as_entry, bind. rewrite (at_line D HD); [|apply as_line_no_eol; assumption | exact Ha | exact Hs].
      rewrite after_name by (apply key_ok_ascii in Hk; apply Hk). rewrite before_type.
      destruct (bytes_eqb (text_type e) tp) eqn:Eq; [apply bytes_eqb_spec in Eq; contradiction | reflexivity]. }
    cbn [stored_type asked_type] in Hn.
    assert (H : as_read k (pos D (as_line name e ++ x0a :: X)) = Throw ParserError).
    { destruct k; cbn [as_read]; unfold bind; rewrite W; try reflexivity; intros Eq; apply Hn; rewrite Eq; reflexivity. }
    rewrite H. reflexivity.
Qed.

(** ** Only what can be reached is written *)
Section Reached.
  Variable C : classes.
  Variable G : oid -> option (c_ob C).
  Context {St : Type} (P : wprims St).
  Notation wcache := (list (oid * N)).
  Notation wro := (write_obj P (g_graph C G)).
  Definition from (R : list oid) (wc wc' : wcache) : Prop :=
    exists ext, wc' = ext ++ wc /\ forall a, In a (map fst ext) -> exists r, In r R /\ reaches C G r a.
  Lemma from_refl R wc : from R wc wc.
  Proof. exists []. split; [reflexivity | intros a []]. Qed.
  Lemma from_trans R1 R2 w1 w2 w3 : from R1 w1 w2 -> from R2 w2 w3 -> from (R1 ++ R2) w1 w3.
  Proof.
    intros (e1 & E1 & H1) (e2 & E2 & H2). exists (e2 ++ e1). split; [subst; apply app_assoc|].
    intros a Ha. rewrite map_app in Ha. apply in_app_or in Ha as [Ha|Ha].
    - destruct (H2 a Ha) as (r & I & J). exists r. split; [apply in_or_app; right; exact I | exact J].
    - destruct (H1 a Ha) as (r & I & J). exists r. split; [apply in_or_app; left; exact I | exact J].
  Qed.
  Section Ops.
    Variable n : nat.
    Hypothesis IHn : forall name r s wc s' wc', wro n name r (mkWg s wc) = Ret (tt, mkWg s' wc') ->
      from (match r with Some r => [r] | None => [] end) wc wc'.
    Lemma from_ops_of l : Forall (fun o => forall s wc s' wc', run_wop P (wro n) o (mkWg s wc) = Ret (tt, mkWg s' wc') ->
          from (wop_refs o) wc wc') l ->
        forall s wc s' wc', run_wops P (wro n) l (mkWg s wc) = Ret (tt, mkWg s' wc') -> from (flat_map wop_refs l) wc wc'.
    Proof.
      induction 1 as [|o' l Ho _ IH]; intros s wc s' wc' Hr; cbn [run_wops] in Hr.
      - injection Hr as <- <-. apply from_refl.
      - apply bind_Ret in Hr as ([] & [s1 wc1] & H1 & H2). cbn [flat_map].
        eapply from_trans; [exact (Ho _ _ _ _ H1) | exact (IH _ _ _ _ H2)].
    Qed.
    Lemma from_op o : forall s wc s' wc', run_wop P (wro n) o (mkWg s wc) = Ret (tt, mkWg s' wc') -> from (wop_refs o) wc wc'.
    Proof.
      induction o as [name e|name r|name cls ver l IHl|e|] using wop_ind2; intros s wc s' wc' Hr.
      - cbn [run_wop] in Hr. unfold wgl in Hr. cbn [wg_s wg_cache] in Hr.
        destruct (wp_entry P name e s) as [[[] s1]| | |]; try discriminate. injection Hr as <- <-. apply from_refl.
      - cbn [run_wop] in Hr. specialize (IHn _ _ _ _ _ _ Hr). destruct r; exact IHn.
      - change (run_wop P (wro n) (WSub name cls ver l)) with
          (wgl (wp_begin P name cls ver) ;; run_wops P (wro n) l ;; wgl (wp_end P)) in Hr.
        apply bind_Ret in Hr as (i & [s1 wc1] & H1 & H2).
        apply bind_Ret in H2 as ([] & [s2 wc2] & H2 & H3).
        unfold wgl in H1, H3. cbn [wg_s wg_cache] in H1, H3.
        destruct (wp_begin P name cls ver s) as [[i1 s3]| | |]; try discriminate. injection H1 as <- <- <-.
        destruct (wp_end P s2) as [[[] s4]| | |]; try discriminate. injection H3 as <- <-.
        exact (from_ops_of l IHl _ _ _ _ H2).
      - discriminate.
      - discriminate.
    Qed.
    Lemma from_ops l : forall s wc s' wc', run_wops P (wro n) l (mkWg s wc) = Ret (tt, mkWg s' wc') -> from (flat_map wop_refs l) wc wc'.
    Proof. apply from_ops_of. apply Forall_forall. intros o _. apply from_op. Qed.
  End Ops.
  Lemma from_obj n : forall name r s wc s' wc', wro n name r (mkWg s wc) = Ret (tt, mkWg s' wc') ->
    from (match r with Some r => [r] | None => [] end) wc wc'.
  Proof.
    induction n as [|n IHn]; intros name r s wc s' wc' Hr; [discriminate|].
    cbn [write_obj] in Hr. destruct r as [r|].
    - cbn [wg_cache] in Hr. destruct (wcache_find r wc) as [i|] eqn:Ef.
      + unfold wgl in Hr. cbn [wg_s wg_cache] in Hr.
        destruct (wp_ref P name i s) as [[[] s1]| | |]; try discriminate. injection Hr as <- <-. apply from_refl.
      + unfold g_graph at 1 in Hr. destruct (G r) as [x|] eqn:Ex; [|discriminate].
        destruct (class_of_type (c_type C x)) as [cls|] eqn:Ecls; [|discriminate].
        apply bind_Ret in Hr as (i & [w1 wc1] & H1 & H2).
        unfold wgl in H1 at 1. cbn [wg_s wg_cache] in H1.
        destruct (wp_begin P name cls (c_ver C x) s) as [[i1 s1]| | |]; try discriminate. injection H1 as <- <- <-.
        unfold bind at 1, cache_put at 1 in H2. cbn [wg_s wg_cache] in H2.
        apply bind_Ret in H2 as ([] & [w2 wc2] & H2 & H3).
        unfold wgl in H3. cbn [wg_s wg_cache] in H3.
        destruct (wp_end P w2) as [[[] s2]| | |]; try discriminate. injection H3 as <- <-.
        destruct (from_ops n IHn _ _ _ _ _ H2) as (ext & -> & Hcl).
        exists (ext ++ [(r, i1)]). split; [rewrite <- app_assoc; reflexivity|].
        intros a Ha. exists r. split; [left; reflexivity|]. rewrite map_app in Ha. apply in_app_or in Ha as [Ha|[<-|[]]].
        * destruct (Hcl a Ha) as (b & Hb & Hba).
          assert (Hr : reaches C G r b) by (eapply reach_step; [apply reach_refl | exists x; split; [exact Ex | exact Hb]]).
          clear - Hr Hba. induction Hba as [b | b c d Hbc IH Hcd]; [exact Hr|]. eapply reach_step; [apply IH; exact Hr | exact Hcd].
        * apply reach_refl.
    - apply bind_Ret in Hr as (i & [s1 wc1] & H1 & H2). unfold wgl in H1, H2. cbn [wg_s wg_cache] in H1, H2.
      destruct (wp_begin P name (lit "%") 0 s) as [[i1 s3]| | |]; try discriminate. injection H1 as <- <- <-.
      destruct (wp_end P s3) as [[[] s4]| | |]; try discriminate. injection H2 as <- <-. apply from_refl.
  Qed.
End Reached.

Lemma place_in (wc : list (oid * N)) r : In r (map fst wc) -> place wc r < len wc.
Proof.
  induction wc as [|e wc IH]; intros H; [destruct H|]. cbn [place]. rewrite len_cons. destruct (N.eqb_spec (fst e) r); [lia|].
  destruct H as [H|H]; [contradiction|]. specialize (IH H). lia.
Qed.
Lemma place_inj (wc : list (oid * N)) r r' : In r (map fst wc) -> In r' (map fst wc) -> place wc r = place wc r' -> r = r'.
Proof.
  induction wc as [|e wc IH]; intros H H'; [destruct H|]. cbn [place].
  destruct (N.eqb_spec (fst e) r) as [E|E]; destruct (N.eqb_spec (fst e) r') as [E'|E'].
  - congruence.
  - destruct H' as [H'|H']; [contradiction|]. intros X. pose proof (place_in wc r' H'). lia.
  - destruct H as [H|H]; [contradiction|]. intros X. pose proof (place_in wc r H). lia.
  - destruct H as [H|H]; [contradiction|]. destruct H' as [H'|H']; [contradiction|]. apply IH; assumption.
Qed.

(** ** As many indices are used as objects are written *)
Section Counted.
  Variable C : classes.
  Variable G : oid -> option (c_ob C).
  Hypothesis Hgood : forall r x, G r = Some x -> forallb wgood (g_ops C G x) = true.
  Notation wcache := (list (oid * N)).
  Notation wro := (write_obj nwprims (g_graph C G)).
  Definition counts (m : M (@wg nw) unit) : Prop := forall w (wc : wcache) w' wc', m (mkWg w wc) = Ret (tt, mkWg w' wc') ->
    nw_idx w' + len wc = nw_idx w + len wc'.
  Lemma counts_ops n (IHn : forall name r, counts (wro n name r)) l : forallb wgood l = true ->
    Forall (fun o => wgood o = true -> counts (run_wop nwprims (wro n) o)) l -> counts (run_wops nwprims (wro n) l).
  Proof.
    intros Hg HF. induction HF as [|o l Ho _ IH]; intros w wc w' wc' H; cbn [run_wops] in H.
    - injection H as <- <-. reflexivity.
    - cbn [forallb] in Hg. apply andb_prop in Hg as [G1 G2]. apply bind_Ret in H as ([] & [w1 wc1] & H1 & H2).
      apply (Ho G1) in H1. apply (IH G2) in H2. lia.
  Qed.
  Lemma counts_op n (IHn : forall name r, counts (wro n name r)) o : wgood o = true -> counts (run_wop nwprims (wro n) o).
  Proof.
    induction o as [name e|name r|name cls ver l IHl|e|] using wop_ind2; intros Hg w wc w' wc' H; try discriminate.
    - cbn [run_wop] in H. unfold wgl in H. cbn [nwprims wp_entry wg_s wg_cache] in H. unfold nw_entry in H.
      destruct (key_pos name (nw_keys w) 0); injection H as <- <-; reflexivity.
    - cbn [run_wop] in H. apply IHn in H. exact H.
    - rewrite run_wop_sub in H. cbn [wgood] in Hg. apply andb_prop in Hg as [Hc Hl].
      unfold bind at 1, wgl at 1 in H. cbn [nwprims wp_begin nw_begin wg_s wg_cache] in H. rewrite Hc in H.
      apply bind_Ret in H as ([] & [w2 wc2] & H2 & H3). apply (counts_ops n IHn l Hl IHl) in H2. cbn [nw_idx] in H2.
      unfold wgl in H3. cbn [nwprims wp_end wg_s wg_cache] in H3. unfold nw_end in H3.
      destruct (nw_open w2) as [|[h0 p0] op]; [discriminate|]. injection H3 as <- <-. exact H2.
  Qed.
  Lemma counts_obj n : forall name r, counts (wro n name r).
  Proof.
    induction n as [|n IHn]; intros name r w wc w' wc' H; [discriminate|]. cbn [write_obj] in H. destruct r as [r|].
    - cbn [wg_cache] in H. destruct (wcache_find r wc) as [i|].
      + unfold wgl in H. cbn [nwprims wp_ref nw_ref wg_s wg_cache] in H. injection H as <- <-. reflexivity.
      + unfold g_graph at 1 in H. destruct (G r) as [x|] eqn:Ex; [|discriminate].
        destruct (class_of_type (c_type C x)) as [cls|] eqn:Ecls; [|discriminate].
        pose proof (class_facts _ _ Ecls) as (_ & _ & _ & F3 & _).
        unfold bind at 1, wgl at 1 in H. cbn [nwprims wp_begin nw_begin wg_s wg_cache] in H. rewrite F3 in H.
        unfold bind at 1, cache_put at 1 in H. cbn [wg_s wg_cache] in H.
        apply bind_Ret in H as ([] & [w2 wc2] & H2 & H3).
        apply (counts_ops n IHn _ (Hgood r x Ex)) in H2; [|apply Forall_forall; intros o _ Ho; apply (counts_op n IHn o Ho)].
        cbn [nw_idx] in H2. rewrite len_cons in H2.
        unfold wgl in H3. cbn [nwprims wp_end wg_s wg_cache] in H3. unfold nw_end in H3.
        destruct (nw_open w2) as [|[h0 p0] op]; [discriminate|]. injection H3 as <- <-. cbn [nw_idx]. lia.
    - unfold bind, wgl in H. cbn [nwprims wp_begin nw_begin wp_end wg_s wg_cache] in H. unfold nw_end in H. cbn [nw_open] in H.
      injection H as <- <-. reflexivity.
  Qed.
End Counted.

Theorem graphs_come_back C G f e1 e2 save n name root nd w wc :
  graph_ok C G f -> content C G n name root = Some (nd, w, wc) ->
  len (we_date e1) = len (we_date e2) -> len (we_user e1) = len (we_user e2) -> env_ok e2 ->
  archive_fits f e2 nd (nw_idx w) (nw_keys w) ->
  exists b h ph,
    save_archive f e1 e2 save (g_graph C G) n name root = Ret b /\
    load_archive (c_load C) (c_flags C) n b = Ret (mkHead 1 (archiver_of f) f save (we_user e2) (we_date e2), option_map ph root, h) /\
    isomorphic C G root ph h /\ header_states f e2 save (len h) b.
Proof.
  intros HG Hc Hd Hu He Hf.
  destruct (archive_round_trip C G f e1 e2 save n name root nd w wc HG Hc Hd Hu He Hf) as (b & h & H1 & Eb & H2 & H3 & H4).
  exists b, h, (place wc). split; [exact H1|]. split; [exact H2|].
  cut (isomorphic C G root (place wc) h /\ len h = nw_idx w).
  { intros [Hi Hn]. split; [exact Hi|]. rewrite Eb, Hn. unfold header_states, archive_bytes, archive_head.
    rewrite <- !app_assoc. destruct f; eexists; rewrite <- ?app_assoc; reflexivity. }
  unfold content in Hc. destruct (write_obj nwprims (g_graph C G) n name root (mkWg nw_empty [])) as [[[] [w1 wc1]]| | |] eqn:Ew; try discriminate.
  cbn [wg_s wg_cache] in Hc. destruct (nw_cur w1) as [|nd1 [|nd2 l2]] eqn:Ec; try discriminate. injection Hc as -> -> ->.
  assert (H0 : cache_ok C G nw_empty []) by (split; [constructor|]; split; constructor).
  destruct (written C G f HG n name root nw_empty [] w wc Ew H0) as (nd' & _ & _ & _ & _ & (Hnd & _) & _).
  assert (Hin : forall r, from_root C G root r <-> In r (map fst wc)).
  { intros r. split.
    - intros (a & -> & Ha). eapply all_written; eassumption.
    - intros Hr. destruct (from_obj C G nwprims n name root nw_empty [] w wc Ew) as (ext & E & Hx). rewrite app_nil_r in E. subst ext.
      destruct (Hx r Hr) as (a & Ia & Ra). destruct root as [rt|]; [|destruct Ia]. destruct Ia as [<-|[]]. exists rt. split; [reflexivity | exact Ra]. }
  split; cycle 1.
  { rewrite H3. assert (Hg : forall r x, G r = Some x -> forallb wgood (g_ops C G x) = true).
    { intros r x Hx. destruct (HG r x Hx) as [(_ & _ & Ho) _].
      destruct (Ho (fun r => r) (g_flags C G) [] (fun _ _ _ _ H => H) (fun _ _ => eq_refl)) as (p & _ & Hfl).
      apply flat_good in Hfl; [|constructor; [reflexivity | constructor]]. inversion Hfl; assumption. }
    pose proof (counts_obj C G Hg n name root nw_empty [] w wc Ew) as K. cbn [nw_empty nw_idx] in K. rewrite len_nil in K. lia. }
  split; [|split].
  - intros r Hr. apply H4, Hin, Hr.
  - intros r r' Hr Hr'. apply place_inj; apply Hin; assumption.
  - exists (map fst wc). split; [exact Hnd|]. split; [exact Hin|]. rewrite H3. unfold len. rewrite map_length. reflexivity.
Qed.
