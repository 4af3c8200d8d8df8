(** Whole archives: headers, and the way from a graph of objects to bytes and back. *)

From Coq Require Import String Lia.
From Verif Require Import MBase MStream MBoxes SBoxes MText MClasses MArchive SStream SArchive LBase LStream LBoxes LText LGraph LArchW LArchR.
Local Open Scope N_scope.
Local Open Scope m_scope.

(** ** Writing headers *)
Lemma emits_string s : emits (write_string s) s.
Proof. apply emits_raw. Qed.
Lemma emits_common f e save :
  emits (common_header e (archiver_of f) (format_name f) save) (header_text f e save).
Proof.
  unfold common_header, header_text. cbn [flat_map]. unfold text_line.
  eapply emits_cast.
  - apply emits_seq; [apply emits_line|]. apply emits_seq; [apply emits_line|]. apply emits_seq; [apply emits_line|].
    apply emits_seq; [apply emits_line|]. apply emits_seq; [apply emits_line|].
    apply emits_seq; [apply emits_string|]. apply emits_seq; [apply emits_line|].
    apply emits_seq; [apply emits_string|]. apply emits_seq; [apply emits_line|]. apply emits_line.
  - rewrite <- !app_assoc, app_nil_r. reflexivity.
Qed.
Lemma emits_objects room width idx : (length (dec idx) <= room)%nat ->
  emits (objects_line room width idx) (count_text width idx).
Proof.
  intros H. unfold objects_line. apply Nat.leb_le in H. rewrite H. eapply emits_cast.
  - apply emits_seq; [apply emits_string|]. apply emits_seq; apply emits_line.
  - unfold count_text, text_line. rewrite <- !app_assoc. reflexivity.
Qed.
Lemma emits_table l : forall i, i + len l <= 2 ^ 16 -> Forall (fun k => len k < 2 ^ 16) l ->
  emits (bs_wtable l i) (key_lines l i).
Proof.
  induction l as [|k l IH]; intros i Hi Hk; cbn [bs_wtable key_lines]; [apply emits_ret|].
  rewrite len_cons in Hi. inversion Hk as [|? ? H1 H2]; subst.
  unfold u16. rewrite N.mod_small by exact H1. rewrite N.mod_small by lia.
  apply emits_seq; [apply emits_raw|]. apply emits_seq; [apply emits_raw|]. apply emits_seq; [apply emits_raw|].
  apply emits_seq; [apply emits_raw|]. apply IH; [lia | exact H2].
Qed.

(** A decimal number has at most as many digits as it may. *)
Lemma dec_go_len fuel : forall n acc k, n < 10 ^ N.of_nat k -> (0 < k)%nat -> (N.to_nat (N.size n) < fuel)%nat ->
  (length (dec_go fuel n acc) <= k + length acc)%nat.
Proof.
  induction fuel as [|fuel IH]; intros n acc k Hn Hk Hf; [lia|]. cbn [dec_go].
  destruct (N.ltb_spec n 10) as [H|H]; [cbn [length]; lia|].
  destruct k as [|[|k]]; [lia | change (10 ^ N.of_nat 1) with 10 in Hn; lia |].
  eapply Nat.le_trans; [apply (IH _ _ (S k))|].
  - apply N.div_lt_upper_bound; [lia|]. rewrite <- N.pow_succ_r by lia. rewrite <- Nat2N.inj_succ. exact Hn.
  - lia.
  - assert (N.size (n / 10) < N.size n); [|lia].
    destruct (N.eq_dec (n / 10) 0) as [E|E]; [rewrite E; destruct n; [lia | cbn; lia]|].
    rewrite !N.size_log2 by lia. apply -> N.succ_lt_mono.
    apply N.log2_lt_pow2; [lia|].
    pose proof (N.log2_spec n ltac:(lia)) as [A1 A2].
    rewrite N.pow_succ_r in A2 by lia.
    apply N.div_lt_upper_bound; lia.
  - cbn [length]; lia.
Qed.
Lemma dec_len n k : n < 10 ^ N.of_nat k -> (0 < k)%nat -> (length (dec n) <= k)%nat.
Proof. intros H Hk. unfold dec. eapply Nat.le_trans; [apply (dec_go_len _ _ _ k H Hk); lia|]. cbn; lia. Qed.

Definition idx_fits (f : fmt) (idx : N) : Prop :=
  idx < (match f with ABinary => 1000000000 | AAscii => 2 ^ 31 | ABinsafe => 2 ^ 32 end).
Lemma emits_head f e save idx cur : idx_fits f idx -> cur < 2 ^ 32 ->
  emits (common_header e (archiver_of f) (format_name f) save ;;
         match f with
         | ABinary => objects_line 9 10 idx
         | AAscii => objects_line 10 11 idx
         | ABinsafe => write_uint 2 ;; write_uint idx ;; write_uint (u32 cur)
         end)
        (header_text f e save ++
         match f with
         | ABinary => count_text 10 idx
         | AAscii => count_text 11 idx
         | ABinsafe => le_enc 4 2 ++ le_enc 4 idx ++ le_enc 4 cur
         end).
Proof.
  intros Hi Hc. apply emits_seq; [apply emits_common|]. destruct f; cbn [idx_fits] in Hi.
  - apply emits_objects. apply dec_len; [exact Hi | lia].
  - unfold u32. rewrite N.mod_small by exact Hc. repeat (apply emits_seq; [apply emits_raw|]). apply emits_raw.
  - apply emits_objects. apply dec_len; [|lia]. unfold idx_fits in Hi. change (2 ^ 31) with 2147483648 in Hi.
    change (10 ^ N.of_nat 10) with 10000000000. lia.
Qed.

Lemma len_header_text f e e' save save' : len (we_date e) = len (we_date e') -> len (we_user e) = len (we_user e') ->
  len (header_text f e save) = len (header_text f e' save').
Proof.
  intros H1 H2. unfold header_text. cbn [flat_map]. unfold text_line. rewrite !len_app, H1, H2.
  destruct save, save'; reflexivity.
Qed.
Lemma len_count width idx : (length (dec idx) <= width)%nat -> len (count_text width idx) = 8 + N.of_nat width + 6.
Proof.
  intros H. unfold count_text, text_line. rewrite !len_app. unfold len at 2 3. rewrite repeat_length.
  change (len (lit "objects ")) with 8. change (len (lit "END")) with 3. change (len [x0a]) with 1. lia.
Qed.
Definition head_rest (f : fmt) (idx cur : N) : bytes :=
  match f with
  | ABinary => count_text 10 idx
  | AAscii => count_text 11 idx
  | ABinsafe => le_enc 4 2 ++ le_enc 4 idx ++ le_enc 4 cur
  end.
Lemma len_head_rest f idx cur : idx_fits f idx -> len (head_rest f idx cur) = match f with ABinary => 24 | AAscii => 25 | ABinsafe => 12 end.
Proof.
  intros H. destruct f; cbn [head_rest].
  - rewrite len_count; [reflexivity|]. apply Nat.le_trans with 9%nat; [apply dec_len; [exact H | lia] | lia].
  - rewrite !len_app, !len_le_enc. reflexivity.
  - rewrite len_count; [reflexivity|]. apply Nat.le_trans with 10%nat; [apply dec_len; [|lia] | lia].
    unfold idx_fits in H. change (2 ^ 31) with 2147483648 in H. change (10 ^ N.of_nat 10) with 10000000000. lia.
Qed.

(** The header over a buffer [B]: it replaces the first bytes. *)
Lemma wheader_at f e B cur idx keys ind st hp sv :
  hp = 0 -> idx_fits f idx -> cur < 2 ^ 31 -> len keys <= 2 ^ 16 -> Forall (fun k => len k < 2 ^ 16) keys ->
  len (header_text f e sv) + (match f with ABinary => 24 | AAscii => 25 | ABinsafe => 16 end) < 2 ^ 31 -> (cur <> 0 -> len (header_text f e sv) + len (head_rest f idx cur) <= cur <= len B) ->
  cur + len (key_lines keys 0) < 2 ^ 31 -> (f = ABinsafe -> cur = 0 -> keys = [] /\ B = []) ->
  let H := header_text f e sv ++ head_rest f idx cur in
  exists p, ar_wheader f e (mkWar (mkW B cur) idx keys ind st hp sv) =
  Ret (tt, mkWar (mkW (match f with
                       | ABinsafe => if cur =? 0 then H ++ le_enc 4 0
                                     else let T := le_enc 4 (len keys) ++ key_lines keys 0 in
                                       H ++ take (cur - len H) (drop (len H) B) ++ T ++ drop (cur + len T) B
                       | _ => H ++ drop (len H) B
                       end) p) idx keys ind st hp sv) /\ p = if cur =? 0 then len H else cur.
Proof.
  intros -> Hi Hc Hk Hks Hl Hb Ht H0 H. eexists. split; [|reflexivity].
  pose proof (len_head_rest f idx cur Hi) as Lr.
  assert (LH : len H < 2 ^ 31) by (unfold H; rewrite len_app, Lr; destruct f; lia).
  assert (E : common_header e (archiver_of f) (format_name f) sv (mkW B 0) = Ret (tt, wat [] B (header_text f e sv))).
  { replace (mkW B 0) with (wat [] B []) by (unfold wat; cbn [len]; rewrite drop_0; reflexivity).
    apply (emits_wat _ (header_text f e sv)); [apply emits_common|]. apply small_max. change (len (@nil byte)) with 0. destruct f; lia. }
  assert (E2 : (match f with
         | ABinary => objects_line 9 10 idx
         | AAscii => objects_line 10 11 idx
         | ABinsafe => write_uint 2 ;; write_uint idx ;; write_uint (u32 cur)
         end) (wat [] B (header_text f e sv)) = Ret (tt, wat [] B H)).
  { apply emits_wat; [|change (len (@nil byte)) with 0; apply small_max; unfold H in LH; rewrite len_app in LH; lia].
    destruct f; cbn [head_rest].
    - apply emits_objects. apply dec_len; [exact Hi | lia].
    - unfold u32. rewrite N.mod_small by lia. repeat (apply emits_seq; [apply emits_raw|]). apply emits_raw.
    - apply emits_objects. apply dec_len; [|lia]. unfold idx_fits in Hi. change (2 ^ 31) with 2147483648 in Hi.
      change (10 ^ N.of_nat 10) with 10000000000. lia. }
  assert (E0 : forall p, wr_seek (Z.of_N 0) BEG (mkW B p) = Ret (tt, mkW B 0)) by (intros p; apply wr_seek_beg; reflexivity).
  unfold ar_wheader. unfold wrl. cbn [wa_w wa_head wa_save wa_index wa_keys].
  unfold bind at 1. unfold wr_tell. cbn [wpos]. unfold bind at 1. rewrite E0.
  destruct f.
  - unfold bind at 1. change (lit "zCArchiverGeneric") with (archiver_of ABinary). change (lit "BINARY") with (format_name ABinary).
    rewrite E. unfold bind at 1. rewrite E2. unfold wat at 1. change (len (@nil byte)) with 0.
    destruct (N.eqb_spec cur 0) as [->|Hn].
    + unfold ret. rewrite N.add_0_l. reflexivity.
    + rewrite wr_seek_beg by lia. reflexivity.
  - unfold bind at 1. change (lit "zCArchiverBinSafe") with (archiver_of ABinsafe). change (lit "BIN_SAFE") with (format_name ABinsafe).
    rewrite E.
    assert (E3 : forall (k : wr unit), (write_uint 2 ;; write_uint idx ;; write_uint (u32 cur) ;; k) (wat [] B (header_text ABinsafe e sv)) = k (wat [] B H)).
    { intros k. revert E2. unfold bind. destruct (write_uint 2 _) as [[[] s1]| | |]; [|discriminate..].
      destruct (write_uint idx s1) as [[[] s2]| | |]; [|discriminate..].
      destruct (write_uint (u32 cur) s2) as [[[] s3]| | |]; [|discriminate..]. intros X. injection X as ->. reflexivity. }
    rewrite E3. destruct (N.eqb_spec cur 0) as [->|Hn].
    + destruct (H0 eq_refl eq_refl) as [-> ->]. cbn [bs_wtable]. unfold bind. cbn [wpos wat]. change (len (@nil byte)) with 0. rewrite N.add_0_l.
      unfold wat. rewrite drop_nil, app_nil_r. cbn [app].
      pose proof (emits_raw (le_enc 4 (u32 0)) H []) as X. rewrite app_nil_r in X. unfold write_uint. match goal with |- context [wr_write ?a ?b] => change (wr_write a b) with (wr_write (le_enc 4 (u32 0)) (mkW H (len H))) end.
      rewrite X by (apply small_max; rewrite len_le_enc; unfold H in LH |- *; rewrite len_app in *; rewrite Lr in *; lia).
      unfold ret. rewrite wr_seek_beg by exact LH. rewrite drop_nil, app_nil_r. reflexivity.
    + specialize (Hb Hn). unfold bind at 1. unfold bind at 1. unfold wat at 1. rewrite wr_seek_beg by lia. unfold ret at 1.
      set (T := le_enc 4 (len keys) ++ key_lines keys 0).
      assert (LHb : len H <= cur) by (unfold H; rewrite len_app; lia).
      set (mid := take (cur - len H) (drop (len H) B)).
      assert (Lm : len mid = cur - len H) by (unfold mid; rewrite len_take, len_drop; lia).
      assert (EB : [] ++ H ++ drop (len H) B = (H ++ mid) ++ drop cur B).
      { cbn [app]. rewrite <- app_assoc. f_equal. unfold mid. rewrite <- (take_drop (cur - len H) (drop (len H) B)) at 1.
        f_equal. rewrite drop_drop. f_equal. lia. }
      rewrite EB. replace cur with (len (H ++ mid)) at 2 by (rewrite len_app; lia).
      assert (ET : emits (write_uint (u32 (len keys)) ;; bs_wtable keys 0) T).
      { unfold T. apply emits_seq.
        - unfold u32. rewrite N.mod_small by (change (2 ^ 32) with 4294967296; change (2 ^ 16) with 65536 in Hk; lia). apply emits_raw.
        - apply emits_table; [exact Hk | exact Hks]. }
      specialize (ET (H ++ mid) (drop cur B)).
      replace (len (H ++ mid)) with cur in ET |- * by (rewrite len_app; lia).
      assert (LT : len T = 4 + len (key_lines keys 0)) by (unfold T; rewrite len_app, len_le_enc; reflexivity).
      rewrite <- (bind_assoc (write_uint (u32 (len keys))) (fun _ => bs_wtable keys 0) (fun _ => wr_seek (Z.of_N cur) BEG)).
      unfold bind at 1. rewrite ET by (rewrite max_size_val; change (2 ^ 31) with 2147483648 in *; lia).
      rewrite wr_seek_beg by lia. rewrite drop_drop, <- app_assoc. rewrite (N.add_comm (len T) cur). reflexivity.
  - unfold bind at 1. change (lit "zCArchiverGeneric") with (archiver_of AAscii). change (lit "ASCII") with (format_name AAscii).
    rewrite E. unfold bind at 1. rewrite E2. unfold wat at 1. change (len (@nil byte)) with 0.
    destruct (N.eqb_spec cur 0) as [->|Hn].
    + unfold ret. rewrite N.add_0_l. reflexivity.
    + rewrite wr_seek_beg by lia. reflexivity.
Qed.

(** ** Writing a whole archive *)
Section Save.
  Variable f : fmt.
  Variables e1 e2 : wenv.
  Variable save : bool.
  Hypothesis Hd : len (we_date e1) = len (we_date e2).
  Hypothesis Hu : len (we_user e1) = len (we_user e2).
  Variable graph : oid -> option (otype * N * list (wop oid)).

  (** Whatever writes the content [nd] into a writer. *)
  Lemma save_any (run : M (@wg war) unit) nd w wc :
    (forall hd old, len old <= 4 -> wfits f hd w ->
       run (mkWg (Wst f hd old 0 save nw_empty) []) = Ret (tt, mkWg (Wst f hd old 0 save w) wc)) ->
    nw_cur w = [nd] -> nw_open w = [] -> (exists h l, nd = NObj h l) ->
    archive_fits f e2 nd (nw_idx w) (nw_keys w) ->
    match ar_create f e1 save w_empty with
    | Ret s =>
        match run (mkWg s []) with
        | Ret (_, g) =>
            match ar_wheader f e2 (wg_s g) with
            | Ret (_, s') => Ret (wbuf (wa_w s'))
            | Throw x => Throw x | Undef => Undef | Fuel => Fuel
            end
        | Throw x => Throw x | Undef => Undef | Fuel => Fuel
        end
    | Throw x => Throw x | Undef => Undef | Fuel => Fuel
    end = Ret (archive_bytes f e2 save nd (nw_idx w) (nw_keys w)).
  Proof.
    intros Hw Hc Ho (hh & ll & Hnd) (Hok & Hi & Hk & Hks & Hl & _).
    assert (Hi' : idx_fits f (nw_idx w)) by exact Hi. clear Hi.
    set (hd := header_text f e1 false ++ head_rest f 0 0).
    assert (Hi0 : idx_fits f 0) by (destruct f; reflexivity).
    unfold archive_bytes, archive_head in Hl. rewrite !len_app in Hl.
    assert (Lhr : len (head_rest f (nw_idx w) (len (header_text f e2 true) + 12 + len (encode f 0 nd))) =
                  len (match f with ABinary => count_text 10 (nw_idx w) | AAscii => count_text 11 (nw_idx w)
                       | ABinsafe => le_enc 4 2 ++ le_enc 4 (nw_idx w) ++ le_enc 4 (len (header_text f e2 true) + 12 + len (encode f 0 nd)) end))
      by (destruct f; reflexivity).
    rewrite <- Lhr in Hl. rewrite (len_head_rest f) in Hl by exact Hi'.
    assert (L1 : len (header_text f e1 false) = len (header_text f e2 save)) by (apply len_header_text; assumption).
    assert (L2 : len (header_text f e2 true) = len (header_text f e2 save)) by (apply len_header_text; reflexivity).
    assert (Lhd : len hd = len (header_text f e2 save) + match f with ABinary => 24 | AAscii => 25 | ABinsafe => 12 end)
      by (unfold hd; rewrite len_app, L1, (len_head_rest f) by exact Hi0; reflexivity).
    assert (Lb : 4 <= len (encode f 0 nd)).
    { rewrite Hnd. cbn [encode]. rewrite len_app. destruct f; cbn [opening].
      - rewrite !len_app, !len_le_enc. lia.
      - unfold safe_line. rewrite !len_app, !len_le_enc. unfold head_text. rewrite !len_app. change (len [x5b]) with 1. lia.
      - unfold head_text. rewrite !len_app. change (len [x5b]) with 1. change (len [x20]) with 1. change (len [x5d]) with 1. lia. }
    (* making the writer *)
    assert (E1 : exists old, len old <= 4 /\ ar_create f e1 save w_empty = Ret (Wst f hd old 0 save nw_empty)).
    { unfold ar_create, w_empty. cbn [wpos].
      destruct (wheader_at f e1 [] 0 0 [] 0 [] 0 false) as (p & E & Ep); try (exact eq_refl || exact Hi0).
      - apply N.le_0_l.
      - constructor.
      - rewrite L1. destruct f; lia.
      - intros X; contradiction X; reflexivity.
      - intros _ _. split; reflexivity.
      - exists (match f with ABinsafe => le_enc 4 0 | _ => [] end).
        split; [destruct f; vm_compute; discriminate|].
        match type of E with ?X = _ => match goal with |- context [ar_wheader f e1 ?s] => change (ar_wheader f e1 s) with X end end.
        rewrite E. cbn [wa_w wa_index wa_keys wa_indent wa_starts wa_head]. f_equal.
        unfold Wst, wat. cbn [nw_empty nw_open nw_cur nw_idx nw_keys penc popen encodes flat_map length app starts].
        rewrite Ep. cbn [N.eqb]. change (len (penc f nw_empty)) with 0. rewrite drop_0, N.add_0_r.
        unfold hd. destruct f; cbn [head_rest]; rewrite ?drop_nil; reflexivity. }
    destruct E1 as (old & Lold & E1). rewrite E1.
    assert (EP : penc f w = encode f 0 nd).
    { unfold penc. rewrite Ho, Hc. cbn [popen length encodes flat_map app]. apply app_nil_r. }
    (* writing the objects *)
    assert (E2 := Hw hd old Lold). rewrite E2. 2:{ unfold wfits. rewrite EP, Ho, Hc. cbn [forallb]. rewrite (node_ok_fit f nd Hok).
      split; [reflexivity|]. split; [constructor|]. split; [rewrite Lhd; destruct f; lia|].
      split; [|exact Hk]. destruct f; unfold idx_fits in Hi'; change (2 ^ 31) with 2147483648 in *; change (2 ^ 32) with 4294967296 in *; lia. }
    clear E2. cbn [wg_s]. unfold Wst. rewrite EP, Ho. unfold wat.
    assert (EL : (match f with ABinsafe => len hd + len (encode f 0 nd) = len (header_text f e2 save) + 12 + len (encode f 0 nd) | _ => True end))
      by (destruct f; [exact I | rewrite Lhd; reflexivity | exact I]).
    set (body := encode f 0 nd) in *. set (B := hd ++ body ++ drop (len body) old).
    set (ks := match f with ABinsafe => nw_keys w | _ => [] end).
    assert (Lk : len (key_lines ks 0) + 4 <= len (archive_tail f (nw_keys w)) \/ (ks = [] /\ f <> ABinsafe)).
    { unfold ks. destruct f; [right; split; [reflexivity | discriminate] | left | right; split; [reflexivity | discriminate]].
      cbn [archive_tail]. rewrite len_app, len_le_enc. lia. }
    assert (Lk2 : len hd + len body + len (key_lines ks 0) < 2 ^ 31).
    { destruct Lk as [Lk|[-> _]]; [|cbn [key_lines]; change (len (@nil byte)) with 0]; rewrite Lhd; destruct f; lia. }
    destruct (wheader_at f e2 B (len hd + len body) (nw_idx w) ks (match f with AAscii => N.of_nat (length (@nil (ohead * list node))) | _ => 0 end)
        (match f with ABinary => starts hd [] | _ => [] end) 0 save eq_refl Hi') as (p & E & _).
    - lia.
    - unfold ks. destruct f; [apply N.le_0_l | exact Hk | apply N.le_0_l].
    - unfold ks. destruct f; [constructor | exact Hks | constructor].
    - destruct f; lia.
    - intros _. rewrite (len_head_rest f) by exact Hi'. unfold B. rewrite !len_app. rewrite Lhd. destruct f; lia.
    - exact Lk2.
    - intros _ X. lia.
    - rewrite E. cbn [wa_w wbuf]. f_equal.
      assert (LH : len (header_text f e2 save ++ head_rest f (nw_idx w) (len hd + len body)) = len hd)
        by (rewrite len_app, (len_head_rest f) by exact Hi'; rewrite Lhd; reflexivity).
      rewrite LH. assert (DB : drop (len hd) B = body ++ drop (len body) old) by (unfold B; apply drop_app_exact; reflexivity).
      rewrite DB. assert (Dold : drop (len body) old = []) by (apply drop_all; lia).
      rewrite Dold, app_nil_r. unfold archive_bytes, archive_head.
      destruct f; cbn [head_rest archive_tail].
      + rewrite <- !app_assoc. rewrite !app_nil_r. reflexivity.
      + destruct (N.eqb_spec (len hd + len body) 0); [lia|]. rewrite <- !app_assoc. unfold ks. rewrite EL. do 4 f_equal.
        replace (len (header_text ABinsafe e2 save) + 12 + len body - len hd) with (len body) by (rewrite Lhd; lia).
        rewrite take_all by lia. f_equal.
        replace (drop _ B) with (@nil byte); [rewrite app_nil_r; reflexivity|]. symmetry. apply drop_all.
        unfold B. rewrite !len_app, len_le_enc. rewrite Dold, Lhd. change (len (@nil byte)) with 0. lia.
      + rewrite <- !app_assoc. rewrite !app_nil_r. reflexivity.
  Qed.
  Lemma save_bytes n name root nd w wc :
    write_obj nwprims graph n name root (mkWg nw_empty []) = Ret (tt, mkWg w wc) ->
    nw_cur w = [nd] -> nw_open w = [] -> (exists h l, nd = NObj h l) ->
    archive_fits f e2 nd (nw_idx w) (nw_keys w) ->
    save_archive f e1 e2 save graph n name root = Ret (archive_bytes f e2 save nd (nw_idx w) (nw_keys w)).
  Proof.
    intros Hw. apply (save_any (write_obj (fmt_wprims f) graph n name root) nd w wc).
    intros hd old _ Hf. apply (W_obj f hd old 0 save graph n name root nw_empty [] w wc Hw Hf).
  Qed.
End Save.

(** ** Reading headers *)
Definition starts_ok (X : bytes) : Prop := match X with c :: _ => is_ws c = false /\ c <> x00 | [] => False end.
Section Open.
  Variable D : bytes.
  Hypothesis HD : len D < 2 ^ 31.
  Lemma at_text_line s X : suf D (text_line s ++ X) -> no_eol s -> starts_ok X ->
    read_line true (pos D (text_line s ++ X)) = Ret (s, pos D X) /\ suf D X.
  Proof.
    intros Hd Hs Hx. split; [|eapply suf_app; exact Hd]. unfold text_line in *. rewrite <- app_assoc in *. cbn [app] in *.
    destruct X as [|c X]; [contradiction|]. destruct Hx as [H1 H2].
    rewrite (at_line D HD) by (try assumption; cbn [after_ok drop_while]; rewrite H1; intros E; injection E as E _; exact (H2 E)).
    cbn [drop_while]. rewrite H1. reflexivity.
  Qed.
  Lemma eol_lit s : no_eolb s = true -> no_eol s.
  Proof. apply no_eolb_spec. Qed.
  Definition read_head (f : fmt) (e : wenv) (save : bool) : ahead :=
    mkHead 1 (archiver_of f) f save (we_user e) (we_date e).
  Lemma after_lit c a s : existsb (beq c) a = false -> after c (a ++ c :: s) = s.
  Proof. intros H. unfold after. rewrite after_opt_skip by exact H. reflexivity. Qed.
  Lemma head_load_at f e save X : env_ok e -> starts_ok X -> suf D (header_text f e save ++ X) ->
    head_load (pos D (header_text f e save ++ X)) = Ret (read_head f e save, pos D X) /\ suf D X.
  Proof.
    intros [He1 He2] HX Hd. unfold header_text in *. cbn [flat_map] in *. rewrite app_nil_r, <- !app_assoc in *.
    unfold head_load.
    destruct (at_text_line (lit "ZenGin Archive") _ Hd) as [E Hd1]; [apply eol_lit; reflexivity|split; [reflexivity|discriminate]|].
    erewrite bind_eq by exact E. clear E Hd. cbv beta.
    change (negb (bytes_eqb (lit "ZenGin Archive") (lit "ZenGin Archive"))) with false. cbv iota.
    destruct (at_text_line (lit "ver 1") _ Hd1) as [E Hd2]; [apply eol_lit; reflexivity|destruct f; (split; [reflexivity|discriminate])|].
    erewrite bind_eq by exact E. clear E Hd1. cbv beta.
    change (negb (starts_with (lit "ver ") (lit "ver 1"))) with false. cbv iota.
    change (lift (S := rstate) (stoi (after x20 (lit "ver 1")))) with (@ret rstate Z 1%Z). rewrite bind_ret_l. cbv beta.
    change (negb (1 =? 1)%Z) with false. cbv iota.
    destruct (at_text_line (archiver_of f) _ Hd2) as [E Hd3]; [apply eol_lit; destruct f; reflexivity|destruct f; (split; [reflexivity|discriminate])|].
    erewrite bind_eq by exact E. clear E Hd2. cbv beta.
    destruct (at_text_line (format_name f) _ Hd3) as [E Hd4]; [apply eol_lit; destruct f; reflexivity|destruct save; (split; [reflexivity|discriminate])|].
    erewrite bind_eq by exact E. clear E Hd3. cbv beta zeta.
    destruct (at_text_line (if save then lit "saveGame 1" else lit "saveGame 0") _ Hd4) as [E Hd5]; [apply eol_lit; destruct save; reflexivity|split; [reflexivity|discriminate]|].
    erewrite bind_eq by exact E. clear E Hd4. cbv beta.
    assert (Es : negb (starts_with (lit "saveGame ") (if save then lit "saveGame 1" else lit "saveGame 0")) = false) by (destruct save; reflexivity).
    rewrite Es. clear Es.
    assert (Es : lift (S := rstate) (stoi (after x20 (if save then lit "saveGame 1" else lit "saveGame 0"))) = ret (if save then 1%Z else 0%Z)) by (destruct save; reflexivity).
    rewrite Es, bind_ret_l. clear Es.
    destruct (at_text_line (lit "date " ++ we_date e) _ Hd5) as [E Hd6]; [apply no_eol_app; split; [apply eol_lit; reflexivity | exact He1]|split; [reflexivity|discriminate]|].
    erewrite bind_eq by exact E. clear E Hd5. cbv beta.
    assert (Es : starts_with (lit "date ") (lit "date " ++ we_date e) = true) by reflexivity. rewrite Es. clear Es.
    destruct (at_text_line (lit "user " ++ we_user e) _ Hd6) as [E Hd7]; [apply no_eol_app; split; [apply eol_lit; reflexivity | exact He2]|split; [reflexivity|discriminate]|].
    rewrite bind_assoc. erewrite bind_eq by exact E. clear E Hd6. cbv beta. rewrite bind_ret_l. cbn [snd fst].
    assert (Es : starts_with (lit "user ") (lit "user " ++ we_user e) = true) by reflexivity. rewrite Es. clear Es.
    destruct (at_text_line (lit "END") _ Hd7) as [E Hd8]; [apply eol_lit; reflexivity|exact HX|].
    rewrite bind_assoc. erewrite bind_eq by exact E. clear E Hd7. cbv beta. rewrite bind_ret_l. cbn [snd fst].
    change (negb (bytes_eqb (lit "END") (lit "END"))) with false. cbv iota.
    split; [|exact Hd8]. unfold ret, read_head. do 3 f_equal.
    - destruct f; reflexivity.
    - destruct save; reflexivity.
  Qed.

  Lemma stoi_padded idx k : idx < 2 ^ 31 -> stoi (dec idx ++ repeat x20 k) = Ret (Z.of_N idx).
  Proof.
    intros H. unfold stoi. rewrite scan_int_dec by (destruct k; [exact I | reflexivity]).
    change (2 ^ 31) with 2147483648 in H.
    destruct (Z.leb_spec (- 2 ^ 31) (Z.of_N idx)); [|lia]. cbn [andb].
    destruct (Z.ltb_spec (Z.of_N idx) (2 ^ 31)); [reflexivity|lia].
  Qed.
  Lemma objects_at width idx last body : idx < 2 ^ 31 ->
    suf D (count_text width idx ++ body) ->
    (forall Y, suf D (text_line (lit "END" ++ [x0a]) ++ body) -> last (pos D (text_line (lit "END" ++ [x0a]) ++ body)) = Ret (lit "END", pos D Y) ->
     objects_header last (pos D (count_text width idx ++ body)) = Ret (tt, pos D Y)).
  Proof.
    intros Hi Hd Y _ HY. unfold count_text in *. rewrite <- app_assoc in *. unfold objects_header.
    destruct (at_text_line (lit "objects " ++ dec idx ++ repeat x20 (width - length (dec idx))) _ Hd) as [E _].
    - apply no_eol_app. split; [apply eol_lit; reflexivity|]. apply no_eol_app. split; [apply plain_no_eol, dec_plain|].
      apply Forall_forall. intros c Hc. apply repeat_spec in Hc. subst c. repeat split; discriminate.
    - split; [reflexivity | discriminate].
    - erewrite bind_eq by exact E. clear E. cbv beta.
      assert (Es : forall s, starts_with (lit "objects ") (lit "objects " ++ s) = true) by reflexivity. rewrite Es. clear Es.
      cbn [negb]. change (lit "objects ") with (lit "objects" ++ [x20]). rewrite <- (app_assoc (lit "objects")). cbn [app].
      rewrite after_lit by reflexivity. rewrite stoi_padded by exact Hi.
      change (lift (S := rstate) (Ret (Z.of_N idx))) with (@ret rstate Z (Z.of_N idx)). rewrite bind_ret_l.
      erewrite bind_eq by exact HY. reflexivity.
  Qed.
End Open.

Lemma reads_table l : forall i n size fuel, n = len l -> i + len l <= size -> size <= 2 ^ 16 -> (length l < fuel)%nat ->
  Forall (fun k => len k < 2 ^ 16) l -> reads (bs_table fuel n size) (key_lines l i) tt.
Proof.
  induction l as [|k l IH]; intros i n size fuel -> Hi Hs Hf Hk; (destruct fuel as [|fuel]; [cbn in Hf; lia|]); cbn [bs_table key_lines].
  - apply reads_ret.
  - inversion Hk as [|? ? H1 H2]; subst. rewrite len_cons in *. destruct (N.eqb_spec (1 + len l) 0); [lia|].
    eapply reads_bind; [apply reads_ushort; exact H1|]. eapply reads_bind; [apply reads_ushort; lia|].
    eapply reads_bind; [apply reads_uint|].
    { apply N.lt_trans with 97; [apply N.mod_lt; discriminate | reflexivity]. }
    eapply reads_bind; [apply reads_string|].
    destruct (N.ltb_spec i size); [|lia]. apply IH; try assumption; try lia. cbn [length] in Hf. lia.
Qed.

Section Open2.
  Variable D : bytes.
  Hypothesis HD : len D < 2 ^ 31.
  Lemma count_suf width idx R : suf D (count_text width idx ++ R) -> suf D (lit "END" ++ x0a :: [x0a] ++ R).
  Proof.
    unfold count_text. rewrite <- app_assoc. intros H. apply suf_app in H. unfold text_line in H.
    rewrite <- !app_assoc in H. exact H.
  Qed.
  Lemma body_head h l : exists c c2 b, encode ABinary 0 (NObj h l) = c :: c2 :: b.
  Proof. cbn [encode opening]. eexists _, _, _. reflexivity. Qed.
  Lemma open_at f e save nd idx keys : D = archive_bytes f e save nd idx keys -> env_ok e ->
    (exists h l, nd = NObj h l) -> archive_fits f e nd idx keys ->
    ar_open (mkR D 0) = Ret (read_head f e save, pos D (strip f (encode f 0 nd ++ archive_tail f keys))) /\
    suf D (strip f (encode f 0 nd ++ archive_tail f keys)).
  Proof.
    intros ED He (h & l & En) (Hok & Hi & Hk & Hks & _ & Hx).
    assert (S0 : suf D D) by (exists []; reflexivity).
    assert (P0 : mkR D 0 = pos D D) by (unfold pos; rewrite N.sub_diag; reflexivity).
    rewrite P0. unfold archive_bytes, archive_head in ED.
    set (body := encode f 0 nd) in *. set (tail := archive_tail f keys) in *.
    assert (SB : suf D (body ++ tail)) by (eexists; exact ED).
    split; [|apply suf_strip; exact SB].
    unfold ar_open.
    set (X := match f with ABinary => count_text 10 idx | AAscii => count_text 11 idx
              | ABinsafe => le_enc 4 2 ++ le_enc 4 idx ++ le_enc 4 (len (header_text f e save) + 12 + len body) end) in *.
    rewrite <- app_assoc in ED. change (D = header_text f e save ++ X ++ body ++ tail) in ED.
    assert (HX : starts_ok (X ++ body ++ tail)) by (unfold X; destruct f; (split; [reflexivity | discriminate])).
    rewrite ED in S0 at 2.
    destruct (head_load_at D HD f e save (X ++ body ++ tail) He HX S0) as [E S1]. rewrite <- ED in E.
    erewrite bind_eq by exact E. cbn [read_head ah_format].
    destruct f; cbn [strip].
    - unfold X in *. unfold bind at 1. erewrite (objects_at D HD); [reflexivity | | exact S1 | |].
      + change (2 ^ 31) with 2147483648. lia.
      + eapply suf_app. unfold count_text in S1. rewrite <- app_assoc in S1. exact S1.
      + unfold text_line. rewrite <- !app_assoc. cbn [app].
        assert (S2 : suf D (lit "END" ++ x0a :: [x0a] ++ body ++ tail)).
        { exact (count_suf _ _ _ S1). }
        destruct S2 as [pre Epre]. rewrite (pos_pre D HD pre) by exact Epre. rewrite Epre at 1.
        rewrite read_line_skip.
        * rewrite <- Epre. rewrite (pos_pre D HD (pre ++ lit "END" ++ x0a :: [x0a])) by (rewrite Epre, <- !app_assoc; reflexivity).
          do 3 f_equal. rewrite !len_app. change (len (x0a :: [x0a])) with 2. change (len [x0a]) with 1. lia.
        * discriminate.
        * apply eol_lit. reflexivity.
        * right; reflexivity.
        * constructor; [reflexivity | constructor].
        * subst tail. cbn [archive_tail]. rewrite app_nil_r. destruct (body_head h l) as (c & c2 & b & Eb).
          unfold body. rewrite En in Hx |- *. rewrite Eb in Hx |- *. split; [|intros _; discriminate].
          unfold in_chars. cbn [existsb]. rewrite orb_false_r. destruct (beq c x0a) eqn:Eq; [|apply andb_false_r]. apply beq_spec in Eq. contradiction (Hx Eq).
        * rewrite <- Epre. apply small_max. exact HD.
    - unfold X in *. unfold bs_header. rewrite <- !app_assoc in *.
      rewrite bind_assoc. unfold bind at 1. rewrite (at_reads D HD (read_uint) _ 2) by (try (apply reads_uint; reflexivity); exact S1).
      apply suf_app in S1.
      rewrite bind_assoc. unfold bind at 1. rewrite (at_reads D HD (read_uint) _ idx) by (try (apply reads_uint; exact Hi); exact S1).
      apply suf_app in S1.
      assert (LD : len D = len (header_text ABinsafe e save) + 12 + len body + len tail).
      { rewrite ED. rewrite !len_app, !len_le_enc. lia. }
      rewrite bind_assoc. unfold bind at 1. rewrite (at_reads D HD (read_uint) _ (len (header_text ABinsafe e save) + 12 + len body))
        by (try (apply reads_uint; change (2 ^ 31) with 2147483648 in *; change (2 ^ 32) with 4294967296 in *; lia); exact S1).
      apply suf_app in S1.
      rewrite bind_assoc. unfold bind at 1. rewrite at_tell.
      rewrite bind_assoc. unfold bind at 1. unfold pos at 1. rewrite rd_seek_beg by (try lia; apply small_max; exact HD).
      assert (S2 : suf D tail) by (eapply suf_app; exact S1).
      assert (ET : tail = le_enc 4 (len keys) ++ key_lines keys 0 ++ []) by (unfold tail; rewrite app_nil_r; reflexivity).
      replace (mkR D (len (header_text ABinsafe e save) + 12 + len body)) with (pos D (le_enc 4 (len keys) ++ key_lines keys 0 ++ []))
        by (rewrite <- ET; unfold pos; f_equal; lia).
      rewrite ET in S2.
      rewrite bind_assoc. unfold bind at 1. rewrite (at_reads D HD (read_uint) _ (len keys)) by (try (apply reads_uint; change (2 ^ 16) with 65536 in *; change (2 ^ 32) with 4294967296; lia); exact S2).
      apply suf_app in S2.
      assert (RT : reads (bs_table (S (N.to_nat (len keys))) (len keys) (len keys)) (key_lines keys 0) tt).
      { apply reads_table; [reflexivity | apply N.le_refl | exact Hk | | exact Hks]. unfold len. rewrite Nat2N.id. apply Nat.lt_succ_diag_r. }
      rewrite bind_assoc. unfold bind at 1. rewrite (at_reads D HD _ _ _ [] RT S2).
      unfold bind at 1. rewrite (at_back' D HD). reflexivity.
    - unfold X in *. unfold bind at 1. erewrite (objects_at D HD); [reflexivity | | exact S1 | |].
      + exact Hi.
      + eapply suf_app. unfold count_text in S1. rewrite <- app_assoc in S1. exact S1.
      + unfold text_line. rewrite <- !app_assoc. cbn [app].
        assert (S2 : suf D (lit "END" ++ x0a :: [x0a] ++ body ++ tail)).
        { exact (count_suf _ _ _ S1). }
        rewrite (at_line D HD); [reflexivity | apply eol_lit; reflexivity | | exact S2].
        cbn [after_ok app]. cbn [drop_while]. change (is_ws x0a) with true. cbv iota.
        apply (node_after_ok AAscii 0 nd tail). apply node_ok_fit, Hok.
  Qed.
End Open2.

(** ** From a graph to bytes and back *)
Theorem archive_round_trip C G f e1 e2 save n name root nd w wc :
  graph_ok C G f -> content C G n name root = Some (nd, w, wc) ->
  len (we_date e1) = len (we_date e2) -> len (we_user e1) = len (we_user e2) -> env_ok e2 ->
  archive_fits f e2 nd (nw_idx w) (nw_keys w) ->
  exists b h,
    save_archive f e1 e2 save (g_graph C G) n name root = Ret b /\
    b = archive_bytes f e2 save nd (nw_idx w) (nw_keys w) /\
    load_archive (c_load C) (c_flags C) n b = Ret (read_head f e2 save, option_map (place wc) root, h) /\
    same_graph C G wc h.
Proof.
  intros HG Hc Hd Hu He Hf.
  destruct (graph_round_trip C G f HG n name root nd w wc Hc) as (h & cache & Hr & Hs).
  assert (Hn : exists hh l, nd = NObj hh l).
  { destruct n as [|n]; [discriminate|]. cbn [read_obj] in Hr. unfold bind at 1 in Hr. unfold rgl in Hr.
    cbn [rg_s nprims p_begin n_begin] in Hr. destruct nd as [nm k e|hh l|b]; [discriminate | eauto | discriminate]. }
  unfold content in Hc. destruct (write_obj nwprims (g_graph C G) n name root (mkWg nw_empty [])) as [[[] [w1 wc1]]| | |] eqn:Ew; try discriminate.
  cbn [wg_s wg_cache] in Hc. destruct (nw_cur w1) as [|nd1 [|nd2 l2]] eqn:Ec; try discriminate. injection Hc as -> -> ->.
  assert (H0 : cache_ok C G nw_empty []) by (split; [constructor|]; split; constructor).
  destruct (written C G f HG n name root nw_empty [] w wc Ew H0) as (nd' & A1 & A2 & _).
  cbn [nw_empty nw_open] in A2.
  pose proof (save_bytes f e1 e2 save Hd Hu (g_graph C G) n name root nd w wc Ew Ec A2 Hn Hf) as Hsave.
  exists (archive_bytes f e2 save nd (nw_idx w) (nw_keys w)), h.
  split; [exact Hsave|]. split; [reflexivity|]. split; [|exact Hs].
  set (D := archive_bytes f e2 save nd (nw_idx w) (nw_keys w)) in *.
  assert (HD : len D < 2 ^ 31).
  { destruct Hf as (_ & Hi & _ & _ & Hl & _). unfold D. revert Hl. unfold archive_bytes, archive_head. rewrite !len_app.
    rewrite (len_header_text f e2 e2 true save) by reflexivity. destruct f; rewrite ?len_app, ?len_le_enc; exact (fun H => H). }
  destruct (open_at D HD f e2 save nd (nw_idx w) (nw_keys w) eq_refl He Hn Hf) as [Ho Hsuf].
  unfold load_archive. rewrite Ho. cbn [read_head ah_format].
  assert (Htail : after_ok f (archive_tail f (nw_keys w))) by (destruct f; [exact I | exact I | cbn; discriminate]).
  pose proof (agrees_read_obj f D (archive_tail f (nw_keys w)) HD Htail (c_load C) (c_flags C) n (mkRg [[nd]] [] [])) as Ha.
  rewrite Hr in Ha. destruct Ha as [Ha _].
  - cbn [rg_s]. split; [discriminate|]. destruct Hf as (Hok & _). split.
    + constructor; [|constructor]. cbn [forallb]. rewrite Hok. reflexivity.
    + cbn [senc length encodes flat_map]. rewrite !app_nil_r. exact Hsuf.
  - unfold up in Ha. cbn [rg_s rg_cache rg_heap] in Ha.
    replace (mkRar (pos D (strip f (encode f 0 nd ++ archive_tail f (nw_keys w)))) []) with (rst f D (archive_tail f (nw_keys w)) [[nd]]).
    + match type of Ha with ?x = _ => match goal with |- context [read_obj (fmt_prims f) ?l ?fl n ?g] => change (read_obj (fmt_prims f) l fl n g) with x end end.
      rewrite Ha. reflexivity.
    + unfold rst, rat. cbn [senc length encodes flat_map]. rewrite !app_nil_r. destruct f; reflexivity.
Qed.
