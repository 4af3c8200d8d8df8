(** Property theorems about model scripts: the tokenizer, sources and compiled files.

    Specifications: SScript.v (what a script says, the text of sources), SCompiled.v (the layout of
    compiled files). *)
From Coq Require Import Lia.
From Verif Require Import MBase MStream SStream MBoxes SBoxes SFormat MText MVfs SVfs MScript SScript SMorph SMrm SCompiled.
From Verif Require Import LMdsBin LMdsSafe LMdsProps.
Local Open Scope N_scope.

(* ------------------------------------------------------------------ *)
(** ** C55 *)
(** In a script that ends with two line ends, the tokenizer returns a token from every position,
    and every token but the end of the file moves on. *)
Theorem C55_progress_partial : forall g fuel t, let f := g ++ [x0a; x0a] in
  len f < max_size -> rdata (tk_r t) = f -> rpos (tk_r t) <= len f -> (length f < fuel)%nat ->
  exists k v t', tk_next fuel t = Ret ((k, v), t') /\ rdata (tk_r t') = f /\ rpos (tk_r t') <= len f /\
    (k = TEof -> rpos (tk_r t') = len f) /\ (k <> TEof -> rpos (tk_r t) < rpos (tk_r t')).
Proof. exact (fun g fuel t H1 H2 H3 H4 => next_ends g H1 fuel t H2 H3 H4). Qed.
Print Assumptions C55_progress_partial.
(** Such a script has finitely many tokens. *)
Theorem C55_ends_partial : forall g fuel n t, let f := g ++ [x0a; x0a] in
  len f < max_size -> (length f < fuel)%nat -> rdata (tk_r t) = f -> rpos (tk_r t) <= len f -> len f - rpos (tk_r t) < N.of_nat n ->
  exists l, all_tokens fuel n t = Ret l.
Proof. exact tokens_end. Qed.
Print Assumptions C55_ends_partial.
Example C55_nonvacuous : exists l, all_tokens 100 100 (mkTk (mkR (lit "ani (""A"" -1.5) // x" ++ [x0a; x0a]) 0) 0) = Ret l /\
  l = [(TKeyword, lit "ani"); (TString, lit "A"); (TFloat, lit "-1.5")].
Proof. eexists. split; vm_compute; reflexivity. Qed.
(** A comment or a text that the end of the file cuts off is read for ever, whatever the number
    of steps; *)
Theorem C55_unterminated_refuted : forall fuel m,
  tk_next fuel (mkTk (mkR (lit "//") 0) m) = Fuel /\ tk_next fuel (mkTk (mkR (lit """") 0) m) = Fuel.
Proof. exact (fun fuel m => conj (comment_loops fuel m) (quote_loops fuel m)). Qed.
Print Assumptions C55_unterminated_refuted.
(** a word at the end of the file is returned again and again, without moving on. *)
Theorem C55_word_refuted : forall fuel m,
  tk_next (S (S fuel)) (mkTk (mkR (lit "a") 0) m) = Ret ((TKeyword, lit "a"), mkTk (mkR (lit "a") 0) 0).
Proof. exact word_stays. Qed.
Print Assumptions C55_word_refuted.

(* ------------------------------------------------------------------ *)
(** ** A script with every command *)
Definition t_word (s : bytes) : bytes * token * bytes * bytes := ([x20], TKeyword, s, s).
Definition t_int (s : bytes) : bytes * token * bytes * bytes := ([x20], TInteger, s, s).
Definition t_num (s : bytes) : bytes * token * bytes * bytes := ([x20], TFloat, s, s).
Definition t_str (s : bytes) : bytes * token * bytes * bytes := (lit " (", TString, s, x22 :: s ++ [x22]).
Definition t_open : bytes * token * bytes * bytes := ([x0a], TLbrace, [], lit "{").
Definition t_close : bytes * token * bytes * bytes := ([x0a], TRbrace, [], lit "}").
Definition t_colon : bytes * token * bytes * bytes := ([], TColon, [], lit ":").
Definition f_01 : N := 1036831949.  (* 0.1 *)
Definition f_02 : N := 1045220557.  (* 0.2 *)
Definition f_30 : N := 1106247680.  (* 30.0 *)
Definition f_500 : N := 1140457472. (* 500.0 *)

Definition demo_ani : mds_ani :=
  mkMdsAni (lit "S_RUN") 1 (lit "S_STAND") f_01 f_02 17 (lit "RUN.ASC") false (-1) 50 f_30 0 f_1 [] [] [] [] [] [] [].
Definition demo_tag : mds_tag := mkMdsTag 4 E_OPTIMAL_FRAME [] [] [] [10; -20]%Z FM_NONE false.
Definition demo_evs : list mevent := [VTag demo_tag; VSfx (mkMdsSfx 5 (lit "STEP") f_500 true)].
Definition demo_cmds : list command :=
  [ CAni demo_ani demo_evs;
    CAlias (mkMdsAlias (lit "A") 2 (lit "B") f_01 f_02 1 (lit "S_RUN") true);
    CBlend (mkMdsBlend (lit "X") (lit "Y") f_02 0);
    CComb (mkMdsComb (lit "C") 1 (lit "D") f_01 f_02 1 (lit "E") 4);
    CDisable (lit "Q");
    CTag (lit "BIP01") ].
Definition demo_tops : list top := [TopSkeleton (mkMdsSkel (lit "BODY") true); TopMesh (lit "HUM.ASC"); TopEnum demo_cmds].

Definition d_head : items :=
  [ t_word (lit "Model"); t_str (lit "HuS"); t_open;
    t_word (lit "meshAndTree"); t_str (lit "BODY"); t_word (lit "DONT_USE_MESH");
    t_word (lit "REGISTERMESH"); t_str (lit "HUM.ASC");
    t_word (lit "aniEnum"); t_open ].
Definition d_ani : items :=
  [ t_word (lit "ani"); t_str (lit "S_RUN"); t_int (lit "1"); t_str (lit "S_STAND"); t_num (lit "0.1"); t_num (lit "0.2");
    t_word (lit "M..I."); t_str (lit "RUN.ASC"); t_word (lit "F"); t_int (lit "-1"); t_int (lit "50");
    t_word (lit "FPS"); t_colon; t_int (lit "30"); t_open;
    t_word (lit "*eventTag"); t_int (lit "4"); t_str (lit "DEF_OPT_FRAME"); t_str (lit "10 -20");
    t_word (lit "*eventSFX"); t_int (lit "5"); t_str (lit "STEP"); t_word (lit "R"); t_colon; t_int (lit "500"); t_word (lit "EMPTY_SLOT");
    t_close ].
Definition d_alias : items :=
  [ t_word (lit "aniAlias"); t_str (lit "A"); t_int (lit "2"); t_str (lit "B"); t_num (lit "0.1"); t_num (lit "0.2");
    t_word (lit "M."); t_str (lit "S_RUN"); t_word (lit "r") ].
Definition d_blend : items := [ t_word (lit "aniBlend"); t_str (lit "X"); t_str (lit "Y"); t_num (lit "0.2") ].
Definition d_comb : items :=
  [ t_word (lit "aniComb"); t_str (lit "C"); t_int (lit "1"); t_str (lit "D"); t_num (lit "0.1"); t_num (lit "0.2");
    t_word (lit "M"); t_colon; t_str (lit "E"); t_int (lit "4") ].
Definition d_rest : items :=
  [ t_word (lit "aniDisable"); t_str (lit "Q"); t_word (lit "modelTag"); t_str (lit "DEF_HIT_LIMB"); t_str (lit "BIP01") ].
Definition demo_items : items := d_head ++ (d_ani ++ d_alias ++ d_blend ++ d_comb ++ d_rest) ++ [t_close; t_close].
Definition demo_source : bytes := print demo_items [].

Ltac g_tok :=
  first
    [ exact eq_refl
    | eexists; reflexivity
    | eexists; split; [reflexivity | vm_compute; reflexivity]
    | eexists; split; [eexists; split; [reflexivity | vm_compute; reflexivity] | vm_compute; reflexivity]
    | eexists; eexists; split; [reflexivity | split; [first [left; reflexivity | right; reflexivity] | vm_compute; reflexivity]] ].
Ltac g_one := apply cat_one; [solve [g_tok]|].
Ltac g_at n := apply (cat_at n); cbn [firstn skipn].
Ltac says := split; [reflexivity|]; let c := fresh "c" in let b := fresh "b" in let H := fresh "H" in
  intros c b H; cbn in H; repeat (destruct H as [H|H]; [injection H as <- <-; split; intros X; first [discriminate X | reflexivity | cbn; tauto | (exfalso; cbn in X; intuition discriminate)]|]); destruct H.

Lemma demo_flags_17 : flags_say (lit "M..I.") 17.
Proof. says. Qed.
Lemma demo_flags_1 : flags_say (lit "M.") 1 /\ flags_say (lit "M") 1.
Proof. split; says. Qed.
Lemma demo_ani_parses : g_command (CAni demo_ani demo_evs) NAny (item_toks d_ani).
Proof.
  cbn [g_command]. split; [repeat split|]. cbn [item_toks map d_ani t_word t_str t_int t_num t_open t_close t_colon].
  g_one. unfold header. apply cat_cat. g_one. apply cat_cat. g_one. apply cat_cat. g_one. apply cat_cat. g_one. apply cat_cat. g_one.
  apply cat_cat. apply cat_one; [exists (lit "M..I."); split; [exact demo_flags_17|]; apply cat_one; [reflexivity | left; reflexivity]|].
  g_one. g_one. g_one. g_one.
  g_at 3%nat; [right; g_one; g_one; g_tok|].
  apply cat_zero; [left; split; reflexivity|]. left. split; [reflexivity|]. g_one.
  cbn [demo_evs g_events]. apply cat_cat.
  g_at 4%nat.
  { cbn [g_event]. exists (lit "DEF_OPT_FRAME"), (AFrames [10; -20]%Z). split; [cbn; tauto|].
    split; [split; [discriminate|]; repeat constructor; vm_compute; discriminate|]. split; [reflexivity|].
    g_one. apply cat_one; [right; g_tok|]. g_one. apply cat_one; [vm_compute; reflexivity | reflexivity]. }
  apply cat_cat. g_at 7%nat.
  { cbn [g_event sx_frame sx_name sx_range sx_empty_slot when]. g_one. g_one. g_one.
    g_at 3%nat; [right; g_one; g_one; g_tok|]. left. g_tok. }
  apply cat_zero; [reflexivity|]. g_tok.
Qed.
Lemma demo_cmds_parse : g_enum demo_cmds (item_toks d_ani ++ item_toks d_alias ++ item_toks d_blend ++ item_toks d_comb ++ item_toks d_rest).
Proof.
  unfold demo_cmds. apply (enum_cons _ _ NAny); [exact demo_ani_parses | | exact I].
  apply (enum_cons _ _ NAny).
  { split; [reflexivity|]. cbn [item_toks map d_alias t_word t_str t_int t_num t_open t_close t_colon].
    g_one. unfold header. apply cat_cat. g_one. apply cat_cat. g_one. apply cat_cat. g_one. apply cat_cat. g_one. apply cat_cat. g_one.
    apply cat_cat. apply cat_one; [exists (lit "M."); split; [apply demo_flags_1|]; apply cat_one; [reflexivity | left; reflexivity]|].
    g_one. right. g_tok. }
  2: exact I.
  apply (enum_cons _ _ NLower).
  { cbn [g_command item_toks map d_blend t_word t_str t_int t_num t_open t_close t_colon].
    g_one. g_one. apply cat_zero; [left; reflexivity|]. g_one. apply cat_one; [|left; split; reflexivity].
    right. left. split; [reflexivity|]. g_tok. }
  2: reflexivity.
  apply (enum_cons _ _ NAny).
  { split; [reflexivity|]. cbn [item_toks map d_comb t_word t_str t_int t_num t_open t_close t_colon].
    g_one. unfold header. apply cat_cat. g_one. apply cat_cat. g_one. apply cat_cat. g_one. apply cat_cat. g_one. apply cat_cat. g_one.
    apply cat_cat. g_at 2%nat.
    { exists (lit "M"). split; [apply demo_flags_1|]. apply cat_one; [reflexivity|]. right. g_tok. }
    g_one. g_one. left. reflexivity. }
  2: exact I.
  cbn [item_toks map d_rest t_word t_str].
  apply (enum_at 2 _ _ NAny); cbn [firstn skipn]; [split; [reflexivity|]; g_one; g_tok | | exact I].
  apply (enum_at 3 _ _ NAny); cbn [firstn skipn]; [split; [reflexivity|]; g_one; g_one; g_tok | apply enum_nil | exact I].
Qed.
Lemma demo_parses : g_script demo_tops (item_toks demo_items).
Proof.
  unfold g_script, demo_items, item_toks. rewrite !map_app. fold (item_toks d_ani) (item_toks d_alias) (item_toks d_blend) (item_toks d_comb) (item_toks d_rest).
  cbn [map d_head app t_word t_str t_int t_num t_open t_close t_colon].
  g_one. g_one. g_one. unfold demo_tops. cbn [g_tops g_top when sk_disable_mesh sk_name].
  apply cat_cat. apply cat_cat. g_one. apply cat_cat. g_one. g_one.
  apply cat_cat. apply cat_cat. g_one. g_one.
  apply cat_cat. apply cat_cat. g_one. apply cat_cat. g_one. apply cat_cat.
  eexists _, _. split; [exact demo_cmds_parse|]. split; [|reflexivity].
  g_one. apply cat_zero; [reflexivity|]. g_tok.
Qed.
Lemma demo_source_file : source_file demo_tops demo_source.
Proof. exists (item_toks demo_items), []. split; [exact demo_parses | apply items_text; vm_compute; reflexivity]. Qed.

(** The same script, compiled. *)
Definition eol_text (s : bytes) : bytes := s ++ [x0a].
Definition c_header (name : bytes) (lay : N) (next : bytes) (bi bo : N) (fl model : bytes) : bytes :=
  eol_text name ++ le_enc 4 lay ++ eol_text next ++ le_enc 4 bi ++ le_enc 4 bo ++ eol_text fl ++ eol_text model.
Definition demo_event_chunks : list chunk :=
  [ (62880, le_enc 4 2);
    (62883, int_bytes 4 ++ eol_text (lit "DEF_OPT_FRAME") ++ eol_text (lit "10 -20"));
    (62881, int_bytes 5 ++ eol_text (lit "STEP") ++ le_enc 4 f_500 ++ le_enc 4 1) ].
Definition demo_chunks : list chunk :=
  (61440, le_enc 4 3 ++ eol_text (lit "HuS")) ::
  (62208, le_enc 4 1 ++ eol_text (lit "BODY")) ::
  (62464, eol_text (lit "HUM.ASC")) ::
  (62752, c_header (lit "S_RUN") 1 (lit "S_STAND") f_01 f_02 (lit "M..I.") (lit "RUN.ASC") ++ eol_text (lit "F") ++
          int_bytes (-1) ++ int_bytes 50 ++ le_enc 4 f_30 ++ le_enc 4 0 ++ le_enc 4 f_1) ::
  demo_event_chunks ++
  (62768, c_header (lit "A") 2 (lit "B") f_01 f_02 (lit "M.") (lit "S_RUN") ++ eol_text (lit "R")) ::
  (62784, eol_text (lit "X") ++ eol_text (lit "Y") ++ le_enc 4 f_02 ++ le_enc 4 0) ::
  (62832, c_header (lit "C") 1 (lit "D") f_01 f_02 (lit "M") (lit "E") ++ int_bytes 4) ::
  (62848, eol_text (lit "Q")) ::
  (62864, int_bytes 0 ++ eol_text (lit "DEF_HIT_LIMB") ++ eol_text (lit "BIP01")) ::
  (65535, []) :: [].
Definition demo_compiled : bytes := flat_map chunk_bytes demo_chunks.
Definition demo_flat : list command := flat_map top_commands demo_tops.
Lemma eol_ended s : forallb (fun c => negb (beq c x00 || beq c x0d || beq c x0a)) s = true -> ended s (eol_text s).
Proof. intros H. split; [apply plain_text, H|]. exists x0a. split; [right; left; reflexivity | reflexivity]. Qed.
Lemma eol_last s : forallb (fun c => negb (beq c x00 || beq c x0d || beq c x0a)) s = true -> last_lines [s] (eol_text s).
Proof. intros H. apply lines_one; [apply plain_text, H | right; left; reflexivity]. Qed.
Lemma demo_header name lay next bi bo fls fl model : lay < 2 ^ 32 -> f32 bi -> f32 bo -> flags_say fls fl ->
  forallb (forallb (fun c => negb (beq c x00 || beq c x0d || beq c x0a))) [name; next; fls; model] = true ->
  header_layout name lay next bi bo fl model (c_header name lay next bi bo fls model).
Proof.
  intros H1 H2 H3 H4 H. cbn [forallb] in H. apply andb_prop in H as [A1 H]. apply andb_prop in H as [A2 H]. apply andb_prop in H as [A3 H].
  apply andb_prop in H as [A4 _].
  repeat (split; [assumption|]). exists (eol_text name), (eol_text next), fls, (eol_text fls), (eol_text model).
  split; [apply eol_ended, A1|]. split; [apply eol_ended, A2|]. split; [exact H4|]. split; [apply eol_ended, A3|]. split; [apply eol_ended, A4 | reflexivity].
Qed.
Ltac small := vm_compute; repeat split; first [reflexivity | discriminate].
Ltac okc := split; vm_compute; reflexivity.
Ltac truly := split; [reflexivity | split; [discriminate | reflexivity]].
Lemma demo_events_compiled : events_chunks demo_evs demo_event_chunks.
Proof.
  apply events_aside; [okc | exists 2; split; reflexivity|].
  apply events_more; [okc | |].
  { split; [reflexivity|]. exists (lit "DEF_OPT_FRAME"), (AFrames [10; -20]%Z). do 2 eexists. split; [cbn; tauto|].
    split; [split; [discriminate|]; repeat constructor; vm_compute; discriminate|]. split; [reflexivity|]. split; [small|].
    split; [apply eol_ended; reflexivity|]. split; [apply eol_last; reflexivity | reflexivity]. }
  apply events_more; [okc | | apply events_none].
  split; [reflexivity|]. split; [small|]. split; [reflexivity|]. eexists _, 1. split; [apply eol_ended; reflexivity|]. split; [truly | reflexivity].
Qed.
Lemma demo_compiled_file : compiled_file demo_flat demo_compiled.
Proof.
  unfold demo_compiled, demo_chunks. eexists _, _. split; [|split; [|split; [reflexivity | reflexivity]]]; [|vm_compute; discriminate].
  unfold demo_flat, demo_tops. cbn [flat_map top_commands app demo_cmds].
  apply chunks_aside; [okc | exists 3, (lit "HuS"); eexists; split; [reflexivity|]; split; [apply eol_ended; reflexivity | reflexivity]|].
  apply (chunks_more _ _ []); [okc | | apply events_none |].
  { split; [reflexivity|]. exists 1. eexists. split; [truly|]. split; [apply eol_ended; reflexivity | reflexivity]. }
  apply (chunks_more _ _ []); [okc | split; [reflexivity | apply eol_last; reflexivity] | apply events_none |].
  apply (chunks_more _ _ demo_event_chunks); [okc | | exact demo_events_compiled |].
  { split; [reflexivity|]. split; [repeat split|]. split; [small|]. split; [small|]. split; [reflexivity|]. split; [reflexivity|]. split; [reflexivity|].
    eexists _, (lit "F"), _. split; [apply demo_header; [reflexivity | reflexivity | reflexivity | exact demo_flags_17 | reflexivity]|].
    split; [split; [discriminate | intros (s' & E); discriminate]|]. split; [apply eol_ended; reflexivity | reflexivity]. }
  apply (chunks_more _ _ []); [okc | | apply events_none |].
  { split; [reflexivity|]. eexists _, (lit "R"), _. split; [apply demo_header; [reflexivity | reflexivity | reflexivity | exact (proj1 demo_flags_1) | reflexivity]|].
    split; [split; [intros _; exists []; reflexivity | reflexivity]|]. split; [apply eol_ended; reflexivity | reflexivity]. }
  apply (chunks_more _ _ []); [okc | | apply events_none |].
  { split; [reflexivity|]. split; [reflexivity|]. split; [reflexivity|]. eexists _, _. split; [apply eol_ended; reflexivity|]. split; [apply eol_ended; reflexivity | reflexivity]. }
  apply (chunks_more _ _ []); [okc | | apply events_none |].
  { split; [reflexivity|]. split; [small|]. eexists. split; [apply demo_header; [reflexivity | reflexivity | reflexivity | exact (proj2 demo_flags_1) | reflexivity] | reflexivity]. }
  apply (chunks_more _ _ []); [okc | split; [reflexivity | apply eol_ended; reflexivity] | apply events_none |].
  apply (chunks_more _ _ []); [okc | | apply events_none |].
  { split; [reflexivity|]. exists 0%Z, (lit "DEF_HIT_LIMB"). do 2 eexists. split; [small|]. split; [apply eol_ended; reflexivity|]. split; [apply eol_last; reflexivity | reflexivity]. }
  apply chunks_aside; [okc | | apply chunks_none].
  cbn. intros H. repeat (destruct H as [H|H]; [discriminate H|]). destruct H.
Qed.

(* ------------------------------------------------------------------ *)
(** ** C98 *)
(** Loading a source gives exactly what it says, in whatever way it is written: all but the
    arguments of some event tags and the empty-slot mark of ground sounds, which are refuted below. *)
Theorem C98_source_partial : forall fuel l f,
  source_file l f -> Forall command_kept (flat_map top_commands l) -> len f < max_size -> (S (length f) < fuel)%nat ->
  of_file (mds_load fuel mscript_new) f = Ret (script_of (flat_map top_commands l)).
Proof. exact (fun fuel => mds_load_source fuel mscript_new). Qed.
Print Assumptions C98_source_partial.
Example C98_nonvacuous : source_file demo_tops demo_source /\ Forall command_kept (flat_map top_commands demo_tops) /\
  len demo_source < max_size /\ len demo_source = 389.
Proof.
  split; [exact demo_source_file|]. split; [|split; vm_compute; reflexivity].
  cbn [flat_map top_commands demo_tops demo_cmds app]. repeat first [apply Forall_cons | apply Forall_nil]; try exact I.
  cbn [command_kept demo_evs]. repeat first [apply Forall_cons | apply Forall_nil]; try exact I. intros [].
Qed.
Definition ani_text (events : bytes) : bytes :=
  lit "Model (""H"") { aniEnum { ani (""A"" 1 ""A"" 0 0 M ""A.ASC"" F 0 9) { " ++ events ++ lit " } } }" ++ [x0a].
(** The texts of some event tags are dropped, and so is the empty-slot mark of ground sounds; *)
Definition drop_ani : mds_ani := mkMdsAni (lit "A") 1 (lit "A") 0 0 1 (lit "A.ASC") false 0 9 f_25 0 f_1 [] [] [] [] [] [] [].
Definition drop_evs : list mevent := [VTag (mkMdsTag 1 E_SOUND_DRAW (lit "X") [] [] [] FM_NONE false); VSfxGround (mkMdsSfx 2 (lit "Y") f_1000 true)].
Definition drop_tops : list top := [TopEnum [CAni drop_ani drop_evs]].
Definition drop_cmd : items :=
  [ t_word (lit "ani"); t_str (lit "A"); t_int (lit "1"); t_str (lit "A"); t_int (lit "0"); t_int (lit "0");
    t_word (lit "M"); t_str (lit "A.ASC"); t_word (lit "F"); t_int (lit "0"); t_int (lit "9"); t_open;
    t_word (lit "*eventTag"); t_int (lit "1"); t_str (lit "DEF_DRAWSOUND"); t_str (lit "X");
    t_word (lit "*eventSFXGrnd"); t_int (lit "2"); t_str (lit "Y"); t_word (lit "EMPTY_SLOT");
    t_close ].
Definition drop_items : items :=
  [ t_word (lit "Model"); t_str (lit "H"); t_open; t_word (lit "aniEnum"); t_open ] ++ drop_cmd ++ [t_close; t_close].
Definition drop_source : bytes := print drop_items [].
Lemma drop_parses : g_script drop_tops (item_toks drop_items).
Proof.
  unfold g_script, drop_items, item_toks. rewrite !map_app. fold (item_toks drop_cmd). cbn [map app t_word t_str t_int t_num t_open t_close t_colon].
  g_one. g_one. g_one. unfold drop_tops. cbn [g_tops g_top]. apply cat_cat. apply cat_cat. g_one. apply cat_cat. g_one. apply cat_cat.
  eexists _, _. split; [|split; [|reflexivity]].
  2:{ g_one. apply cat_zero; [reflexivity|]. g_tok. }
  rewrite <- (app_nil_r (item_toks drop_cmd)). apply (enum_cons _ _ NAny); [|apply enum_nil | exact I].
  cbn [g_command]. split; [repeat split|]. cbn [item_toks map drop_cmd t_word t_str t_int t_num t_open t_close t_colon].
  g_one. unfold header. apply cat_cat. g_one. apply cat_cat. g_one. apply cat_cat. g_one. apply cat_cat. g_one. apply cat_cat. g_one.
  apply cat_cat. apply cat_one; [exists (lit "M"); split; [apply demo_flags_1|]; apply cat_one; [reflexivity | left; reflexivity]|].
  g_one. g_one. g_one. g_one. apply cat_zero; [left; split; reflexivity|]. apply cat_zero; [left; split; reflexivity|].
  left. split; [reflexivity|]. g_one. cbn [drop_evs g_events]. apply cat_cat. g_at 4%nat.
  { cbn [g_event]. exists (lit "DEF_DRAWSOUND"), (ASlot (lit "X")). split; [cbn; tauto|]. split; [exact I|]. split; [reflexivity|].
    g_one. apply cat_one; [right; g_tok|]. g_one. apply cat_one; [vm_compute; reflexivity | reflexivity]. }
  apply cat_cat. g_at 4%nat.
  { cbn [g_event sx_frame sx_name sx_range sx_empty_slot when]. split; [reflexivity|]. g_one. g_one. g_one. g_tok. }
  apply cat_zero; [reflexivity|]. g_tok.
Qed.
Theorem C98_dropped_refuted : exists l f m, source_file l f /\ of_file (mds_load 300 mscript_new) f = Ret m /\
  m <> script_of (flat_map top_commands l) /\
  exists a, ms_animations m = [a] /\ map tg_slot (an_events a) = [[]] /\ map sx_empty_slot (an_sfx_ground a) = [false].
Proof.
  exists drop_tops, drop_source. eexists.
  split; [exists (item_toks drop_items), []; split; [exact drop_parses | apply items_text; vm_compute; reflexivity]|].
  split; [vm_compute; reflexivity|]. split; [vm_compute; discriminate|]. eexists. split; [reflexivity|]. split; reflexivity.
Qed.
Print Assumptions C98_dropped_refuted.
(** when the last animation of an enumeration has no block of events, what follows the enumeration is lost; *)
Theorem C98_last_animation_refuted : exists m,
  of_file (mds_load 300 mscript_new) (lit "Model (""H"") { aniEnum { ani (""A"" 1 ""A"" 0 0 M ""A.ASC"" F 0 9) }" ++ [x0a] ++
    lit "registerMesh (""B"") }" ++ [x0a]) = Ret m /\ len (ms_animations m) = 1 /\ ms_meshes m = [].
Proof. eexists. split; [vm_compute; reflexivity|]. split; reflexivity. Qed.
Print Assumptions C98_last_animation_refuted.
(** a parenthesis at the end of a text in quotes is dropped; *)
Theorem C98_parenthesis_refuted : exists m,
  of_file (mds_load 300 mscript_new) (lit "Model (""H"") { registerMesh (""A(1)"") }" ++ [x0a]) = Ret m /\ ms_meshes m = [lit "A(1"].
Proof. eexists. split; vm_compute; reflexivity. Qed.
Print Assumptions C98_parenthesis_refuted.
(** commands, whose case does not matter elsewhere, are not recognised in capitals after a blend; *)
Theorem C98_capitals_refuted :
  of_file (mds_load 300 mscript_new) (lit "Model (""H"") { aniEnum { aniBlend (""A"" ""B"") ANIDISABLE (""C"") } }" ++ [x0a]) = Throw ScriptSyntaxError /\
  exists m, of_file (mds_load 300 mscript_new) (lit "Model (""H"") { aniEnum { aniBlend (""A"" ""B"") aniDisable (""C"") } }" ++ [x0a]) = Ret m.
Proof. split; [vm_compute; reflexivity|]. eexists. vm_compute. reflexivity. Qed.
Print Assumptions C98_capitals_refuted.
(** an empty list of frames gives frame 0, and a blank at its end gives the last frame twice. *)
Theorem C98_frames_refuted : exists m a,
  of_file (mds_load 300 mscript_new) (ani_text (lit "*eventTag (1 ""DEF_OPT_FRAME"" """") *eventTag (1 ""DEF_OPT_FRAME"" ""4 "")")) = Ret m /\
  ms_animations m = [a] /\ map tg_frames (an_events a) = [[0%Z]; [4%Z; 4%Z]].
Proof. do 2 eexists. split; [vm_compute; reflexivity|]. split; reflexivity. Qed.
Print Assumptions C98_frames_refuted.

(* ------------------------------------------------------------------ *)
(** ** C99 *)
(** Loading a compiled script gives exactly what it says. *)
Theorem C99_compiled : forall fuel l f, compiled_file l f -> len f < max_size ->
  of_file (mds_load fuel mscript_new) f = Ret (script_of l).
Proof. exact (fun fuel l f H1 H2 => mds_load_compiled fuel mscript_new l f H1 eq_refl H2). Qed.
Print Assumptions C99_compiled.
Example C99_nonvacuous : compiled_file demo_flat demo_compiled /\ len demo_compiled < max_size /\ len demo_flat = 8.
Proof. split; [exact demo_compiled_file|]. split; vm_compute; reflexivity. Qed.

(* ------------------------------------------------------------------ *)
(** ** C100 *)
(** The source of a script and its compiled form load as the same script, if the source says
    nothing that the parser drops. *)
Theorem C100_agree_partial : forall fuel l f1 f2,
  source_file l f1 -> compiled_file (flat_map top_commands l) f2 -> Forall command_kept (flat_map top_commands l) ->
  len f1 < max_size -> len f2 < max_size -> (S (length f1) < fuel)%nat ->
  exists m, of_file (mds_load fuel mscript_new) f1 = Ret m /\ of_file (mds_load fuel mscript_new) f2 = Ret m.
Proof. exact both_load. Qed.
Print Assumptions C100_agree_partial.
Example C100_nonvacuous : source_file demo_tops demo_source /\ compiled_file (flat_map top_commands demo_tops) demo_compiled.
Proof. exact (conj demo_source_file demo_compiled_file). Qed.
Definition drop_chunks : list chunk :=
  (62752, c_header (lit "A") 1 (lit "A") 0 0 (lit "M") (lit "A.ASC") ++ eol_text (lit "F") ++
          int_bytes 0 ++ int_bytes 9 ++ le_enc 4 f_25 ++ le_enc 4 0 ++ le_enc 4 f_1) ::
  [ (62883, int_bytes 1 ++ eol_text (lit "DEF_DRAWSOUND") ++ eol_text (lit "X"));
    (62882, int_bytes 2 ++ eol_text (lit "Y") ++ le_enc 4 f_1000 ++ le_enc 4 1) ] ++ [].
Lemma drop_compiled_file : compiled_file (flat_map top_commands drop_tops) (flat_map chunk_bytes drop_chunks).
Proof.
  unfold drop_chunks. eexists _, _. split; [|split; [|split; [reflexivity | reflexivity]]]; [|vm_compute; discriminate].
  unfold drop_tops. cbn [flat_map top_commands app].
  apply (chunks_more _ _ [(62883, int_bytes 1 ++ eol_text (lit "DEF_DRAWSOUND") ++ eol_text (lit "X"));
    (62882, int_bytes 2 ++ eol_text (lit "Y") ++ le_enc 4 f_1000 ++ le_enc 4 1)] [] []); [okc | | | apply chunks_none].
  { split; [reflexivity|]. split; [repeat split|]. split; [small|]. split; [small|]. split; [reflexivity|]. split; [reflexivity|]. split; [reflexivity|].
    eexists _, (lit "F"), _. split; [apply demo_header; [reflexivity | reflexivity | reflexivity | exact (proj2 demo_flags_1) | reflexivity]|].
    split; [split; [discriminate | intros (s' & E); discriminate]|]. split; [apply eol_ended; reflexivity | reflexivity]. }
  apply events_more; [okc | |].
  { split; [reflexivity|]. exists (lit "DEF_DRAWSOUND"), (ASlot (lit "X")). do 2 eexists. split; [cbn; tauto|].
    split; [exact I|]. split; [reflexivity|]. split; [small|].
    split; [apply eol_ended; reflexivity|]. split; [apply eol_last; reflexivity | reflexivity]. }
  apply events_more; [okc | | apply events_none].
  split; [reflexivity|]. split; [small|]. split; [reflexivity|]. eexists _, 1. split; [apply eol_ended; reflexivity|]. split; [truly | reflexivity].
Qed.
Theorem C100_agree_refuted : exists l f1 f2 m1 m2, source_file l f1 /\ compiled_file (flat_map top_commands l) f2 /\
  of_file (mds_load 300 mscript_new) f1 = Ret m1 /\ of_file (mds_load 300 mscript_new) f2 = Ret m2 /\ m1 <> m2.
Proof.
  exists drop_tops, drop_source, (flat_map chunk_bytes drop_chunks). do 2 eexists.
  split; [exists (item_toks drop_items), []; split; [exact drop_parses | apply items_text; vm_compute; reflexivity]|].
  split; [exact drop_compiled_file|].
  split; [vm_compute; reflexivity|]. split; [vm_compute; reflexivity|]. discriminate.
Qed.
Print Assumptions C100_agree_refuted.

(* ------------------------------------------------------------------ *)
(** ** C101 *)
(** Loading a source, correct or not, that ends with two line ends, a closing brace and two line
    ends returns a script or throws. *)
Theorem C101_ends_partial : forall g fuel s f c0 c1 h,
  f = g ++ [x0a; x0a; x7d; x0a; x0a] -> f = c0 :: c1 :: h -> b2n c1 < 128 -> len f < max_size -> (length f < fuel)%nat ->
  load_ends (of_file (mds_load fuel s) f).
Proof. exact closed_ends. Qed.
Print Assumptions C101_ends_partial.
Example C101_nonvacuous : exists g h, lit "Model { ani ""x" ++ [x0a; x0a; x7d; x0a; x0a] = g ++ [x0a; x0a; x7d; x0a; x0a] /\
  lit "Model { ani ""x" ++ [x0a; x0a; x7d; x0a; x0a] = x4d :: x6f :: h /\ b2n x6f < 128.
Proof. eexists (lit "Model { ani ""x"), _. repeat split. Qed.
(** A comment at the end of the file: the loader runs for ever; *)
Theorem C101_source_refuted : forall fuel s, of_file (mds_load fuel s) (lit "//") = Fuel.
Proof. exact load_comment_loops. Qed.
Print Assumptions C101_source_refuted.
(** so it does in compiled scripts whose list of frames has a text that is no number; *)
Theorem C101_frames_refuted : (forall n v, frame_list n false (is_of (lit "x")) v = Fuel) /\
  exists f, of_file (mds_load 0 mscript_new) f = Fuel.
Proof.
  split; [exact frames_loop|]. exists (chunk_bytes (62883, int_bytes 1 ++ eol_text (lit "DEF_OPT_FRAME") ++ eol_text (lit "x"))).
  vm_compute. reflexivity.
Qed.
Print Assumptions C101_frames_refuted.
(** an event of a compiled script before its first animation is stored outside of the list of animations. *)
Theorem C101_events_refuted : exists f, of_file (mds_load 0 mscript_new) f = Undef.
Proof. exists (chunk_bytes (62885, int_bytes 1 ++ int_bytes 2)). vm_compute. reflexivity. Qed.
Print Assumptions C101_events_refuted.

(* ------------------------------------------------------------------ *)
(** ** C102 *)
(** Loading into a used script keeps what it holds and adds what the file says; in compiled
    files, if it holds no animation. *)
Theorem C102_source_partial : forall fuel s l f,
  source_file l f -> Forall command_kept (flat_map top_commands l) -> len f < max_size -> (S (length f) < fuel)%nat ->
  of_file (mds_load fuel s) f = Ret (script_over s (flat_map top_commands l)).
Proof. exact mds_load_source. Qed.
Print Assumptions C102_source_partial.
Theorem C102_compiled_partial : forall fuel s l f, compiled_file l f -> ms_animations s = [] -> len f < max_size ->
  of_file (mds_load fuel s) f = Ret (script_over s l).
Proof. exact mds_load_compiled. Qed.
Print Assumptions C102_compiled_partial.
Example C102_nonvacuous : compiled_file demo_flat demo_compiled /\ ms_animations (push_mesh mscript_new (lit "OLD")) = [] /\
  len demo_compiled < max_size.
Proof. split; [exact demo_compiled_file|]. split; vm_compute; reflexivity. Qed.
(** Loading the same compiled file twice: the events of the second time belong to the animation of the first. *)
Theorem C102_reload_refuted : exists f m1 m2, of_file (mds_load 0 mscript_new) f = Ret m1 /\ of_file (mds_load 0 m1) f = Ret m2 /\
  map (fun a => len (an_pfx_stop a)) (ms_animations m1) = [1] /\ map (fun a => len (an_pfx_stop a)) (ms_animations m2) = [2; 0].
Proof.
  exists (chunk_bytes (62752, c_header (lit "A") 1 (lit "A") 0 0 (lit "M") (lit "A.ASC") ++ eol_text (lit "F") ++ zeros 20) ++
          chunk_bytes (62885, int_bytes 1 ++ int_bytes 2)).
  do 2 eexists. split; [vm_compute; reflexivity|]. split; [vm_compute; reflexivity|]. split; reflexivity.
Qed.
Print Assumptions C102_reload_refuted.
