(** Lemmas: archives with entries at the top, and the state of a save game. *)

From Coq Require Import String Lia.
From Verif Require Import MBase MStream SStream LBase LStream LStreamHist MBoxes SBoxes LBoxes MText LText MClasses MArchive SArchive.
From Verif Require Import LGraph LArchW LArchR LArchH LArchP MVob MCutscene LVob MLib SVob SLib LLib MSave SSave LForeign.
Local Open Scope N_scope.

Section Top.
  Variable C : classes.
  Variable G : oid -> option (c_ob C).
  Variable f : fmt.
  Hypothesis HG : graph_ok C G f.
  Notation wcache := (list (oid * N)).
  Notation rdo := (read_obj (nprims f) (c_load C) (c_flags C)).

  Lemma flags_now_nil r : flags_now C G [] r = g_flags C G r.
  Proof. reflexivity. Qed.
  Lemma runp_top {A} n (Q : oid -> Prop) (wcF : wcache) (p : prog oid A) : plain p -> forall (wc : wcache) ops nds wcE extF a,
    wcF = extF ++ wcE -> NoDup (map fst wcF) -> NoDup (map snd wcF) ->
    trace C G f n Q wc ops nds wcE ->
    flat f (place wcF) (g_type C G) (g_flags C G) p [ops] = Some (a, [[]]) ->
    runp (nprims f) (c_flags C) (rdo n) p (mkRg [nds] (rc_of wc) (heap_of C G (place wcF) [] wc)) =
    Ret (a, mkRg [[]] (rc_of wcE) (heap_of C G (place wcF) [] wcE)).
  Proof.
    induction p as [a0 | e | | | k c IH | c IH | c IH | c IH | cur p IH]; intros Hp wc ops nds wcE extF a HF Hn1 Hn2 Ht Hflat;
      cbn [flat] in Hflat; try discriminate; cbn [plain] in Hp; try contradiction.
    - injection Hflat as <- ->. inversion Ht; subst. reflexivity.
    - destruct ops as [|[name e|name r|name cls ver l|e0|] ops]; try discriminate.
      destruct (kmatch k e) as [v|] eqn:Ek; [|discriminate]. inversion Ht as [|? ? ky ? ? ? ? Ht'| |]; subst.
      cbn [runp]. unfold bind at 1. unfold rgl at 1. cbn [rg_s rg_cache rg_heap nprims p_read]. unfold n_read. rewrite Ek.
      eapply IH; [apply Hp | reflexivity | exact Hn1 | exact Hn2 | exact Ht' | exact Hflat].
    - destruct ops as [|[name e|name r|name cls ver l|e0|] ops]; try discriminate.
      inversion Ht as [| |? ? ? nd wc1' ? ? ? Hr He Hin Ht'|]; subst.
      assert (Hx : exists e2, extF ++ wcE = e2 ++ wc1').
      { apply trace_ext in Ht' as [e3 E3]. exists (extF ++ e3). rewrite E3. rewrite !app_assoc. reflexivity. }
      destruct Hx as [e2 E2].
      cbn [runp]. unfold bind at 1.
      rewrite (Hr (extF ++ wcE) e2 [] nds0 [] E2 Hn1 Hn2 (incl_nil_l _)) by (intros; constructor).
      destruct r as [rr|]; cbn [option_map].
      + destruct (Hin rr eq_refl) as (Hi & Hg & _).
        destruct (heap_shows C G f HG (place (extF ++ wcE)) [] wc1' rr Hi Hg eq_refl) as [Ht1 Ht2].
        cbn [rg_heap]. rewrite E2 in *. rewrite (place_app e2 wc1' rr Hn1 Hi) in *. rewrite Ht1, Ht2.
        rewrite flags_now_nil. rewrite <- E2 in *.
        eapply IH; [apply Hp | reflexivity | exact Hn1 | exact Hn2 | exact Ht' | exact Hflat].
      + eapply IH; [apply Hp | reflexivity | exact Hn1 | exact Hn2 | exact Ht' | exact Hflat].
  Qed.
End Top.

(** ** The bytes *)
Section TopSave.
  Variables e1 e2 : wenv.
  Variable save : bool.
  Hypothesis Hd : len (we_date e1) = len (we_date e2).
  Hypothesis Hu : len (we_user e1) = len (we_user e2).
  Variable graph : oid -> option (otype * N * list (wop oid)).
  Notation f := AAscii.

  Definition top_bytes (nds : list node) (idx : N) : bytes := archive_head f e2 save idx 0 ++ encodes f 0 nds.

  Lemma save_top_bytes n ops w wc :
    run_wops nwprims (write_obj nwprims graph n) ops (mkWg nw_empty []) = Ret (tt, mkWg w wc) ->
    nw_open w = [] -> len (nw_keys w) <= 2 ^ 16 -> top_fits e2 save (nw_cur w) (nw_idx w) ->
    save_top f e1 e2 save graph n ops = Ret (top_bytes (nw_cur w) (nw_idx w)).
  Proof.
    intros Hw Ho Hk (Hok & Hi & Hl).
    assert (Hi' : idx_fits f (nw_idx w)) by exact Hi. clear Hi.
    set (hd := header_text f e1 false ++ head_rest f 0 0).
    assert (Hi0 : idx_fits f 0) by reflexivity.
    unfold archive_head in Hl. rewrite !len_app in Hl.
    change (count_text 11 (nw_idx w)) with (head_rest f (nw_idx w) 0) in Hl. rewrite (len_head_rest f) in Hl by exact Hi'.
    assert (L1 : len (header_text f e1 false) = len (header_text f e2 save)) by (apply len_header_text; assumption).
    assert (Lhd : len hd = len (header_text f e2 save) + 25)
      by (unfold hd; rewrite len_app, L1, (len_head_rest f) by exact Hi0; reflexivity).
    assert (E1 : ar_create f e1 save w_empty = Ret (Wst f hd [] 0 save nw_empty)).
    { unfold ar_create, w_empty. cbn [wpos].
      destruct (wheader_at f e1 [] 0 0 [] 0 [] 0 false) as (p & E & Ep); try (exact eq_refl || exact Hi0).
      - apply N.le_0_l.
      - constructor.
      - rewrite L1. lia.
      - intros X; contradiction X; reflexivity.
      - intros _ _. split; reflexivity.
      - match type of E with ?X = _ => match goal with |- context [ar_wheader f e1 ?s] => change (ar_wheader f e1 s) with X end end.
        rewrite E. cbn [wa_w wa_index wa_keys wa_indent wa_starts wa_head]. f_equal.
        unfold Wst, wat. cbn [nw_empty nw_open nw_cur nw_idx nw_keys penc popen encodes flat_map length app starts].
        rewrite Ep. cbn [N.eqb]. change (len (penc f nw_empty)) with 0. rewrite drop_0, N.add_0_r.
        unfold hd. cbn [head_rest]; rewrite ?drop_nil; reflexivity. }
    unfold save_top. rewrite E1.
    assert (EP : penc f w = encodes f 0 (nw_cur w)).
    { unfold penc. rewrite Ho. cbn [popen length app]. reflexivity. }
    destruct (W_ops f hd [] 0 save graph n (W_obj f hd [] 0 save graph n) ops nw_empty [] w wc Hw) as [_ E2].
    { unfold wfits. rewrite EP, Ho. rewrite (nodes_ok_fit f _ Hok).
      split; [reflexivity|]. split; [constructor|]. split; [rewrite Lhd; lia|].
      split; [|exact Hk]. unfold idx_fits in Hi'; change (2 ^ 31) with 2147483648 in *; change (2 ^ 32) with 4294967296 in *; lia. }
    rewrite E2. cbn [wg_s]. unfold Wst. rewrite EP, Ho. unfold wat.
    set (body := encodes f 0 (nw_cur w)) in *. rewrite drop_nil, app_nil_r. set (B := hd ++ body).
    destruct (wheader_at f e2 B (len hd + len body) (nw_idx w) [] (N.of_nat (length (@nil (ohead * list node)))) [] 0 save eq_refl Hi') as (p & E & _).
    - lia.
    - apply N.le_0_l.
    - constructor.
    - lia.
    - intros _. rewrite (len_head_rest f) by exact Hi'. unfold B. rewrite !len_app. rewrite Lhd. lia.
    - cbn [key_lines]. change (len (@nil byte)) with 0. lia.
    - discriminate.
    - match type of E with ?X = _ => match goal with |- context [ar_wheader f e2 ?s] => change (ar_wheader f e2 s) with X end end.
      rewrite E. cbn [wa_w wbuf]. f_equal.
      assert (LH : len (header_text f e2 save ++ head_rest f (nw_idx w) (len hd + len body)) = len hd)
        by (rewrite len_app, (len_head_rest f) by exact Hi'; rewrite Lhd; reflexivity).
      rewrite LH. assert (DB : drop (len hd) B = body) by (unfold B; apply drop_app_exact; reflexivity).
      rewrite DB. reflexivity.
  Qed.

  Lemma open_top nds idx : env_ok e2 -> top_fits e2 save nds idx ->
    let D := top_bytes nds idx in
    ar_open (mkR D 0) = Ret (read_head f e2 save, pos D (strip f (encodes f 0 nds))) /\ suf D (strip f (encodes f 0 nds)) /\ len D < 2 ^ 31.
  Proof.
    intros He (Hok & Hi & Hl) D. assert (HD : len D < 2 ^ 31) by exact Hl.
    assert (ED : D = header_text f e2 save ++ count_text 11 idx ++ encodes f 0 nds)
      by (unfold D, top_bytes, archive_head; rewrite <- app_assoc; reflexivity).
    assert (S0 : suf D D) by (exists []; reflexivity).
    assert (SB : suf D (encodes f 0 nds)) by (exists (header_text f e2 save ++ count_text 11 idx); rewrite <- app_assoc; exact ED).
    split; [|split; [apply suf_strip; exact SB | exact HD]].
    assert (P0 : mkR D 0 = pos D D) by (unfold pos; rewrite N.sub_diag; reflexivity).
    rewrite P0. clearbody D.
    unfold ar_open. set (body := encodes f 0 nds) in *.
    assert (HX : starts_ok (count_text 11 idx ++ body)) by (split; [reflexivity | discriminate]).
    rewrite ED in S0 at 2.
    destruct (head_load_at D HD f e2 save (count_text 11 idx ++ body) He HX S0) as [E S1]. rewrite <- ED in E.
    erewrite bind_eq by exact E. cbn [read_head ah_format strip].
    unfold bind at 1. erewrite (objects_at D HD); [reflexivity | exact Hi | exact S1 | |].
    - eapply suf_app. unfold count_text in S1. rewrite <- app_assoc in S1. exact S1.
    - unfold text_line. rewrite <- !app_assoc. cbn [app].
      assert (S2 : suf D (lit "END" ++ x0a :: [x0a] ++ body)) by exact (count_suf D _ _ _ S1).
      rewrite (at_line D HD); [reflexivity | apply eol_lit; reflexivity | | exact S2].
      cbn [after_ok app]. cbn [drop_while]. change (is_ws x0a) with true. cbv iota.
      unfold body. rewrite <- (app_nil_r (encodes f 0 nds)). apply (nodes_after_ok f 0 nds []); [apply nodes_ok_fit, Hok | cbn; discriminate].
  Qed.
End TopSave.

(** ** Together *)
Lemma top_round_trip {A} C G e1 e2 save n ops (p : prog oid A) (a : (oid -> oid) -> A) root nds w wc :
  graph_ok C G AAscii -> plain p -> top_content C G n ops = Some (nds, w, wc) ->
  flat_map wop_refs ops = match root with Some r => [r] | None => [] end ->
  (forall ph fl, flat AAscii ph (g_type C G) fl p [ops] = Some (a ph, [[]])) ->
  len (we_date e1) = len (we_date e2) -> len (we_user e1) = len (we_user e2) -> env_ok e2 ->
  len (nw_keys w) <= 2 ^ 16 -> top_fits e2 save nds (nw_idx w) ->
  exists b h ph,
    save_top AAscii e1 e2 save (g_graph C G) n ops = Ret b /\
    load_top (c_load C) (c_flags C) n p b = Ret (a ph, h) /\
    isomorphic C G root ph h.
Proof.
  intros HG Hp Hc Hroot Hlaw Hd Hu He Hk Hf.
  unfold top_content in Hc. destruct (run_wops nwprims (write_obj nwprims (g_graph C G) n) ops (mkWg nw_empty [])) as [[[] [w1 wc1]]| | |] eqn:Ew; try discriminate.
  cbn [wg_s wg_cache] in Hc. injection Hc as <- -> ->.
  assert (H0 : cache_ok C G nw_empty []) by (split; [constructor|]; split; constructor).
  destruct (written_ops C G AAscii n (written C G AAscii HG n) (fun _ => True) ops nw_empty [] w wc Ew H0) as (nds & A1 & A2 & A3 & _ & A5 & A6);
    [intros; exact I|].
  cbn [nw_empty nw_cur nw_open app] in A1, A2.
  pose proof (save_top_bytes e1 e2 save Hd Hu (g_graph C G) n ops w wc Ew A2 Hk Hf) as Hs.
  destruct A5 as (C1 & C2 & C3).
  exists (top_bytes e2 save (nw_cur w) (nw_idx w)), (heap_of C G (place wc) [] wc), (place wc).
  split; [exact Hs|]. split.
  - destruct (open_top e2 save (nw_cur w) (nw_idx w) He Hf) as (Ho & Hsuf & HD).
    set (D := top_bytes e2 save (nw_cur w) (nw_idx w)) in *. clearbody D.
    unfold load_top. rewrite Ho. cbn [read_head ah_format].
    pose proof (runp_top C G AAscii HG n (fun _ => True) wc p Hp [] ops nds wc [] (a (place wc)) eq_refl C1 C2 A6 (Hlaw _ _)) as Hr.
    pose proof (agrees_runp AAscii D [] HD (ltac:(cbn; discriminate)) (c_flags C) _ _ p
                (agrees_read_obj AAscii D [] HD (ltac:(cbn; discriminate)) (c_load C) (c_flags C) n) (mkRg [nw_cur w] [] [])) as Ha.
    rewrite <- A1 in Hr. cbn [rc_of] in Hr. change (heap_of C G (place wc) [] []) with (@nil (hobj (c_ob C))) in Hr.
    rewrite Hr in Ha. destruct Ha as [Ha _].
    + cbn [rg_s]. split; [discriminate|]. destruct Hf as (Hok & _). split.
      * constructor; [exact Hok | constructor].
      * cbn [senc length]. rewrite !app_nil_r. exact Hsuf.
    + unfold up in Ha. cbn [rg_s rg_cache rg_heap] in Ha.
      replace (mkRar (pos D (strip AAscii (encodes AAscii 0 (nw_cur w)))) []) with (rst AAscii D [] [nw_cur w]).
      * match type of Ha with ?x = _ => match goal with |- context [runp ?x1 ?x2 ?x3 ?x4 ?x5] => change (runp x1 x2 x3 x4 x5) with x end end.
        rewrite Ha. reflexivity.
      * unfold rst, rat. cbn [senc length]. rewrite !app_nil_r. reflexivity.
  - assert (Hin : forall r, from_root C G root r <-> In r (map fst wc)).
    { intros r. destruct (closed_ops C G nwprims n (closed_obj C G nwprims n) ops _ _ _ _ Ew) as [(ext & E & Hcl) Hops].
      rewrite app_nil_r in E. subst ext. split.
      - intros (b & -> & Hb). assert (Hi : In b (map fst wc)) by (apply Hops; rewrite Hroot; left; reflexivity).
        clear - Hb Hi Hcl. induction Hb as [b | b c d Hab IH Hbc]; [exact Hi|]. eapply Hcl; [apply IH; exact Hi | exact Hbc].
      - intros Hr. destruct (from_ops C G nwprims n (from_obj C G nwprims n) ops nw_empty [] w wc Ew) as (ext & E & Hx). rewrite app_nil_r in E. subst ext.
        destruct (Hx r Hr) as (b & Ib & Rb). rewrite Hroot in Ib. destruct root as [rt|]; [|destruct Ib]. destruct Ib as [<-|[]].
        exists rt. split; [reflexivity | exact Rb]. }
    split; [|split].
    + intros r Hr. apply Hin in Hr. destruct (nth_heap_of C G (place wc) [] wc r Hr) as [i Hi].
      assert (Hx : G r <> None).
      { apply in_map_iff in Hr as [e [<- Hee]]. rewrite Forall_forall in C3. apply (C3 e Hee). }
      destruct (G r) as [x|] eqn:Ex; [|contradiction]. exists x, i. split; [reflexivity|].
      rewrite Hi. unfold hentry. cbn [fst snd inb existsb]. unfold g_type. rewrite Ex. reflexivity.
    + intros r r' Hr Hr'. apply Hin in Hr. apply Hin in Hr'. apply LArchP.place_inj; assumption.
    + exists (map fst wc). split; [exact C1|]. split; [exact Hin|]. rewrite len_heap_of. unfold len. rewrite map_length. reflexivity.
Qed.
Lemma top_content_total C G ops (dom : list oid) :
  graph_ok C G AAscii -> (forall r, G r <> None -> In r dom) -> (forall a b, refers C G a b -> G b <> None) ->
  (forall r, In r (flat_map wop_refs ops) -> G r <> None) -> forallb wgood ops = true ->
  exists nds w wc, top_content C G (S (length dom)) ops = Some (nds, w, wc).
Proof.
  intros HG Hdom Hcl Hrefs Hgood.
  assert (Hops : forall r x, G r = Some x ->
    class_of_type (c_type C x) <> None /\ forallb wgood (g_ops C G x) = true).
  { intros r x Hx. destruct (HG r x Hx) as [(_ & Hc & Ho) _]. split; [exact Hc|].
    destruct (Ho (fun r => r) (g_flags C G) [] (fun _ _ _ _ H => H) (fun _ _ => eq_refl)) as (p & _ & Hf).
    apply flat_good in Hf; [|constructor; [reflexivity | constructor]]. inversion Hf; assumption. }
  destruct (ops_fine C G dom Hdom Hcl Hops (S (length dom)) (all_fine C G dom Hdom Hcl Hops (S (length dom))) ops nw_empty []) as (w' & wc' & A & _).
  - split; [constructor | intros z []].
  - cbn [length]. lia.
  - exact Hgood.
  - exact Hrefs.
  - unfold top_content. rewrite A. do 3 eexists. reflexivity.
Qed.

(** ** The state *)
Lemma gives_info f ph ty fl x : gives f ph ty fl p_info (save_info x) x.
Proof. destruct x as [n t]. unfold p_info, save_info, wB, wS. cbn [in_told in_name]. repeat g_step. Qed.
Lemma gives_mission f ph ty fl x : gives f ph ty fl p_mission (save_mission x) x.
Proof.
  destruct x as [n i a s]. unfold p_mission, save_mission, wB, wS, wI. cbn [mi_name mi_id mi_available mi_status]. repeat g_step.
  eapply gives_cons; [apply (gives_upto f ph ty fl "NumInList" (@nil unit)); reflexivity|]. cbn [length p_rep].
  repeat g_step.
Qed.
Lemma gives_topic f ph ty fl x : len (tp_entries x) < 2 ^ 31 -> gives f ph ty fl p_topic (save_topic x) x.
Proof.
  destruct x as [d se st l]. unfold p_topic, save_topic, wS, wE. cbn [tp_description tp_section tp_status tp_entries app]. intros Hl.
  repeat g_step.
  eapply gives_cons; [apply gives_size; exact Hl|]. cbn beta.
  eapply gives_cons; [apply gives_rd; reflexivity|]. cbn beta.
  eapply gives_last; [apply (gives_rep1 f ph ty fl _ _ (fun s => s)); intros; apply gives_rd; reflexivity|].
  rewrite map_id. g_step.
Qed.
Lemma gives_symbol f ph ty fl c i x :
  (if g2 c then len (sy_values x) < 2 ^ 31 else length (sy_values x) = 1%nat) ->
  gives f ph ty fl (p_symbol c (mkSymst [] [])) (save_symbol c (i, x)) x.
Proof.
  destruct x as [n l]. unfold p_symbol, save_symbol. cbn [sy_name sy_values]. intros Hl. g_step.
  destruct (g2 c).
  - g_step. eapply gives_cons; [apply (gives_upto f ph ty fl "" l Hl)|]. cbn beta.
    eapply gives_last; [apply (gives_rep1 f ph ty fl _ _ (fun s => s)); intros; apply gives_rd; reflexivity|].
    rewrite map_id. g_step.
  - destruct l as [|v [|]]; try discriminate. repeat g_step.
Qed.
Lemma gives_symbols f ph ty fl c l : forall i,
  Forall (fun s => if g2 c then len (sy_values s) < 2 ^ 31 else length (sy_values s) = 1%nat) l ->
  gives f ph ty fl (p_symbols c (repeat (mkSymst [] []) (length l))) (flat_map (save_symbol c) (indexed i l)) l.
Proof.
  induction l as [|x l IH]; intros i H; [apply gives_ret; reflexivity|].
  inversion H as [|? ? Hx Hl]; subst. cbn [length repeat p_symbols indexed flat_map].
  eapply gives_bind; [apply gives_symbol; exact Hx|].
  eapply gives_last; [apply IH; exact Hl|]. g_step.
Qed.
Lemma resized_nil {A} (d : A) n : resized d n [] = repeat d n.
Proof. unfold resized. rewrite firstn_nil. cbn [length app]. rewrite Nat.sub_0_r. reflexivity. Qed.
Lemma gives_state f ph ty fl c x : ok_state c ty x -> gives f ph ty fl (load_state c st_new) (save_state c x) (map_state ph x).
Proof.
  destruct x as [d h m ms mg is ss lg gt]. unfold ok_state, load_state, save_state, map_state.
  cbn [st_day st_hour st_minute st_missions st_manager st_infos st_symbols st_log st_guilds st_new].
  intros (H1 & H2 & H3 & H4 & H5 & H6 & H7 & H8). unfold wI, wO, wR. cbn [app]. do 3 g_step.
  g_step. eapply gives_cons; [apply gives_size; exact H1|]. cbn beta.
  eapply gives_bind; [apply (gives_rep f ph ty fl p_info save_info (fun a => a)); intros; apply gives_info|]. rewrite map_id. cbn beta.
  g_step. eapply gives_cons; [apply gives_upto; exact H2|]. cbn beta.
  eapply gives_bind; [apply (gives_rep f ph ty fl p_mission save_mission (fun a => a)); intros; apply gives_mission|]. rewrite map_id. cbn beta.
  g_step. eapply gives_cons; [apply gives_size; exact H3|]. cbn beta.
  eapply gives_bind; [apply (gives_rep f ph ty fl p_topic save_topic (fun a => a)); intros a Ia; apply gives_topic|].
  { rewrite Forall_forall in H5. apply H5, Ia. }
  rewrite map_id. cbn beta.
  eapply gives_cons; [apply gives_obj; destruct mg; assumption|]. cbn beta.
  g_step. eapply gives_cons; [apply gives_size; exact H4|]. cbn beta. rewrite resized_nil.
  eapply gives_bind; [apply gives_symbols; exact H6|]. cbn beta.
  eapply gives_last; [apply gives_rd; cbn [kmatch]; rewrite H7; reflexivity|]. cbn beta.
  apply gives_ret. f_equal. apply take_all. rewrite H7. reflexivity.
Qed.
Lemma plain_symbols c l : plain (p_symbols c l).
Proof. induction l as [|x l IH]; [exact I|]. cbn [p_symbols]. unfold p_symbol. plains. exact IH. Qed.
Lemma plain_state c s : plain (load_state c s).
Proof. unfold load_state. plains; apply plain_symbols. Qed.

(** ** The files *)
Lemma refs_none {A} (w : A -> list (wop oid)) l : (forall a, flat_map wop_refs (w a) = []) -> flat_map wop_refs (flat_map w l) = [].
Proof.
  intros H. induction l as [|a l IH]; [reflexivity|]. cbn [flat_map]. rewrite flat_map_app, H, IH. reflexivity.
Qed.
Lemma refs_none1 {A} (w : A -> wop oid) l : (forall a, wop_refs (w a) = []) -> flat_map wop_refs (map w l) = [].
Proof. intros H. induction l as [|a l IH]; [reflexivity|]. cbn [map flat_map]. rewrite H, IH. reflexivity. Qed.
Lemma state_refs c x : flat_map wop_refs (save_state c x) = match st_manager x with Some r => [r] | None => [] end.
Proof.
  unfold save_state. cbn [app flat_map wop_refs wI wCount]. rewrite !flat_map_app. cbn [flat_map wop_refs].
  rewrite (refs_none save_info) by reflexivity. cbn [app]. rewrite !flat_map_app. cbn [flat_map wop_refs].
  rewrite (refs_none save_mission) by reflexivity. cbn [app]. rewrite !flat_map_app. cbn [flat_map wop_refs].
  rewrite (refs_none save_topic); [|intros a; unfold save_topic; cbn [app flat_map wop_refs wS wE wCount]; apply refs_none1; reflexivity].
  cbn [app wO wop_refs]. rewrite !flat_map_app.
  rewrite (refs_none (save_symbol c)).
  - cbn [app flat_map wop_refs wR]. destruct (st_manager x); reflexivity.
  - intros [i s]. unfold save_symbol. cbn [flat_map wop_refs app]. destruct (g2 c).
    + cbn [flat_map wop_refs app]. apply refs_none1. reflexivity.
    + destruct (sy_values s); reflexivity.
Qed.
Lemma gives_all {A} f ph ty fl (p : prog oid A) ops a : gives f ph ty fl p ops a -> flat f ph ty fl p [ops] = Some (a, [[]]).
Proof. intros H. specialize (H [] []). rewrite app_nil_r in H. exact H. Qed.
Lemma law_good {A} f ph ty fl (p : prog oid A) ops a : flat f ph ty fl p [ops] = Some (a, [[]]) -> forallb wgood ops = true.
Proof.
  intros H. apply flat_good in H; [|constructor; [reflexivity | constructor]]. inversion H; assumption.
Qed.

Lemma state_comes_back : forall c G n x e1 e2 nds w wc,
  library_graph c G -> ok_state c (g_type (library c) G) x ->
  len (we_date e1) = len (we_date e2) -> len (we_user e1) = len (we_user e2) -> env_ok e2 ->
  top_content (library c) G n (save_state c x) = Some (nds, w, wc) ->
  len (nw_keys w) <= 2 ^ 16 -> top_fits e2 true nds (nw_idx w) ->
  exists b h ph,
    save_savedat c e1 e2 G n x = Ret b /\
    load_savedat c n st_new b = Ret (map_state ph x, h) /\
    isomorphic (library c) G (st_manager x) ph h.
Proof.
  intros c G n x e1 e2 nds w wc HG Hok Hd Hu He Hc Hk Hf.
  exact (top_round_trip (library c) G e1 e2 true n _ (load_state c st_new) (fun ph => map_state ph x) (st_manager x) nds w wc
    (library_graph_ok c G AAscii HG) (plain_state c st_new) Hc (state_refs c x) (fun ph fl => gives_all _ _ _ _ _ _ _ (gives_state _ ph _ fl c x Hok))
    Hd Hu He Hk Hf).
Qed.
Lemma states_come_back : forall c G dom x e1 e2,
  library_graph c G -> (forall r, G r <> None -> In r dom) ->
  (forall a b, refers (library c) G a b -> G b <> None) ->
  (forall r, st_manager x = Some r -> G r <> None) ->
  ok_state c (g_type (library c) G) x ->
  len (we_date e1) = len (we_date e2) -> len (we_user e1) = len (we_user e2) -> env_ok e2 ->
  exists n nds w wc, top_content (library c) G n (save_state c x) = Some (nds, w, wc) /\
    (len (nw_keys w) <= 2 ^ 16 -> top_fits e2 true nds (nw_idx w) ->
     exists b h ph,
       save_savedat c e1 e2 G n x = Ret b /\
       load_savedat c n st_new b = Ret (map_state ph x, h) /\
       isomorphic (library c) G (st_manager x) ph h).
Proof.
  intros c G dom x e1 e2 HG Hdom Hcl Hm Hok Hd Hu He.
  destruct (top_content_total (library c) G (save_state c x) dom (library_graph_ok c G AAscii HG) Hdom Hcl) as (nds & w & wc & Hc).
  { rewrite state_refs. destruct (st_manager x) as [r|]; [|intros r []]. intros r' [<-|[]]. apply Hm. reflexivity. }
  { eapply law_good. apply gives_all. apply (gives_state AAscii (fun r => r) _ (fun _ => 0%Z) c x Hok). }
  exists (S (length dom)), nds, w, wc. split; [exact Hc|]. intros Hk Hf.
  eapply state_comes_back; eassumption.
Qed.

Lemma metadata_comes_back : forall c x e1 e2,
  ok_savemeta c (fun _ => oCSavegameInfo) x ->
  len (we_date e1) = len (we_date e2) -> len (we_user e1) = len (we_user e2) -> env_ok e2 ->
  exists nds w wc, top_content (library c) (fun r => if r =? 0 then Some (Osavemeta x) else None) 2 [wO "%" (Some 0)] = Some (nds, w, wc) /\
    (len (nw_keys w) <= 2 ^ 16 -> top_fits e2 false nds (nw_idx w) ->
     exists b, save_saveinfo c e1 e2 2 x = Ret b /\ load_saveinfo c 2 b = Ret x).
Proof.
  intros c x e1 e2 Hok Hd Hu He. set (G := fun r : oid => if r =? 0 then Some (Osavemeta x) else None).
  assert (Hlib : library_graph c G).
  { intros r y Hy. unfold G in Hy. destruct (r =? 0); [|discriminate]. injection Hy as <-. split; [exact Hok|]. intros i []. }
  pose proof (library_graph_ok c G AAscii Hlib) as HG.
  assert (Hno : forall a b, ~ refers (library c) G a b).
  { intros a b (y & Ey & Hy). unfold G in Ey. destruct (a =? 0); [|discriminate]. injection Ey as <-.
    revert Hy. unfold g_ops. cbn [library c_save object_save]. unfold save_savemeta. destruct (g2 c); intros H; exact H. }
  assert (Hlaw : forall (ph : oid -> oid) fl, flat AAscii ph (g_type (library c) G) fl (p_obj oCSavegameInfo) [[wO "%" (Some 0)]] = Some (Some (ph 0), [[]])).
  { intros ph fl. apply gives_all. apply (gives_obj AAscii ph (g_type (library c) G) fl _ (Some 0)). reflexivity. }
  destruct (top_content_total (library c) G [wO "%" (Some 0)] [0] HG) as (nds & w & wc & Hc).
  { intros r Hr. unfold G in Hr. destruct (r =? 0) eqn:E; [|contradiction Hr; reflexivity]. apply N.eqb_eq in E. subst. left. reflexivity. }
  { intros a b H. destruct (Hno a b H). }
  { intros r [<-|[]]. discriminate. }
  { reflexivity. }
  exists nds, w, wc. split; [exact Hc|]. intros Hk Hf.
  assert (Hpl : plain (p_obj (R:=oid) oCSavegameInfo)) by plains.
  destruct (top_round_trip (library c) G e1 e2 false 2 [wO "%" (Some 0)] (p_obj oCSavegameInfo) (fun ph => Some (ph 0)) (Some 0) nds w wc
    HG Hpl Hc eq_refl Hlaw Hd Hu He Hk Hf) as (b & h & ph & A & B & D).
  exists b. split; [exact A|]. unfold load_saveinfo. rewrite B.
  destruct D as (D & _ & _). destruct (D 0) as (y & i & Ey & Ny); [exists 0; split; [reflexivity | constructor]|].
  rewrite Ny. injection Ey as <-. cbn [library c_map object_map]. destruct x. reflexivity.
Qed.

(** ** Loading into a state that is there *)
Lemma runp_pbind {S Ob A B} (P : prims S) (fl : Ob -> Z) rec (p : prog oid A) (k : A -> prog oid B) : forall g,
  runp P fl rec (pbind p k) g =
  match runp P fl rec p g with Ret (a, g') => runp P fl rec (k a) g' | Throw e => Throw e | Undef => Undef | Fuel => Fuel end.
Proof.
  induction p as [a | e | | | kd c IH | c IH | c IH | c IH | b p IH]; intros g; cbn [pbind runp]; try reflexivity;
    unfold bind.
  - destruct (rgl (p_read P kd) g) as [[v g1]| | |]; [apply IH | | |]; reflexivity.
  - destruct (rec g) as [[v g1]| | |]; [apply IH | | |]; reflexivity.
  - destruct (rgl (p_begin P) g) as [[v g1]| | |]; [apply IH | | |]; reflexivity.
  - destruct (rgl (p_end P) g) as [[v g1]| | |]; [apply IH | | |]; reflexivity.
  - destruct (rgl (p_skip P b) g) as [[v g1]| | |]; [apply IH | | |]; reflexivity.
Qed.
Definition same_run {S Ob A} (P : prims S) (fl : Ob -> Z) rec (h : A -> A) (p q : prog oid A) : Prop := forall g,
  runp P fl rec p g = match runp P fl rec q g with Ret (a, g') => Ret (h a, g') | Throw e => Throw e | Undef => Undef | Fuel => Fuel end.
Lemma same_bind {S Ob A B} (P : prims S) (fl : Ob -> Z) rec (h : B -> B) (p : prog oid A) (k1 k2 : A -> prog oid B) :
  (forall a, same_run P fl rec h (k1 a) (k2 a)) -> same_run P fl rec h (pbind p k1) (pbind p k2).
Proof.
  intros H g. rewrite !runp_pbind. destruct (runp P fl rec p g) as [[a g']| | |]; [apply H | | |]; reflexivity.
Qed.
Lemma same_bind2 {S Ob A B} (P : prims S) (fl : Ob -> Z) rec (h1 : A -> A) (h : B -> B) (p q : prog oid A) (k1 k2 : A -> prog oid B) :
  same_run P fl rec h1 p q -> (forall a, same_run P fl rec h (k1 (h1 a)) (k2 a)) -> same_run P fl rec h (pbind p k1) (pbind q k2).
Proof.
  intros H1 H g. rewrite !runp_pbind, H1. destruct (runp P fl rec q g) as [[a g']| | |]; [apply H | | |]; reflexivity.
Qed.
Lemma same_ret {S Ob A} (P : prims S) (fl : Ob -> Z) rec (h : A -> A) a b : a = h b -> same_run P fl rec h (PRet a) (PRet b).
Proof. intros -> g. reflexivity. Qed.
Lemma same_symbol {S Ob} (P : prims S) (fl : Ob -> Z) rec c old :
  same_run P fl rec (fun n => mkSymst (sy_name n) (sy_values old ++ sy_values n)) (p_symbol c old) (p_symbol c (mkSymst [] [])).
Proof. unfold p_symbol. apply same_bind. intros n. apply same_bind. intros l. apply same_ret. reflexivity. Qed.
Lemma same_symbols {S Ob} (P : prims S) (fl : Ob -> Z) rec c l : forall m,
  same_run P fl rec (onto_symbols l) (p_symbols c (firstn m l ++ repeat (mkSymst [] []) (m - length l)))
    (p_symbols c (repeat (mkSymst [] []) m)).
Proof.
  induction l as [|o l IH]; intros m.
  - rewrite firstn_nil. cbn [length app]. rewrite Nat.sub_0_r. intros g. destruct (runp _ _ _ _ g) as [[x g']| | |]; reflexivity.
  - destruct m as [|m]; [intros g; reflexivity|]. cbn [firstn length app Nat.sub repeat p_symbols].
    eapply same_bind2; [apply same_symbol|]. intros n. eapply same_bind2; [apply IH|]. intros r. apply same_ret. reflexivity.
Qed.
Lemma same_state {S Ob} (P : prims S) (fl : Ob -> Z) rec c s : same_run P fl rec (onto s) (load_state c s) (load_state c st_new).
Proof.
  unfold load_state. do 7 (apply same_bind; intros ?).
  eapply same_bind2; [apply same_bind; intros n; cbn [st_new st_symbols]; rewrite resized_nil; apply same_symbols|]. intros r.
  apply same_bind. intros gt. apply same_ret. reflexivity.
Qed.
Lemma loading_into : forall c n s b,
  load_savedat c n s b =
  match load_savedat c n st_new b with Ret (x, h) => Ret (onto s x, h) | Throw e => Throw e | Undef => Undef | Fuel => Fuel end.
Proof.
  intros c n s b. unfold load_savedat, load_top. destruct (ar_open (mkR b 0)) as [[h r]| | |]; try reflexivity.
  rewrite (same_state _ _ _ c s).
  destruct (runp _ _ _ (load_state c st_new) _) as [[x g]| | |]; reflexivity.
Qed.
Lemma onto_symbols_nil l : forall n, Forall (fun s => sy_values s = []) l -> onto_symbols l n = n.
Proof.
  induction l as [|o l IH]; intros [|[a v] n] H; try reflexivity. inversion H as [|? ? Ho Hl]; subst.
  cbn [onto_symbols sy_name sy_values]. rewrite Ho, IH by exact Hl. reflexivity.
Qed.
Lemma loading_fresh : forall c n s b,
  st_missions s = [] -> Forall (fun x => sy_values x = []) (st_symbols s) ->
  load_savedat c n s b = load_savedat c n st_new b.
Proof.
  intros c n s b H1 H2. rewrite loading_into. destruct (load_savedat c n st_new b) as [[x h]| | |]; try reflexivity.
  unfold onto. rewrite H1, onto_symbols_nil by exact H2. destruct x. reflexivity.
Qed.
