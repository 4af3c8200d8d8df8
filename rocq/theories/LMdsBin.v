(** Compiled model scripts: the loader reads every file of the format. *)

From Coq Require Import Lia ZifyN ZifyBool ZifyNat.
From Verif Require Import MBase MStream SStream MBoxes SBoxes SFormat MText MVfs SVfs SMrm SMorph MScript SScript SCompiled
  LBase LStream LStreamHist LFormat LText LVfs LMrm LMorph LMdsParse.
Local Open Scope N_scope.
Local Open Scope m_scope.

Lemma ended_reads s bs : ended s bs -> reads (read_line false) bs s.
Proof. intros (H & t & Ht & ->). apply line_plain; assumption. Qed.
Lemma truth_reads b n : truth b n -> reads read_uint (le_enc 4 n) n /\ negb (n =? 0) = b.
Proof.
  intros [H1 H2]. split; [apply reads_uint, H1|]. destruct (N.eqb_spec n 0); cbn; destruct b; try reflexivity; exfalso.
  - apply H2; [reflexivity | assumption].
  - assert (false = true) by (apply H2; assumption). discriminate.
Qed.
Lemma direction_begins b s : direction_text b s -> begins_R s = b.
Proof.
  unfold direction_text. intros [H1 H2]. destruct s as [|c s]; cbn [begins_R].
  - destruct b; [destruct (H1 eq_refl) as (s' & E); discriminate | reflexivity].
  - destruct (beq c x52) eqn:E.
    + apply beq_spec in E. subst. symmetry. apply H2. eexists. reflexivity.
    + destruct b; [|reflexivity]. destruct (H1 eq_refl) as (s' & X). injection X as -> ->. discriminate.
Qed.
Lemma int_reads z : int32 z -> reads read_int (int_bytes z) z.
Proof. apply reads_int. Qed.

Ltac rb := first [eapply reads_bind | eapply reads_last]; [first [eapply ended_reads; eassumption | apply int_reads; assumption | apply reads_float; assumption | apply reads_uint; assumption]|]; cbv beta.

(** ** Events *)
Lemma sfx_reads x bs : sfx_layout x bs -> reads b_sfx bs x.
Proof.
  intros (H1 & H2 & b1 & n & H3 & H4 & ->). destruct (truth_reads _ _ H4) as [H5 H6]. unfold b_sfx.
  rb. rb. rb. eapply reads_last; [exact H5|]. rewrite H6. apply reads_ret_eq. destruct x; reflexivity.
Qed.
Lemma lines1 s bs : last_lines [s] bs -> reads_part (read_line true) bs s.
Proof.
  intros H. inversion H as [|s0 t Hs Ht|]; subst. apply line_end; assumption.
Qed.
Lemma lines2 {A} s s2 bs (k : bytes -> bytes -> A) : last_lines [s; s2] bs ->
  reads_part (let* a := read_line true in let* b := read_line true in ret (k a b)) bs (k s s2).
Proof.
  intros H. inversion H as [| |s0 t s3 l bs2 Hs Ht Hl]; subst.
  rewrite app_assoc. eapply part_bind with (P := follows bs2); [apply line_next; assumption | intros post; exists post; reflexivity|].
  eapply part_map; [apply lines1; eassumption | reflexivity].
Qed.

Lemma tag_reads t bs : event_layout (VTag t) 62883 bs -> reads_part b_tag bs t.
Proof.
  intros (_ & name & args & b1 & b2 & Hn & Hf & Et & Hz & H1 & H2 & ->). unfold b_tag.
  eapply part_bind with (P := fun _ => True); [apply int_reads, Hz | intros; exact I|].
  eapply part_bind with (P := fun _ => True); [eapply ended_reads; eassumption | intros; exact I|].
  cbv zeta. rewrite (event_type_name name (tg_type t) Hn).
  assert (G : forall ty, ty = tg_type t -> reads_part
    (match ty with
     | E_ITEM_CREATE | E_ITEM_EXCHANGE =>
         let* a := read_line true in let* b := read_line true in ret (mkMdsTag (tg_frame t) ty a [] b [] FM_NONE false)
     | E_ITEM_INSERT | E_MUNITION_PLACE => let* a := read_line true in ret (mkMdsTag (tg_frame t) ty a [] [] [] FM_NONE false)
     | E_SET_FIGHT_MODE => let* a := read_line true in ret (mkMdsTag (tg_frame t) ty [] [] [] [] (fight_mode a) false)
     | E_MESH_SWAP =>
         let* a := read_line true in let* b := read_line true in ret (mkMdsTag (tg_frame t) ty a b [] [] FM_NONE false)
     | E_HIT_LIMB | E_HIT_DIRECTION | E_SOUND_DRAW | E_SOUND_UNDRAW | E_MUNITION_REMOVE | E_ITEM_DESTROY
     | E_TORCH_INVENTORY | E_ITEM_REMOVE =>
         let* a := read_line true in ret (mkMdsTag (tg_frame t) ty a [] [] [] FM_NONE false)
     | E_DAMAGE_MULTIPLIER | E_PARRY_FRAME | E_OPTIMAL_FRAME | E_HIT_END | E_COMBO_WINDOW =>
         let* a := read_line true in
         let* l := lift (frame_list (S (length a)) false (is_of a) 0%Z) in
         ret (mkMdsTag (tg_frame t) ty [] [] [] l FM_NONE false)
     | _ => ret (mkMdsTag (tg_frame t) ty [] [] [] [] FM_NONE false)
     end) b2 (tag_value (tg_frame t) ty args false)).
  { intros ty Ety. rewrite <- Ety in Hf. clear Et Ety Hn.
    destruct ty; destruct args; cbn [args_fit] in Hf; try contradiction; cbn [arg_texts] in H2; unfold tag_value; cbn [tg_frame].
    all: try apply reads_part_ret.
    all: try (eapply part_map; [apply lines1; eassumption | reflexivity]).
    all: try match goal with |- reads_part _ _ (mkMdsTag ?f ?ty ?a [] ?b _ _ _) => apply (lines2 _ _ b2 (fun x y => mkMdsTag f ty x [] y [] FM_NONE false)); assumption end.
    all: try match goal with |- reads_part _ _ (mkMdsTag ?f ?ty ?a ?b [] _ _ _) => apply (lines2 _ _ b2 (fun x y => mkMdsTag f ty x y [] [] FM_NONE false)); assumption end.
    all: try (eapply part_map; [apply lines1; eassumption|]; intros s; unfold ret; do 3 f_equal; apply fight_mode_name; assumption).
    all: destruct Hf as [Hf1 Hf2]; eapply part_map; [apply lines1; eassumption|]; intros s; unfold bind, lift; rewrite frames_of_text by assumption; reflexivity. }
  specialize (G _ eq_refl). rewrite <- Et in G. exact G.
Qed.

(** ** Commands *)
Lemma event_reads e ty bs : event_layout e ty bs -> forall s ix s', add_event s ix e = Ret s' ->
  reads_part (b_chunk ty (s, ix)) bs (false, (s', ix)).
Proof.
  intros H s ix s' Hs.
  assert (P : forall p : rd mevent, reads_part p bs e ->
    reads_part (let* x := p in let* s' := lift (add_event s ix x) in ret (false, (s', ix))) bs (false, (s', ix))).
  { intros p Hp. eapply part_map; [exact Hp|]. intros r. unfold bind, lift. rewrite Hs. reflexivity. }
  destruct e as [x|x|x|x|x|x|x]; cbn [event_layout] in H; destruct H as [-> H];
    match goal with |- reads_part (b_chunk ?t _) _ _ => change (b_chunk t (s, ix)) with (b_chunk t (s, ix)) end.
  - change (reads_part (let* x := (let* e := b_tag in ret (VTag e)) in let* s' := lift (add_event s ix x) in ret (false, (s', ix))) bs (false, (s', ix))).
    apply P. eapply part_map; [|reflexivity]. apply tag_reads. split; [reflexivity | exact H].
  - change (reads_part (let* x := (let* e := b_pfx in ret (VPfx e)) in let* s' := lift (add_event s ix x) in ret (false, (s', ix))) bs (false, (s', ix))).
    apply P. eapply part_map; [|reflexivity]. apply reads_part_of. destruct H as (H1 & H2 & b1 & b2 & n & H3 & H4 & H5 & ->).
    destruct (truth_reads _ _ H5) as [H6 H7]. unfold b_pfx. rb. rb. rb. rb. eapply reads_last; [exact H6|]. rewrite H7. apply reads_ret_eq. destruct x; reflexivity.
  - change (reads_part (let* x := (let* e := b_pfx_stop in ret (VPfxStop e)) in let* s' := lift (add_event s ix x) in ret (false, (s', ix))) bs (false, (s', ix))).
    apply P. eapply part_map; [|reflexivity]. apply reads_part_of. destruct H as (H1 & H2 & ->). unfold b_pfx_stop. rb. rb. apply reads_ret_eq. destruct x; reflexivity.
  - change (reads_part (let* x := (let* e := b_sfx in ret (VSfx e)) in let* s' := lift (add_event s ix x) in ret (false, (s', ix))) bs (false, (s', ix))).
    apply P. eapply part_map; [|reflexivity]. apply reads_part_of, sfx_reads, H.
  - change (reads_part (let* x := (let* e := b_sfx in ret (VSfxGround e)) in let* s' := lift (add_event s ix x) in ret (false, (s', ix))) bs (false, (s', ix))).
    apply P. eapply part_map; [|reflexivity]. apply reads_part_of, sfx_reads, H.
  - change (reads_part (let* x := (let* e := b_morph in ret (VMorph e)) in let* s' := lift (add_event s ix x) in ret (false, (s', ix))) bs (false, (s', ix))).
    apply P. eapply part_map; [|reflexivity]. apply reads_part_of. destruct H as (H1 & b1 & b2 & f & g & H2 & H3 & H4 & H5 & ->). unfold b_morph.
    rb. rb. rb. rb. rb. apply reads_ret_eq. destruct x; reflexivity.
  - change (reads_part (let* x := (let* e := b_tremor in ret (VTremor e)) in let* s' := lift (add_event s ix x) in ret (false, (s', ix))) bs (false, (s', ix))).
    apply P. eapply part_map; [|reflexivity]. apply reads_part_of. destruct H as (H1 & H2 & H3 & H4 & H5 & ->). unfold b_tremor.
    rb. rb. rb. rb. rb. apply reads_ret_eq. destruct x; reflexivity.
Qed.

Lemma aside_reads ty bs s ix : aside ty bs -> reads_part (b_chunk ty (s, ix)) bs (false, (s, ix)).
Proof.
  unfold aside. destruct (N.eqb_spec ty 61440) as [->|N1].
  { intros (n & x & b1 & H1 & H2 & ->). apply reads_part_of. change (reads (let* _ := read_uint in let* _ := read_line false in ret (false, (s, ix))) (le_enc 4 n ++ b1) (false, (s, ix))).
    rb. rb. apply reads_ret. }
  destruct (N.eqb_spec ty 61696) as [->|N2].
  { intros (d & pad & x & b1 & H1 & H2 & H3 & ->). apply reads_part_of. change (reads (let* _ := date_load in let* _ := read_line false in ret (false, (s, ix))) (date_bytes d pad ++ b1) (false, (s, ix))).
    eapply reads_bind; [apply date_any; assumption|]. cbv beta. rb. apply reads_ret. }
  destruct (N.eqb_spec ty 62880) as [->|N3].
  { intros (n & H1 & ->). apply reads_part_of. change (reads (let* _ := read_uint in ret (false, (s, ix))) (le_enc 4 n) (false, (s, ix))).
    rb. apply reads_ret. }
  intros H. unfold b_chunk. cbn [In meant] in H.
  repeat match goal with |- context [if ty =? ?k then _ else _] =>
    replace (ty =? k) with false by (symmetry; apply N.eqb_neq; intros ->; first [congruence | apply H; vm_compute; tauto]) end.
  apply reads_part_ret.
Qed.

Ltac rh H := let b1 := fresh "hb" in let b2 := fresh "hb" in let fl := fresh "fl" in let b3 := fresh "hb" in let b4 := fresh "hb" in
  destruct H as (? & ? & ? & b1 & b2 & fl & b3 & b4 & ? & ? & ?Hfl & ? & ? & ->).

(** After a command the index is that of the last animation. *)
Definition index_of (s : mscript) : N := u32 (len (ms_animations s) + (2 ^ 32 - 1)).
Lemma command_reads k ty bs s : command_layout k ty bs -> len (ms_animations s) < 2 ^ 32 ->
  reads_part (b_chunk ty (s, index_of s)) bs
    (false, (script_over s [match k with CAni a _ => CAni a [] | _ => k end], index_of (script_over s [k]))).
Proof.
  intros H Hl. destruct k; cbn [command_layout] in H; destruct H as [-> H].
  - destruct H as (n & b1 & H1 & H2 & ->). destruct (truth_reads _ _ H1) as [H3 H4]. apply reads_part_of.
    change (reads (let* d := read_uint in let* n := read_line false in ret (false, (with_skeleton s (mkMdsSkel n (negb (d =? 0))), index_of s)))
      (le_enc 4 n ++ b1) (false, (script_over s [CSkeleton k], index_of (script_over s [CSkeleton k])))).
    eapply reads_bind; [exact H3|]. cbv beta. rb. rewrite H4. apply reads_ret_eq.
    unfold index_of, script_over, with_skeleton; destruct s, k; cbn; rewrite ?app_nil_r; reflexivity.
  - change (reads_part (let* n := read_line true in ret (false, (push_mesh s n, index_of s))) bs (false, (script_over s [CMesh name], index_of (script_over s [CMesh name])))).
    eapply part_map; [apply lines1; eassumption|]. intros r.
    unfold index_of, script_over, push_mesh; destruct s; cbn; rewrite ?app_nil_r; reflexivity.
  - destruct H as (Hne & H1 & H2 & H3 & H4 & H5 & b1 & dir & b2 & Hh & Hd & H6 & ->). apply reads_part_of.
    change (reads (let* a := b_animation in ret (false, (push_ani s a, u32 (index_of s + 1))))
      (b1 ++ b2 ++ int_bytes (an_first_frame a) ++ int_bytes (an_last_frame a) ++ le_enc 4 (an_fps a) ++ le_enc 4 (an_speed a) ++ le_enc 4 (an_cvs a))
      (false, (script_over s [CAni a []], index_of (script_over s [CAni a evs])))).
    eapply reads_last with (a := a).
    + unfold b_animation. rh Hh. rewrite <- !app_assoc. do 13 rb. apply reads_ret_eq.
      rewrite (flags_say_of _ _ Hfl), (direction_begins _ _ Hd).
      destruct Hne as (N1 & N2 & N3 & N4 & N5 & N6 & N7). destruct a; cbn in *; subst; reflexivity.
    + apply reads_ret_eq. f_equal. f_equal.
      * unfold script_over, push_ani, with_animations. destruct s; cbn. rewrite ?app_nil_r. do 2 f_equal.
        destruct Hne as (N1 & N2 & N3 & N4 & N5 & N6 & N7). destruct a; cbn in *; subst; reflexivity.
      * unfold index_of. cbn [script_over flat_map app ms_animations]. rewrite !len_app. change (len [ani_with a evs]) with 1. unfold u32.
        change (2 ^ 32) with 4294967296 in *. clear - Hl. rewrite N.add_mod_idemp_l by lia. f_equal. lia.
  - destruct H as (b1 & dir & b2 & Hh & Hd & H6 & ->). apply reads_part_of.
    change (reads (let* a := b_alias in ret (false, (push_alias s a, index_of s))) (b1 ++ b2) (false, (script_over s [CAlias a], index_of (script_over s [CAlias a])))).
    eapply reads_last with (a := a).
    + unfold b_alias. rh Hh. rewrite <- !app_assoc. do 8 rb. apply reads_ret_eq.
      rewrite (flags_say_of _ _ Hfl), (direction_begins _ _ Hd). destruct a; reflexivity.
    + apply reads_ret_eq. unfold index_of, script_over, push_alias; destruct s; cbn; rewrite ?app_nil_r; reflexivity.
  - destruct H as (H1 & H2 & b1 & b2 & H3 & H4 & ->). apply reads_part_of.
    change (reads (let* a := b_blend in ret (false, (push_blend s a, index_of s))) (b1 ++ b2 ++ le_enc 4 (bl_blend_in b) ++ le_enc 4 (bl_blend_out b))
      (false, (script_over s [CBlend b], index_of (script_over s [CBlend b])))).
    eapply reads_last with (a := b).
    + unfold b_blend. do 4 rb. apply reads_ret_eq. destruct b; reflexivity.
    + apply reads_ret_eq. unfold index_of, script_over, push_blend; destruct s; cbn; rewrite ?app_nil_r; reflexivity.
  - destruct H as (H1 & b1 & Hh & ->). apply reads_part_of.
    change (reads (let* a := b_combine in ret (false, (push_comb s a, index_of s))) (b1 ++ int_bytes (cb_last_frame c))
      (false, (script_over s [CComb c], index_of (script_over s [CComb c])))).
    eapply reads_last with (a := c).
    + unfold b_combine. rh Hh. rewrite <- !app_assoc. do 8 rb. apply reads_ret_eq.
      rewrite (flags_say_of _ _ Hfl). destruct c; reflexivity.
    + apply reads_ret_eq. unfold index_of, script_over, push_comb; destruct s; cbn; rewrite ?app_nil_r; reflexivity.
  - apply reads_part_of.
    change (reads (let* d := read_line false in ret (false, (push_disabled s d, index_of s))) bs (false, (script_over s [CDisable name], index_of (script_over s [CDisable name])))).
    rb. apply reads_ret_eq. unfold index_of, script_over, push_disabled; destruct s; cbn; rewrite ?app_nil_r; reflexivity.
  - destruct H as (z & x & b1 & b2 & H1 & H2 & H3 & ->).
    change (reads_part (let* t := b_model_tag in ret (false, (push_tag s t, index_of s))) (int_bytes z ++ b1 ++ b2) (false, (script_over s [CTag bone], index_of (script_over s [CTag bone])))).
    eapply part_map with (a := bone).
    + unfold b_model_tag.
      eapply part_bind with (P := fun _ => True); [apply int_reads; eassumption | intros; exact I|].
      eapply part_bind with (P := fun _ => True); [eapply ended_reads; eassumption | intros; exact I|].
      apply lines1; assumption.
    + intros r. unfold index_of, script_over, push_tag; destruct s; cbn; rewrite ?app_nil_r; reflexivity.
Qed.

(** ** Files *)
Lemma with_one a evs e : push_event (ani_with a evs) e = ani_with a (evs ++ [e]).
Proof. destruct e; unfold ani_with, push_event; cbn; rewrite !flat_map_app; cbn; rewrite ?app_nil_r; reflexivity. Qed.
Lemma set_last {A} (l : list A) x y : set_at (l ++ [x]) (length l) y = l ++ [y].
Proof.
  unfold set_at. rewrite firstn_app, Nat.sub_diag, firstn_all. cbn [firstn]. rewrite app_nil_r. f_equal.
  rewrite skipn_all2; [reflexivity|]. rewrite app_length. cbn. lia.
Qed.
Lemma add_last s a evs e : len (ms_animations s) < 2 ^ 32 - 1 ->
  add_event (script_over s [CAni a evs]) (index_of (script_over s [CAni a evs])) e = Ret (script_over s [CAni a (evs ++ [e])]).
Proof.
  intros H. unfold index_of, add_event. cbn [script_over flat_map app ms_animations fold_left]. rewrite len_app. change (len [ani_with a evs]) with 1.
  replace (u32 (len (ms_animations s) + 1 + (2 ^ 32 - 1))) with (len (ms_animations s)).
  2:{ unfold u32. change (2 ^ 32) with 4294967296 in *. clear - H.
      replace (len (ms_animations s) + 1 + (4294967296 - 1)) with (len (ms_animations s) + 1 * 4294967296) by lia.
      rewrite N.mod_add by lia. rewrite N.mod_small by lia. reflexivity. }
  replace (len (ms_animations s) <? len (ms_animations s) + 1) with true by lia.
  replace (N.to_nat (len (ms_animations s))) with (length (ms_animations s)) by (unfold len; lia).
  rewrite nth_error_app2, Nat.sub_diag by lia. cbn [nth_error].
  rewrite set_last, with_one. unfold with_animations, script_over. cbn. reflexivity.
Qed.
Lemma events_run s a evs cs : events_chunks evs cs -> len (ms_animations s) < 2 ^ 32 - 1 -> forall l rest final,
  chunk_runs b_chunk (script_over s [CAni a (l ++ evs)], index_of (script_over s [CAni a (l ++ evs)])) rest final ->
  chunk_runs b_chunk (script_over s [CAni a l], index_of (script_over s [CAni a l])) (cs ++ rest) final.
Proof.
  intros H Hl. induction H as [|c evs cs Hc Ha Hr IH|e c evs cs Hc He Hr IH]; intros l rest final R; cbn [app].
  - rewrite app_nil_r in R. exact R.
  - eapply runs_more; [exact Hc | apply aside_reads, Ha | apply IH, R].
  - eapply runs_more; [exact Hc | eapply event_reads; [exact He|]; apply add_last, Hl|].
    replace (index_of (script_over s [CAni a l])) with (index_of (script_over s [CAni a (l ++ [e])]))
      by (unfold index_of; cbn [script_over flat_map app ms_animations]; rewrite !len_app; reflexivity).
    apply IH. rewrite <- app_assoc. exact R.
Qed.
Lemma asides_run evs cs : events_chunks evs cs -> evs = [] -> forall st rest final,
  chunk_runs b_chunk st rest final -> chunk_runs b_chunk st (cs ++ rest) final.
Proof.
  induction 1 as [|c evs cs Hc Ha Hr IH|]; intros E st rest final R; [exact R | | discriminate].
  cbn [app]. destruct st as [s ix]. eapply runs_more; [exact Hc | apply aside_reads, Ha | apply IH; assumption].
Qed.
Lemma script_run l cs : script_chunks l cs -> forall s, len (ms_animations s) + len l < 2 ^ 32 ->
  chunk_runs b_chunk (s, index_of s) cs (script_over s l, index_of (script_over s l)).
Proof.
  induction 1 as [|c l cs Hc Ha Hr IH|k c evs l cs Hc Hk He Hr IH]; intros s Hs.
  - rewrite script_over_nil. apply runs_none.
  - eapply runs_more; [exact Hc | apply aside_reads, Ha | apply IH, Hs].
  - rewrite len_cons in Hs.
    assert (Hn : len (ms_animations (script_over s [k])) + len l < 2 ^ 32).
    { cbn [script_over ms_animations flat_map]. rewrite len_app, app_nil_r. destruct k; cbn [app]; rewrite ?len_cons, ?len_nil; clear - Hs; lia. }
    specialize (IH (script_over s [k]) Hn).
    assert (E1 : script_over (script_over s [k]) l = script_over s (k :: l)) by apply script_over_step. rewrite E1 in IH.
    pose proof (command_reads k (fst c) (snd c) s Hk ltac:(clear - Hs; lia)) as R.
    eapply runs_more; [exact Hc | exact R|].
    destruct k; try (eapply asides_run; [exact He | reflexivity | exact IH]).
    replace (index_of (script_over s [CAni a evs0])) with (index_of (script_over s [CAni a []]))
      by (unfold index_of; cbn [script_over flat_map app ms_animations]; rewrite !len_app; reflexivity).
    apply (events_run s a evs0 evs He ltac:(clear - Hs; lia) [] cs). exact IH.
Qed.

Lemma mds_load_compiled fuel s l f : compiled_file l f -> ms_animations s = [] -> len f < max_size ->
  of_file (mds_load fuel s) f = Ret (script_over s l).
Proof.
  intros (c & cs & Hc & Hty & -> & Hl) Hs Hm.
  pose proof (script_run l (c :: cs) Hc s ltac:(rewrite Hs; change (len (@nil mds_ani)) with 0; lia)) as R.
  pose proof (file_runs b_chunk (s, index_of s) (c :: cs) _ R ltac:(discriminate) Hm) as E.
  unfold of_file in E |- *. unfold mds_load.
  assert (HC : chunk_ok c) by (clear - R; inversion R; assumption).
  set (D := flat_map chunk_bytes (c :: cs)) in *.
  assert (ED : D = [] ++ le_enc 2 (fst c) ++ (le_enc 4 (len (snd c)) ++ snd c) ++ flat_map chunk_bytes cs)
    by (unfold D; cbn [flat_map app]; unfold chunk_bytes at 1; rewrite <- !app_assoc; reflexivity).
  unfold bind at 1. 
  pose proof (reads_ushort (fst c) (proj1 HC) [] ((le_enc 4 (len (snd c)) ++ snd c) ++ flat_map chunk_bytes cs) I) as E2.
  rewrite <- ED in E2. specialize (E2 Hm). change (len (@nil byte)) with 0 in E2. rewrite len_le_enc in E2. rewrite E2. clear E2.
  assert (L2 : 2 <= len D) by (rewrite ED; lens; lia).
  assert (SK : rd_seek (-2) CUR (mkR D (0 + 2)) = Ret (tt, mkR D 0)).
  { unfold rd_seek, seek_internal. cbn [rdata rpos]. rewrite sint_small by (pows; lia). reflexivity. }
  change (N.of_nat 2) with 2. unfold bind at 1. rewrite SK.
  replace ((61440 <=? fst c) || (fst c =? 53248)) with true by (symmetry; apply orb_true_iff; left; apply N.leb_le; exact Hty).
  unfold mds_binary. cbn [rdata rpos]. cbn [rdata rpos] in E.
  replace (2 ^ 32 - 1) with (index_of s) by (unfold index_of; rewrite Hs; reflexivity).
  unfold bind. destruct (read_chunked _ b_chunk (s, index_of s) (mkR D 0)) as [[x r]|?| |]; try discriminate.
  injection E as ->. reflexivity.
Qed.

(** ** Sources *)
Definition low (c : byte) : bool := b2n c <? 128.
Lemma word_low c : In c word_chars -> low c = true.
Proof.
  assert (E : forallb low word_chars = true) by (vm_compute; reflexivity). rewrite forallb_forall in E. apply E.
Qed.
Lemma start_low c : In c word_starts -> low c = true.
Proof.
  assert (E : forallb low word_starts = true) by (vm_compute; reflexivity). rewrite forallb_forall in E. apply E.
Qed.
Lemma blank_low b : blank b -> match b with [] => True | c :: _ => low c = true end.
Proof.
  destruct 1 as [|c s Hc Hs|t s Ht Hs]; [exact I | | reflexivity].
  assert (E : forallb low (spaces ++ lit "();") = true) by (vm_compute; reflexivity). rewrite forallb_forall in E. apply E, Hc.
Qed.
Lemma source_head l f : source_file l f -> exists c0 c1 g, f = c0 :: c1 :: g /\ low c1 = true.
Proof.
  intros (ts & rest & Hg & Ht). unfold g_script in Hg.
  destruct Hg as (x1 & y1 & (v & -> & S) & _ & ->). cbn [app] in Ht.
  inversion Ht as [|b k v' t l0 g rest' Hb Hlex Hr]; subst. clear Ht Hr.
  inversion Hlex as [c w rest' Hc Hw Hst| | | | | | | |]; subst. clear Hlex Hst.
  assert (W : exists d w', w = d :: w').
  { destruct w as [|d w']; [|eexists; eexists; reflexivity]. exfalso. apply same_spec in S. clear - S.
    apply (f_equal (@length byte)) in S. cbn in S. discriminate. }
  destruct W as (d & w' & ->).
  destruct Hb as [|c0 s Hc0 Hs|t s Ht Hs].
  - exists c, d. eexists. split; [reflexivity|]. apply word_low, Hw. left. reflexivity.
  - pose proof (blank_low s Hs) as B. destruct s as [|c1 s].
    + exists c0, c. eexists. split; [reflexivity|]. apply start_low, Hc.
    + exists c0, c1. eexists. split; [reflexivity | exact B].
  - exists x2f, x2f. eexists. split; reflexivity.
Qed.

Lemma mds_load_source fuel s l f : source_file l f -> Forall command_kept (flat_map top_commands l) -> len f < max_size ->
  (S (length f) < fuel)%nat -> of_file (mds_load fuel s) f = Ret (script_over s (flat_map top_commands l)).
Proof.
  intros Hf Hk Hm Hfu. destruct (source_head l f Hf) as (c0 & c1 & g & E & L). destruct Hf as (ts & rest & Hg & Ht).
  assert (A : at_ f rest ts (mkTk (mkR f 0) 0)).
  { exists [], f. split; [reflexivity|]. split; [reflexivity | exact Ht]. }
  destruct (p_script_ok f fuel rest Hm Hfu l ts s (mkTk (mkR f 0) 0) Hg Hk A) as (t' & R).
  unfold of_file, mds_load.
  assert (Eu : le_enc 2 (b2n c0 + 256 * b2n c1) = [c0; c1]).
  { clear. pose proof (le_enc_dec [c0; c1]) as X. cbn [length le_dec] in X. replace (b2n c0 + 256 * b2n c1) with (b2n c0 + 256 * (b2n c1 + 256 * 0)) by lia. exact X. }
  pose proof (b2n_bound c0) as B0. pose proof (b2n_bound c1) as B1. unfold low in L. apply N.ltb_lt in L.
  assert (H16 : b2n c0 + 256 * b2n c1 < 32768) by lia.
  pose proof (reads_ushort (b2n c0 + 256 * b2n c1) ltac:(change (2 ^ 16) with 65536; lia) [] g I) as E2.
  rewrite Eu in E2. cbn [app] in E2. rewrite <- E in E2. specialize (E2 Hm). change (len (@nil byte)) with 0 in E2. change (len [c0; c1]) with 2 in E2.
  unfold bind at 1. rewrite E2.
  assert (L2 : 2 <= len f) by (rewrite E; rewrite !len_cons; lia).
  assert (SK : rd_seek (-2) CUR (mkR f (0 + 2)) = Ret (tt, mkR f 0)).
  { unfold rd_seek, seek_internal. cbn [rdata rpos]. rewrite sint_small by (pows; lia).
    assert (X : ssize_add (Z.of_N (0 + 2)) (-2) = Ret 0%Z) by (vm_compute; reflexivity). rewrite X. cbn [obind]. change (uint 64 0) with 0.
    destruct (N.ltb_spec (len f) 0); [lia | reflexivity]. }
  unfold bind at 1. rewrite SK.
  replace ((61440 <=? b2n c0 + 256 * b2n c1) || (b2n c0 + 256 * b2n c1 =? 53248)) with false by lia.
  unfold mds_source. rewrite R. reflexivity.
Qed.
