(** Lemmas: loading a saved object of a class gives the same object.  NPCs, cutscenes, materials, way nets and worlds. *)

From Coq Require Import String.
From Verif Require Import MBase MStream SStream LBase LStream LStreamHist MBoxes SBoxes LBoxes MText MClasses MArchive SArchive MVob MVobs MNpc MCutscene MMaterial MWorld SFloat SVob LVob LText LVobC LVobE.
From Verif Require LFloatText.
Local Open Scope N_scope.

Ltac b_or_last l := first [eapply gives_bind; [l | cbn beta iota] | eapply gives_last; [l | cbn beta iota]].

(** ** NPCs *)
Lemma gives_intsi f ph ty fl name l n : n = length l ->
  gives f ph ty fl (p_rep n (p_rd KInt)) (w_numbered name l) l.
Proof.
  intros Hn. pose proof (gives_repi1 f ph ty fl (p_rd KInt) (fun p => WEntry (numbered name (fst p)) (EInt (snd p))) (fun s => s) l n Hn) as H.
  rewrite map_id in H. apply H. intros a i _. apply gives_rd. reflexivity.
Qed.
Definition int_enc (z : Z) : bytes := le_enc 4 (uint 32 z).
Lemma len_ints l : len (flat_map int_enc l) = 4 * len l.
Proof.
  induction l as [|z l IH]; [reflexivity|]. cbn [flat_map]. rewrite len_app, IH, len_cons. unfold int_enc. rewrite len_le_enc. lia.
Qed.
Lemma gives_ints f ph ty fl name l n k : n = length l -> k = 4 * len l -> k < max_size -> Forall int32 l ->
  gives f ph ty fl (p_raw k (repM n read_int)) [wR name (w_ints l)] l.
Proof.
  intros Hn -> Hk Hl. unfold w_ints. rewrite (raw_of_writes _ (flat_map int_enc l)).
  - apply gives_raw; [|apply len_ints | exact Hk]. apply reads_repM; [exact Hn|].
    intros x Hx. apply reads_int. rewrite Forall_forall in Hl. apply (Hl x Hx).
  - apply writes_iter. intros x _. apply writes_int.
  - rewrite len_ints. exact Hk.
Qed.
Lemma gives_vars c f ph ty fl name l : ok_vars c l ->
  gives f ph ty fl (p_vars c) [wR name (w_ints (firstn (N.to_nat (var_count c)) l))] l.
Proof.
  intros (Hn & Hi & Hg). unfold p_vars, var_count.
  assert (Hlen : length (firstn (N.to_nat (if g2 c then 100 else 50)) l) = N.to_nat (if g2 c then 100 else 50))
    by (rewrite firstn_length, Hn; destruct (g2 c); reflexivity).
  eapply gives_last.
  - apply gives_ints.
    + symmetry. exact Hlen.
    + unfold len. rewrite Hlen. destruct (g2 c); reflexivity.
    + destruct (g2 c); reflexivity.
    + apply Forall_forall. intros x Hx. rewrite Forall_forall in Hi. apply Hi.
      rewrite <- (firstn_skipn (N.to_nat (if g2 c then 100 else 50)) l). apply in_or_app. left. exact Hx.
  - apply gives_ret. rewrite <- (firstn_skipn (N.to_nat (if g2 c then 100 else 50)) l) at 2. f_equal.
    destruct (g2 c).
    + change (N.to_nat 100) with 100%nat. rewrite <- Hn. rewrite skipn_all. rewrite Nat.sub_diag. reflexivity.
    + symmetry. apply Hg. reflexivity.
Qed.
Lemma gives_news_list f ph ty fl l n : n = length l -> gives f ph ty fl (p_rep n p_news) (flat_map w_news l) l.
Proof.
  intros ->. rewrite <- (map_id l) at 3. apply gives_rep. intros [x0 x1 x2 x3 x4 x5 x6 x7 x8] _. unfold p_news, w_news.
  cbn [nw_told nw_spread_time nw_spread_type nw_id nw_gossip nw_guild_victim nw_witness nw_offender nw_victim]. repeat g_step.
Qed.
Lemma take_while_stop (p : byte -> bool) l x r : forallb p l = true -> p x = false -> take_while p (l ++ x :: r) = l.
Proof.
  intros H Hx. induction l as [|a l IH]; cbn [app take_while]; [rewrite Hx; reflexivity|].
  cbn [forallb] in H. destruct (p a); [|discriminate]. rewrite IH by exact H. reflexivity.
Qed.
Lemma gives_packed c f ph ty fl l : ok_packed c l -> gives f ph ty fl (p_packed c) (w_packed c l) l.
Proof.
  intros (Hl & Hg). unfold p_packed, w_packed. destruct (g2 c).
  - destruct (Hg eq_refl) as (s & -> & Hs). eapply gives_cons; [apply (gives_rd f ph ty fl KStr); reflexivity|].
    apply gives_ret. unfold unpack. f_equal. unfold pack. cbn [repeat flat_map app]. rewrite <- !app_assoc. cbn [app].
    assert (E : take (len (s ++ [x3b; x3b; x3b; x3b; x3b; x3b; x3b; x3b; x3b]) - 1) (s ++ [x3b; x3b; x3b; x3b; x3b; x3b; x3b; x3b; x3b])
                = s ++ x3b :: [x3b; x3b; x3b; x3b; x3b; x3b; x3b]).
    { replace (s ++ [x3b; x3b; x3b; x3b; x3b; x3b; x3b; x3b; x3b]) with ((s ++ x3b :: [x3b; x3b; x3b; x3b; x3b; x3b; x3b]) ++ [x3b])
        by (rewrite <- app_assoc; reflexivity).
      rewrite len_app. change (len [x3b]) with 1. replace (len (s ++ x3b :: [x3b; x3b; x3b; x3b; x3b; x3b; x3b]) + 1 - 1)
        with (len (s ++ x3b :: [x3b; x3b; x3b; x3b; x3b; x3b; x3b])) by lia. apply take_app_exact. reflexivity. }
    rewrite E. apply take_while_stop; [|reflexivity]. apply forallb_forall. intros x Hx. destruct (beq x x3b) eqn:Eb; [|reflexivity].
    exfalso. apply Hs. apply beq_spec in Eb. subst x. exact Hx.
  - apply gives_strs. unfold len in Hl. lia.
Qed.
Lemma gives_items f ph ty fl fl2 l n : n = length l -> Forall (fun r => refers_to ty r oCItem) l -> Forall (fun r => r <> None) l ->
  (forall r, In (Some r) l -> fl2 r = fl r) ->
  gives f ph ty fl2 (p_rep n p_item) (w_items fl l) (map (option_map ph) l).
Proof.
  intros Hn H1 H2 H3. unfold w_items. apply gives_repi; [exact Hn|].
  intros [r|] i Hr; cbn [fst snd].
  - rewrite Forall_forall in H1. specialize (H1 _ Hr). cbn [refers_to] in H1. intros rest st.
    cbn [app p_item flat option_map]. rewrite H1, otype_eqb_refl, (H3 r Hr). destruct (has_shortcut (fl r)); reflexivity.
  - rewrite Forall_forall in H2. contradiction (H2 _ Hr). reflexivity.
Qed.
Lemma gives_count32 {A} f ph ty fl n (l : list A) : len l < 2 ^ 31 -> gives f ph ty fl p_count32 [wCount n l] (length l).
Proof.
  intros H rest st. unfold p_count32, wCount, wI. cbn [pbind p_rd app flat kmatch]. rewrite sint32_count by exact H.
  cbn [flat]. change (2 ^ 31) with 2147483648 in H. unfold uint. rewrite Z.mod_small by (change (Z.of_N (2 ^ 32)) with 4294967296%Z; lia).
  rewrite N2Z.id. unfold len. rewrite Nnat.Nat2N.id. reflexivity.
Qed.
Lemma gives_slots f ph ty fl l n : n = length l -> Forall (ok_slot ty) l ->
  gives f ph ty fl (p_rep n p_slot) (flat_map w_slot l) (map (map_slot ph) l).
Proof.
  intros -> H. apply gives_rep. intros s Hs. rewrite Forall_forall in H. specialize (H s Hs). destruct s as [u nm it iv].
  destruct H as [Hr Hu]. unfold p_slot, w_slot, map_slot. cbn [sl_used sl_name sl_item sl_in_inventory] in *.
  destruct u; cbn [app].
  - repeat g_step.
  - destruct (Hu eq_refl) as [-> ->]. repeat g_step.
Qed.
Lemma len_length {A} (l : list A) n : len l = n -> length l = N.to_nat n.
Proof. intros <-. unfold len. symmetry. apply Nnat.Nat2N.id. Qed.
Ltac by_len := match goal with H : len ?l = _ |- _ = length ?l => rewrite (len_length l _ H); reflexivity end.
Lemma law_npc c ty fl x : ok_npc c ty fl x -> forall f ph fl2, (forall r, In (Some r) (npc_items x) -> fl2 r = fl r) ->
  gives f ph ty fl2 (load_npc c) (save_npc c fl x) (map_npc ph x).
Proof.
  intros H f ph fl2 Hfl. destruct x as [v0 v1 v2 v3 v4 v5 v6 v7 v8 v9 v10 v11 v12 v13 v14 v15 v16 v17 v18 v19 v20 v21 v22 v23 v24 v25 v26 v27 v28 v29 v30 v31 v32 v33 v34 v35 v36 v37 v38 v39 v40 v41 v42 v43 v44 v45 v46 v47 v48 v49 v50 v51 v52 v53 v54 v55 v56 v57 v58 v59]. unfold ok_npc, load_npc, save_npc, map_npc in *. unfold ok_refs in *; cbn [npc_items] in Hfl; g_cfg c;
  cbn [g2 cf_game cf_save andb app npc_base npc_npc_instance npc_model_scale npc_model_fatness npc_overlays npc_flags npc_guild
    npc_guild_true npc_level npc_xp npc_xp_next_level npc_lp npc_talents npc_fight_tactic npc_fight_mode
    npc_wounded npc_mad npc_mad_time npc_player npc_attributes npc_hit_chance npc_missions
    npc_start_ai_state npc_aivar npc_script_waypoint npc_attitude npc_attitude_temp npc_name_nr npc_news
    npc_carry_vob npc_enemy npc_move_lock npc_packed npc_items npc_slots npc_current_state_valid
    npc_current_state_name npc_current_state_index npc_current_state_is_routine npc_next_state_valid
    npc_next_state_name npc_next_state_index npc_next_state_is_routine npc_last_ai_state npc_has_routine
    npc_routine_changed npc_routine_overlay npc_routine_overlay_count npc_walkmode_routine
    npc_weaponmode_routine npc_start_new_routine npc_ai_state_driven npc_ai_state_pos
    npc_current_routine npc_respawn npc_respawn_time npc_protection npc_bs_interruptable_override
    npc_npc_type npc_spell_mana] in *;
  g_use; subst; g_run_with law_vob ltac:(first [eapply gives_cons; [apply gives_upto; assumption | cbn beta iota] | eapply gives_cons; [apply gives_size; assumption | cbn beta iota] | eapply gives_cons; [apply gives_count32; assumption | cbn beta iota] | b_or_last ltac:(apply gives_strs; reflexivity) | b_or_last ltac:(apply gives_refs; [reflexivity | assumption]) | b_or_last ltac:(apply gives_intsi; by_len) | eapply gives_cons; [apply gives_vars; assumption | cbn beta iota] | b_or_last ltac:(apply gives_news_list; reflexivity) | b_or_last ltac:(apply gives_packed; assumption) | b_or_last ltac:(apply gives_items; [reflexivity | assumption | assumption | exact Hfl]) | b_or_last ltac:(apply gives_slots; [reflexivity | assumption]) | eapply gives_cons; [apply gives_ints; [by_len | match goal with H : len ?l = 8 |- _ = 4 * len ?l => rewrite H; reflexivity end | reflexivity | assumption] | cbn beta iota]]).
Qed.

(** ** Cutscenes *)
Lemma gives_one f ph ty fl : gives f ph ty fl p_one [wI "numOfBlocks" 1; wF "subBlock0" 0] tt.
Proof. intros rest st. reflexivity. Qed.
Lemma gives_sub f ph ty fl s : ok_sub ty s -> gives f ph ty fl p_sub [wO "%" (option_map sb_obj s)] (option_map (map_sub ph) s).
Proof.
  intros (x & -> & H) rest st. destruct x as [a r]. cbn [option_map sb_obj sb_atomic] in *. unfold wO.
  cbn [app p_sub flat]. rewrite H. destruct a; reflexivity.
Qed.
Lemma law_cblock c ty x : ok_cblock c ty x -> forall f ph fl, gives f ph ty fl (load_cblock c) (save_cblock c x) (map_cblock ph x).
Proof.
  intros H f ph fl. destruct x as [n s]. unfold ok_cblock, load_cblock, save_cblock, map_cblock in *. cbn [cblock_name cblock_block app] in *.
  g_step. change (wI "numOfBlocks" 1 :: wF "subBlock0" 0 :: ?l) with ([wI "numOfBlocks" 1; wF "subBlock0" 0] ++ l).
  eapply gives_bind; [apply gives_one|]. eapply gives_last; [apply gives_sub; exact H|]. apply gives_ret. reflexivity.
Qed.
Lemma law_csmanager c ty x : ok_csmanager c ty x -> forall f ph fl, gives f ph ty fl (load_csmanager c) (save_csmanager c x) (map_csmanager ph x).
Proof.
  intros [H1 H2] f ph fl. destruct x as [l]. unfold load_csmanager, save_csmanager, map_csmanager. cbn [csmanager_pool_items] in *.
  g_step. eapply gives_cons; [apply gives_upto; exact H1|]. eapply gives_last; [apply gives_refs; [reflexivity | exact H2]|].
  apply gives_ret. reflexivity.
Qed.
Lemma law_csplayer c ty x : ok_csplayer c ty x -> forall f ph fl, gives f ph ty fl (load_csplayer c) (save_csplayer c x) (map_csplayer ph x).
Proof.
  intros [H1 H2] f ph fl. destruct x as [d h l]. unfold load_csplayer, save_csplayer, map_csplayer.
  cbn [csplayer_last_process_day csplayer_last_process_hour csplayer_playlists app] in *.
  do 3 g_step. eapply gives_cons; [apply gives_upto; exact H1|]. eapply gives_last; [apply gives_refsi; [reflexivity | exact H2]|].
  apply gives_ret. reflexivity.
Qed.

(** ** Cutscene libraries *)
Lemma uncode_n_code s : forall fuel, (length s <= fuel)%nat -> uncode_n fuel (le_dec (s ++ [x01])) = s.
Proof.
  induction s as [|b s IH]; intros fuel Hf.
  - destruct fuel; reflexivity.
  - destruct fuel as [|fuel]; [cbn in Hf; lia|]. cbn [app le_dec uncode_n].
    assert (Hp : 1 <= le_dec (s ++ [x01])) by (clear; induction s as [|a s IH]; cbn [app le_dec]; [cbn; lia | lia]).
    pose proof (b2n_bound b) as Hb. destruct (N.leb_spec (b2n b + 256 * le_dec (s ++ [x01])) 1) as [H|H]; [lia|].
    replace ((b2n b + 256 * le_dec (s ++ [x01])) mod 256) with (b2n b).
    + replace ((b2n b + 256 * le_dec (s ++ [x01])) / 256) with (le_dec (s ++ [x01])).
      * rewrite n2b_b2n, IH by (cbn in Hf; lia). reflexivity.
      * symmetry. rewrite N.add_comm, N.mul_comm, N.div_add_l by lia. rewrite N.div_small by exact Hb. lia.
    + symmetry. rewrite N.add_comm, N.mul_comm, N.add_comm, N.mod_add by lia. apply N.mod_small, Hb.
Qed.
Lemma uncode_code s : uncode (code s) = s.
Proof.
  unfold uncode, code. rewrite N2Z.id. apply uncode_n_code. set (n := le_dec (s ++ [x01])).
  assert (Hge : 2 ^ N.of_nat (length s) <= n).
  { unfold n. clear n. induction s as [|b s IH]; [cbn; lia|]. cbn [app le_dec length]. rewrite Nnat.Nat2N.inj_succ, N.pow_succ_r'. lia. }
  pose proof (N.size_gt n) as Hgt.
  assert (H : N.of_nat (length s) < N.size n) by (apply (N.pow_lt_mono_r_iff 2); lia). lia.
Qed.
Lemma bytes_ltb_trans a : forall b x, bytes_ltb b a = false -> bytes_ltb x b = false -> bytes_ltb x a = false.
Proof.
  induction a as [|h a IH]; intros [|i b] [|j x]; cbn [bytes_ltb]; try reflexivity; try discriminate.
  intros H1 H2. destruct (N.ltb_spec (b2n i) (b2n h)); [discriminate|]. destruct (N.ltb_spec (b2n j) (b2n i)); [discriminate|].
  destruct (N.ltb_spec (b2n j) (b2n h)); [lia|]. cbn [orb] in *.
  destruct (N.eqb_spec (b2n j) (b2n h)); [|reflexivity].
  destruct (N.eqb_spec (b2n i) (b2n h)); [|lia]. destruct (N.eqb_spec (b2n j) (b2n i)); [|lia]. cbn [andb] in *.
  exact (IH b x H1 H2).
Qed.
Lemma in_order_tail a l : in_order (a :: l) -> in_order l.
Proof. destruct l; [intros _; exact I | intros [_ H]; exact H]. Qed.
Lemma in_order_all l : forall a, in_order (a :: l) -> Forall (fun b => bytes_ltb b a = false) l.
Proof.
  induction l as [|b l IH]; intros a H; [constructor|]. destruct H as [H1 H2]. constructor; [exact H1|].
  eapply Forall_impl; [|exact (IH b H2)]. intros x Hx. exact (bytes_ltb_trans a b x H1 Hx).
Qed.
Lemma insert_last {A} (x : bytes * A) l : Forall (fun y => bytes_ltb (fst x) (fst y) = false) l -> insert_block x l = l ++ [x].
Proof. induction 1 as [|y l H _ IH]; cbn [insert_block app]; [reflexivity|]. rewrite H, IH. reflexivity. Qed.
Lemma sort_in_order {A} (l : list (bytes * A)) : in_order (map fst l) -> sort_blocks l = l.
Proof.
  unfold sort_blocks. change l with ([] ++ l) at 3.
  assert (Hp : forall x, In x (@nil (bytes * A)) -> In x (@nil (bytes * A))) by auto.
  assert (Hacc : forall x y, In x (@nil (bytes * A)) -> In y l -> bytes_ltb (fst y) (fst x) = false) by (intros x y []).
  clear Hp. revert Hacc. generalize (@nil (bytes * A)) as acc. induction l as [|a l IH]; intros acc Hacc H; cbn [fold_left].
  - rewrite app_nil_r. reflexivity.
  - rewrite insert_last by (apply Forall_forall; intros y Hy; apply Hacc; [exact Hy | left; reflexivity]).
    rewrite IH; [rewrite <- app_assoc; reflexivity | | exact (in_order_tail _ _ H)].
    intros x y Hx Hy. apply in_app_or in Hx as [Hx|[<-|[]]].
    + apply Hacc; [exact Hx | right; exact Hy].
    + pose proof (in_order_all _ _ H) as Ha. rewrite Forall_forall in Ha. apply Ha. apply in_map, Hy.
Qed.
Lemma law_cslib c ty fl x : ok_cslib c ty fl x -> forall f ph fl2, (forall r, In (Some r) (cslib_blocks x) -> fl2 r = fl r) ->
  gives f ph ty fl2 (load_cslib c) (save_cslib c fl x) (map_cslib ph x).
Proof.
  intros [[H1 H2] (rs & names & Hl & Hn & Ho)] f ph fl2 Hfl. destruct x as [l]. unfold load_cslib, save_cslib, map_cslib.
  cbn [cslib_blocks] in *. subst l. rewrite <- (map_map Some) || idtac.
  g_step. eapply gives_cons; [apply gives_size; exact H1|]. cbn beta. apply gives_assoc.
  assert (Hg : gives f ph ty fl2 (p_rep (length (map Some rs)) p_blk) (map (wO "%") (map Some rs))
                 (map (fun r => match r with Some r => Some (fl r, ph r) | None => None end) (map Some rs))).
  { apply gives_rep1. intros a Ha rest st. rewrite Forall_forall in H2. specialize (H2 a Ha).
    apply in_map_iff in Ha as (r & <- & Hr). cbn [refers_to] in H2. unfold wO. cbn [app p_blk flat].
    rewrite H2, otype_eqb_refl. cbn [flat]. rewrite (Hfl r) by (apply in_map, Hr). reflexivity. }
  eapply gives_last; [exact Hg|]. clear Hg. rewrite map_map.
  assert (Hm : named (map (fun r => Some (fl r, ph r)) rs) = Some (combine names (map ph rs))).
  { clear - Hn. revert names Hn. induction rs as [|r rs IH]; intros [|n names] Hn; cbn [map] in Hn; try discriminate; [reflexivity|].
    injection Hn as Hr Hn. cbn [map named combine]. rewrite (IH names Hn). cbn [option_map]. rewrite Hr, uncode_code. reflexivity. }
  unfold sorted_lib. rewrite Hm. rewrite sort_in_order.
  - cbn [p_lift]. apply gives_pret. apply gives_ret. f_equal. rewrite map_map.
    assert (Hlen : length names = length rs) by (rewrite <- (map_length code names), <- Hn, map_length; reflexivity).
    clear - Hlen. revert names Hlen. induction rs as [|r rs IH]; intros [|n names] Hlen; cbn [length map combine snd option_map] in *; try discriminate; [reflexivity|].
    rewrite IH by congruence. reflexivity.
  - assert (Hlen : length names = length rs) by (rewrite <- (map_length code names), <- Hn, map_length; reflexivity).
    replace (map fst (combine names (map ph rs))) with names; [exact Ho|].
    clear - Hlen. revert names Hlen. induction rs as [|r rs IH]; intros [|n names] Hlen; cbn [length map combine fst] in *; try discriminate; [reflexivity|].
    rewrite <- IH by congruence. reflexivity.
Qed.

(** ** Materials *)
Lemma gives_enum8 f ph ty fl name n : n < 256 -> gives f ph ty fl p_enum8 [wE name n] n.
Proof.
  intros H. unfold p_enum8. eapply gives_last; [apply (gives_rd f ph ty fl KEnum); reflexivity|]. apply gives_ret.
  apply N.mod_small. exact H.
Qed.

(** ** Way nets *)
Section WayNet.
  Variable ph : oid -> oid.
  Variable D : list oid.
  Hypothesis inj : forall a b, In a D -> In b D -> ph a = ph b -> a = b.
  Definition knows (pts : list (option oid * bool)) (es : list (option oid * option oid)) (seen : list oid) : Prop :=
    incl seen D /\ forall a, In a D -> held (Some (ph a)) pts es = existsb (N.eqb a) seen.
  Lemma eqb_ph a b : In a D -> In b D -> (ph a =? ph b) = (a =? b).
  Proof.
    intros Ha Hb. destruct (N.eqb_spec a b) as [->|H]; [apply N.eqb_refl|]. apply N.eqb_neq. intros E. apply H, inj; assumption.
  Qed.
  Lemma existsb_seen a seen : existsb (N.eqb a) seen = true <-> In a seen.
  Proof.
    rewrite existsb_exists. split; [intros (x & H & E); apply N.eqb_eq in E; subst; exact H | intros H; exists a; split; [exact H | apply N.eqb_refl]].
  Qed.
  Lemma knows_point pts es seen l : In l D -> knows pts es seen -> knows (pts ++ [(Some (ph l), false)]) es (l :: seen).
  Proof.
    intros Hl [H0 H]. split; [intros x [<-|Hx]; [exact Hl | apply H0, Hx]|].
    intros a Ha. specialize (H a Ha). unfold held in *. rewrite existsb_app, <- orb_assoc, (orb_comm (existsb _ [_])), orb_assoc, H.
    cbn [existsb fst opt_eqb]. rewrite orb_false_r, eqb_ph by assumption. apply orb_comm.
  Qed.
  Lemma knows_edge pts es seen l r : In l seen -> In r seen -> knows pts es seen -> knows pts (es ++ [(Some (ph l), Some (ph r))]) seen.
  Proof.
    intros Hl Hr [H0 H]. split; [exact H0|].
    intros a Ha. specialize (H a Ha). unfold held in *. rewrite existsb_app, orb_assoc, H. cbn [existsb fst snd opt_eqb].
    rewrite !eqb_ph by (auto). rewrite orb_false_r.
    destruct (N.eqb_spec a l) as [->|]; [apply existsb_seen in Hl; rewrite Hl; reflexivity|].
    destruct (N.eqb_spec a r) as [->|]; [apply existsb_seen in Hr; rewrite Hr; reflexivity|]. rewrite !orb_false_r. reflexivity.
  Qed.
  Definition as_edge (e : oid * oid) : option oid * option oid := (Some (ph (fst e)), Some (ph (snd e))).
  Lemma add_point pts es seen l r : In l D -> In r D -> l <> r -> knows pts es seen -> forall k,
    (if few_users (Some (ph l)) (Some (ph r)) pts es then pts ++ [(Some (ph l), false)] else pts) ++
      map (fun x => (Some (ph x), false)) (firsts (if existsb (N.eqb l) seen then seen else l :: seen) k) =
    pts ++ map (fun x => (Some (ph x), false)) (firsts seen (l :: k)) /\
    knows (if few_users (Some (ph l)) (Some (ph r)) pts es then pts ++ [(Some (ph l), false)] else pts) es
      (if existsb (N.eqb l) seen then seen else l :: seen).
  Proof.
    intros Hl Hr Hne Hk k. unfold few_users. destruct Hk as [H0 H]. rewrite (H l Hl). cbn [opt_eqb]. rewrite eqb_ph by assumption.
    assert (E : (l =? r) = false) by (apply N.eqb_neq; exact Hne). rewrite E. cbn [firsts].
    destruct (existsb (N.eqb l) seen); cbn [negb andb map].
    - split; [reflexivity | split; assumption].
    - split; [rewrite <- app_assoc; reflexivity | apply knows_point; [exact Hl | split; assumption]].
  Qed.
  Lemma add_edges es : forall pts edges seen,
    Forall (fun e => fst e <> snd e /\ In (fst e) D /\ In (snd e) D) es -> knows pts edges seen ->
    fold_left add_edge (map as_edge es) (pts, edges) =
    (pts ++ map (fun x => (Some (ph x), false)) (firsts seen (flat_map (fun e => [fst e; snd e]) es)), edges ++ map as_edge es).
  Proof.
    induction es as [|[l r] es IH]; intros pts edges seen Hes Hk; cbn [map fold_left flat_map firsts fst snd app].
    - rewrite !app_nil_r. reflexivity.
    - inversion Hes as [|? ? (Hne & Hl & Hr) Hes']; subst. cbn [fst snd] in *. unfold as_edge at 2. cbn [add_edge fst snd].
      destruct (add_point pts edges seen l r Hl Hr Hne Hk (r :: flat_map (fun e => [fst e; snd e]) es)) as [E1 K1].
      set (pts1 := if few_users (Some (ph l)) (Some (ph r)) pts edges then pts ++ [(Some (ph l), false)] else pts) in *.
      set (s1 := if existsb (N.eqb l) seen then seen else l :: seen) in *.
      destruct (add_point pts1 edges s1 r l Hr Hl (fun E => Hne (eq_sym E)) K1 (flat_map (fun e => [fst e; snd e]) es)) as [E2 K2].
      set (pts2 := if few_users (Some (ph r)) (Some (ph l)) pts1 edges then pts1 ++ [(Some (ph r), false)] else pts1) in *.
      set (s2 := if existsb (N.eqb r) s1 then s1 else r :: s1) in *.
      assert (Hs1 : In l s1). { unfold s1. destruct (existsb (N.eqb l) seen) eqn:E; [apply existsb_seen, E | left; reflexivity]. }
      assert (Hs2 : In r s2 /\ In l s2).
      { unfold s2. destruct (existsb (N.eqb r) s1) eqn:E; [split; [apply existsb_seen, E | exact Hs1] | split; [left; reflexivity | right; exact Hs1]]. }
      rewrite (IH pts2 (edges ++ [(Some (ph l), Some (ph r))]) s2 Hes' (knows_edge _ _ _ _ _ (proj2 Hs2) (proj1 Hs2) K2)).
      f_equal; [|unfold as_edge at 2; cbn [fst snd]; rewrite <- app_assoc; reflexivity].
      rewrite E2. exact E1.
  Qed.
End WayNet.
Lemma law_waynet c ty x : ok_waynet c ty x -> forall f ph fl,
  (forall a b, In a (flat_map wop_refs (save_waynet c x)) -> In b (flat_map wop_refs (save_waynet c x)) -> ph a = ph b -> a = b) ->
  gives f ph ty fl (load_waynet c) (save_waynet c x) (map_waynet ph x).
Proof.
  intros (free & es & He & Hp & Hne & Hf & Hn & Htf & Hte) f ph fl inj. destruct x as [pts edges].
  unfold load_waynet, save_waynet, map_waynet in *. cbn [waynet_points waynet_edges] in *. subst pts edges.
  set (later := firsts free (flat_map (fun e => [fst e; snd e]) es)) in *.
  assert (E1 : existsb (fun p : option oid * bool => negb (is_some (fst p)))
     (map (fun r => (Some r, true)) free ++ map (fun r => (Some r, false)) later) = false).
  { apply not_true_is_false. intros H. apply existsb_exists in H as (q & Hq & E). apply in_app_or in Hq as [Hq|Hq];
    apply in_map_iff in Hq as (r & <- & _); discriminate. }
  rewrite E1 in *. clear E1.
  assert (E2 : map fst (filter snd (map (fun r : oid => (Some r, true)) free ++ map (fun r : oid => (Some r, false)) later)) = map Some free).
  { rewrite filter_app. replace (filter snd (map (fun r : oid => (Some r, false)) later)) with (@nil (option oid * bool))
      by (clear; induction later; [reflexivity | assumption]).
    rewrite app_nil_r. clear. induction free; [reflexivity|]. cbn [map filter snd fst]. rewrite IHfree. reflexivity. }
  rewrite E2 in *. clear E2. cbv zeta in *.
  set (ops1 := map (fun p : N * option oid => WObj (numbered "waypoint" (fst p)) (snd p)) (indexed 0 (map Some free))) in *.
  set (E := map (fun e : oid * oid => (Some (fst e), Some (snd e))) es) in *.
  set (ops2 := flat_map (fun p : N * (option oid * option oid) => [WObj (numbered "wayl" (fst p)) (fst (snd p)); WObj (numbered "wayr" (fst p)) (snd (snd p))]) (indexed 0 E)) in *.
  set (D := free ++ flat_map (fun e => [fst e; snd e]) es).
  assert (Hinj : forall a b, In a D -> In b D -> ph a = ph b -> a = b).
  { assert (Hin : forall a, In a D -> In a (flat_map wop_refs ([wI "waynetVersion" 1; wCount "numWaypoints" (map Some free)] ++ ops1 ++ [wCount "numWays" E] ++ ops2))).
    { intros a Ha. rewrite flat_map_app. apply in_or_app. right. rewrite flat_map_app. unfold D in Ha. apply in_app_or in Ha as [Ha|Ha]; apply in_or_app; [left|right].
      - unfold ops1. clear - Ha. generalize 0. induction free as [|b free IH]; intros i; [destruct Ha|].
        cbn [map indexed flat_map fst snd wop_refs]. apply in_or_app. destruct Ha as [->|Ha]; [left; left; reflexivity | right; apply IH, Ha].
      - rewrite flat_map_app. apply in_or_app. right. unfold ops2, E. clear - Ha. generalize 0.
        induction es as [|[l r] es IH]; intros i; [destruct Ha|].
        cbn [map indexed flat_map fst snd wop_refs app] in *. destruct Ha as [->|[->|Ha]]; [left; reflexivity | right; left; reflexivity | right; right; apply IH, Ha]. }
    intros a b Ha Hb. apply inj; apply Hin; assumption. }
  assert (L1 : len (map Some free) < 2 ^ 31) by (unfold len in *; rewrite map_length; exact Hf).
  assert (L2 : len E < 2 ^ 31) by (unfold E, len in *; rewrite map_length; exact Hn).
  cbn [app]. g_step. eapply gives_cons; [apply gives_size; exact L1|]. cbn beta iota.
  eapply gives_bind.
  { unfold ops1. apply (gives_repi1 f ph ty fl p_point _ (fun r => (option_map ph r, true)) (map Some free) _ eq_refl).
    intros a i Ha. apply in_map_iff in Ha as (r & <- & Hr). rewrite Forall_forall in Htf. specialize (Htf r Hr).
    intros rest st. unfold p_point. cbn [app pbind p_obj flat fst snd]. rewrite Htf. reflexivity. }
  cbn beta iota. eapply gives_cons; [apply gives_size; exact L2|]. cbn beta iota.
  eapply gives_last.
  { unfold ops2. apply (gives_repi f ph ty fl p_edge _ (fun e => (option_map ph (fst e), option_map ph (snd e))) E _ eq_refl).
    intros a i Ha. apply in_map_iff in Ha as (e & <- & Hr). rewrite Forall_forall in Hte. destruct (Hte e Hr) as [T1 T2].
    cbn [fst snd]. unfold p_edge. repeat g_step. }
  cbn beta iota. unfold E. rewrite !map_map. cbn [fst snd option_map].
  change (fun x : oid * oid => (Some (ph (fst x)), Some (ph (snd x)))) with (as_edge ph).
  rewrite (add_edges ph D Hinj es (map (fun x => (Some (ph x), true)) free) [] free).
  - cbn [app]. apply gives_ret. f_equal. rewrite map_app, !map_map. cbn [fst snd option_map]. reflexivity.
  - apply Forall_forall. intros e Hin. rewrite Forall_forall in Hne. split; [apply Hne, Hin|].
    unfold D. split; apply in_or_app; right; apply in_flat_map; exists e; (split; [exact Hin|]); [left | right; left]; reflexivity.
  - split; [intros a Ha; unfold D; apply in_or_app; left; exact Ha|]. intros a Ha. unfold held. cbn [existsb]. rewrite orb_false_r.
    assert (Hfr : incl free D) by (intros z Hz; unfold D; apply in_or_app; left; exact Hz). clearbody D. clear - Ha Hfr Hinj.
    induction free as [|b free IH]; [reflexivity|].
    assert (E0 : (ph a =? ph b) = (a =? b)) by (apply (eqb_ph ph D Hinj a b Ha); apply Hfr; left; reflexivity).
    specialize (IH (fun z Hz => Hfr z (or_intror Hz))). cbn [map existsb fst opt_eqb] in *. rewrite E0. f_equal. exact IH.
Qed.

(** ** Trees of objects *)
Fixpoint save_trees (l : list vtree) (n : N) : list (wop oid) * N :=
  match l with
  | [] => ([], n)
  | t :: l' => let '(a, n1) := save_tree t n in let '(b, n2) := save_trees l' n1 in (a ++ b, n2)
  end.
Lemma save_tree_eq r l n : save_tree (Tree r l) n =
  (wO "%" (Some r) :: WEntry (numbered "childs" n) (EInt (sint 32 (len l))) :: fst (save_trees l (n + 1)), snd (save_trees l (n + 1))).
Proof.
  cbn [save_tree]. change ((fix go (l0 : list vtree) (n0 : N) {struct l0} : list (wop oid) * N :=
     match l0 with [] => ([], n0) | t :: l' => let '(a, n1) := save_tree t n0 in let '(b, n2) := go l' n1 in (a ++ b, n2) end) l (n + 1))
    with (save_trees l (n + 1)). destruct (save_trees l (n + 1)); reflexivity.
Qed.
Lemma ok_tree_eq ty d r l : ok_tree ty (S d) (Tree r l) <-> is_vobject (ty r) = true /\ len l < 2 ^ 31 /\ Forall (ok_tree ty d) l.
Proof.
  cbn [ok_tree]. split; intros (H1 & H2 & H3); (split; [exact H1|]; split; [exact H2|]); clear - H3.
  - induction l as [|t l IH]; constructor; [apply H3 | apply IH, H3].
  - induction H3; [exact I | split; assumption].
Qed.
Lemma trees_back {A} (g : A -> vtree) l : flat_map (fun o : option vtree => match o with Some t => [t] | None => [] end) (map (fun t => Some (g t)) l) = map g l.
Proof. induction l as [|t l IH]; [reflexivity|]. cbn [map flat_map app]. rewrite IH. reflexivity. Qed.
Lemma gives_tree f ph ty fl d : forall t n, ok_tree ty d t ->
  gives f ph ty fl (p_tree d) (fst (save_tree t n)) (Some (map_tree ph t)).
Proof.
  induction d as [|d IH]; intros [r l] n H; [destruct H|]. apply ok_tree_eq in H as (Hr & Hl & Hall).
  rewrite save_tree_eq. cbn [fst p_tree map_tree]. unfold wO.
  assert (Hsub : forall n, gives f ph ty fl (p_rep (length l) (p_tree d)) (fst (save_trees l n)) (map (fun t => Some (map_tree ph t)) l)).
  { clear - IH Hall. induction Hall as [|t l Ht _ IHl]; intros n; cbn [length p_rep save_trees map]; [apply gives_ret; reflexivity|].
    destruct (save_tree t n) as [a n1] eqn:Ea. destruct (save_trees l n1) as [b n2] eqn:Eb. cbn [fst].
    eapply gives_bind; [specialize (IH t n Ht); rewrite Ea in IH; exact IH|]. cbn beta.
    eapply gives_last; [specialize (IHl n1); rewrite Eb in IHl; exact IHl|]. apply gives_ret. reflexivity. }
  intros rest st. cbn [app flat pbind p_rd kmatch]. rewrite Hr. rewrite sint32_count by exact Hl.
  destruct (Z.ltb_spec (Z.of_N (len l)) 0); [lia|]. replace (Z.to_nat (Z.of_N (len l))) with (length l) by (unfold len; lia).
  rewrite flat_pbind, (Hsub (n + 1)). cbn [flat]. rewrite trees_back. reflexivity.
Qed.

(** ** Worlds *)
(** Like [gives], with the end of the enclosing object in sight. *)
Lemma flat_section c f ph ty fl name ops s s' fuel l st :
  bytes_eqb (lit name) (lit "EndMarker") = false ->
  gives f ph ty fl (p_section c (lit name) s) ops s' ->
  flat f ph ty fl (p_sections c (S fuel) s) ((section name ops :: l) :: st) =
  flat f ph ty fl (p_sections c fuel s') (l :: st).
Proof.
  intros Hn H. cbn [p_sections flat section no_class oh_name]. rewrite Hn. rewrite flat_pbind.
  specialize (H [] (l :: st)). rewrite app_nil_r in H. rewrite H. reflexivity.
Qed.
Lemma flat_marker c f ph ty fl s fuel l st :
  flat f ph ty fl (p_sections c (S fuel) s) ((section "EndMarker" [] :: l) :: st) = Some (s, l :: st).
Proof. reflexivity. Qed.
Lemma law_world c ty x : ok_world c ty x -> forall f ph fl, gives f ph ty fl (load_world c) (save_world c x) (map_world ph x).
Proof.
  intros (Hsv & Hg & Hd & Hv & Hts & Hw & Hp & Hs & [Hnp Hnt] & Hsp & Hst & Hfl) f ph fl. destruct x as [vobs way player sky npcs spawns en flags].
  unfold load_world, p_tail, save_world, map_world. cbn [world_vobs world_way_net world_player world_sky world_npcs world_spawns world_spawn_enabled world_spawn_flags] in *.
  rewrite Hsv, Hg. subst flags. cbn [app].
  set (tail := map (fun p : N * option oid => WObj (numbered "npc" (fst p)) (snd p)) (indexed 0 npcs) ++
     wCount "NoOfEntries" spawns :: flat_map (fun s => [wO "npc" (sp_npc s); wV3 "spawnPos" (sp_position s); wF "timer" (sp_timer s)]) spawns ++ [wB "spawningEnabled" en]).
  assert (Htail : gives f ph ty fl
    (do n <- p_size ; do npcs <- p_rep n (p_obj oCNpc) ; do m <- p_size ; do spawns <- p_rep m p_spawn ; do enabled <- p_rd KBool ;
     do flags <- PRet 0%Z ; PRet (npcs, spawns, enabled, flags))%p (wCount "npcCount" npcs :: tail)
    (map (option_map ph) npcs, map (fun s => mkSpawn (option_map ph (sp_npc s)) (sp_position s) (sp_timer s)) spawns, en, 0%Z)).
  { eapply gives_cons; [apply gives_size; exact Hnp|]. cbn beta. unfold tail.
    eapply gives_bind; [apply gives_refsi; [reflexivity | exact Hnt]|]. cbn beta.
    eapply gives_cons; [apply gives_size; exact Hsp|]. cbn beta.
    eapply gives_bind.
    { apply gives_rep. intros s Hin. rewrite Forall_forall in Hst. specialize (Hst s Hin). unfold p_spawn. repeat g_step. }
    cbn beta. repeat g_step. }
  intros rest st. rewrite flat_pbind. destruct (cf_depth c) as [|[|[|[|[|[|d]]]]]] eqn:Ed; try lia. rewrite <- Ed in Hts. clear Hd.
  assert (Hlist : gives f ph ty fl (p_section c (lit "VobTree") (mkSects [] None None None))
            (wCount "childs0" vobs :: flat_map (fun t => fst (save_tree t 0)) vobs) (mkSects (map (map_tree ph) vobs) None None None)).
  { change (p_section c (lit "VobTree") (mkSects [] None None None)) with
      (do n <- p_upto ; do l <- p_rep n (p_tree (cf_depth c)) ;
       PRet (mkSects ([] ++ flat_map (fun o => match o with Some t => [t] | None => [] end) l) None None None))%p.
    eapply gives_cons; [apply gives_upto; exact Hv|]. cbn beta. eapply gives_last.
    - apply (gives_rep f ph ty fl (p_tree (cf_depth c)) (fun t => fst (save_tree t 0)) (fun t => Some (map_tree ph t))).
      intros t Ht. apply gives_tree. rewrite Forall_forall in Hts. apply Hts, Ht.
    - apply gives_ret. cbn [app]. rewrite trees_back. reflexivity. }
  set (V := map (map_tree ph) vobs) in *.
  assert (Hplayer : forall s, gives f ph ty fl (p_section c (lit "CutscenePlayer") s) [wO "%" player] (mkSects (ss_vobs s) (ss_way s) (option_map ph player) (ss_sky s))).
  { intros s. change (p_section c (lit "CutscenePlayer") s) with (do r <- p_obj oCCSPlayer ; PRet (mkSects (ss_vobs s) (ss_way s) r (ss_sky s)))%p. repeat g_step. }
  assert (Hsky : forall s, gives f ph ty fl (p_section c (lit "SkyCtrl") s) [wO "%" sky] (mkSects (ss_vobs s) (ss_way s) (ss_player s) (option_map ph sky))).
  { intros s. change (p_section c (lit "SkyCtrl") s) with (do r <- p_obj zCSkyControler_Outdoor ; PRet (mkSects (ss_vobs s) (ss_way s) (ss_player s) r))%p. repeat g_step. }
  assert (Hway : forall s, gives f ph ty fl (p_section c (lit "WayNet") s) [wO "%" way] (mkSects (ss_vobs s) (option_map ph way) (ss_player s) (ss_sky s))).
  { intros s. change (p_section c (lit "WayNet") s) with (do r <- p_obj zCWayNet ; PRet (mkSects (ss_vobs s) r (ss_player s) (ss_sky s)))%p. repeat g_step. }
  assert (Hend : forall k s, flat f ph ty fl (p_sections c (S (S k)) s)
     ((section "WayNet" [wO "%" way] :: section "EndMarker" [] :: (wCount "npcCount" npcs :: tail) ++ rest) :: st) =
     Some (mkSects (ss_vobs s) (option_map ph way) (ss_player s) (ss_sky s), ((wCount "npcCount" npcs :: tail) ++ rest) :: st)).
  { intros k s. rewrite (flat_section c f ph ty fl "WayNet" _ s _ _ _ _ eq_refl (Hway s)). apply flat_marker. }
  change ((section "VobTree" (wCount "childs0" vobs :: flat_map (fun t => fst (save_tree t 0)) vobs)
    :: ((if is_some player then [section "CutscenePlayer" [wO "%" player]] else []) ++
        (if is_some sky then [section "SkyCtrl" [wO "%" sky]] else [])) ++
       section "WayNet" [wO "%" way] :: section "EndMarker" [] :: wCount "npcCount" npcs :: tail) ++ rest)
    with (section "VobTree" (wCount "childs0" vobs :: flat_map (fun t => fst (save_tree t 0)) vobs)
    :: (((if is_some player then [section "CutscenePlayer" [wO "%" player]] else []) ++
        (if is_some sky then [section "SkyCtrl" [wO "%" sky]] else [])) ++
       section "WayNet" [wO "%" way] :: section "EndMarker" [] :: wCount "npcCount" npcs :: tail) ++ rest).
  rewrite (flat_section c f ph ty fl "VobTree" _ _ _ _ _ _ eq_refl Hlist).
  rewrite <- app_assoc.
  change ((section "WayNet" [wO "%" way] :: section "EndMarker" [] :: wCount "npcCount" npcs :: tail) ++ rest)
    with (section "WayNet" [wO "%" way] :: section "EndMarker" [] :: (wCount "npcCount" npcs :: tail) ++ rest).
  assert (Hall : flat f ph ty fl (p_sections c (S (S (S (S (S d))))) (mkSects V None None None))
    ((((if is_some player then [section "CutscenePlayer" [wO "%" player]] else []) ++
        (if is_some sky then [section "SkyCtrl" [wO "%" sky]] else [])) ++
       section "WayNet" [wO "%" way] :: section "EndMarker" [] :: (wCount "npcCount" npcs :: tail) ++ rest) :: st) =
    Some (mkSects V (option_map ph way) (option_map ph player) (option_map ph sky), ((wCount "npcCount" npcs :: tail) ++ rest) :: st)).
  { destruct player as [pl|]; cbn [is_some app].
    - rewrite (flat_section c f ph ty fl "CutscenePlayer" _ _ _ _ _ _ eq_refl (Hplayer _)).
      destruct sky as [sk|]; cbn [is_some app].
      + rewrite (flat_section c f ph ty fl "SkyCtrl" _ _ _ _ _ _ eq_refl (Hsky _)). rewrite Hend. reflexivity.
      + rewrite Hend. reflexivity.
    - destruct sky as [sk|]; cbn [is_some app].
      + rewrite (flat_section c f ph ty fl "SkyCtrl" _ _ _ _ _ _ eq_refl (Hsky _)). rewrite Hend. reflexivity.
      + rewrite Hend. reflexivity. }
  rewrite Hall. cbv beta iota. rewrite flat_pbind.
  pose proof (Htail rest st) as Ht. lazymatch type of Ht with _ = ?r => lazymatch goal with |- match ?t with _ => _ end = _ =>
    replace t with r by (symmetry; exact Ht) end end. reflexivity.
Qed.
Lemma law_cscontext c ty x : ok_cscontext c ty x -> forall f ph fl, gives f ph ty fl (load_cscontext c) (save_cscontext c x) (map_cscontext ph x).
Proof.
  intros H f ph fl. destruct x as [v0 v1 v2 v3 v4 v5 v6 v7 v8 v9 v10 v11]. unfold ok_cscontext, load_cscontext, save_cscontext, map_cscontext in *. g_cfg c;
  cbn [g2 cf_game cf_save andb app cscontext_base cscontext_props cscontext_role_count cscontext_role_vob_count cscontext_npc
    cscontext_main_role cscontext_is_cutscene cscontext_reference cscontext_actual_block
    cscontext_alt_stage cscontext_stage cscontext_was_triggered] in *;
  g_use; subst; g_run_with law_cblock ltac:(fail).
Qed.
Lemma law_material c ty x : ok_mat c ty x -> forall f ph fl, gives f ph ty fl (load_material c) (save_material c x) (map_material ph x).
Proof.
  intros H f ph fl. destruct x as [v0 v1 v2 v3 v4 v5 v6 v7 v8 v9 v10 v11 v12 v13 v14 v15 v16 v17 v18 v19 v20 v21 v22 v23]. unfold ok_material, load_material, save_material, map_material, ok_mat, ok_material in *. g_cfg c;
  cbn [g2 cf_game cf_save andb app material_name material_group material_color material_smooth_angle material_texture
    material_texture_scale material_texture_anim_fps material_texture_anim_map_mode
    material_texture_anim_map_dir material_disable_collision material_disable_lightmap
    material_dont_collapse material_detail_object material_detail_object_scale material_force_occluder
    material_environment_mapping material_environment_mapping_strength material_wave_mode
    material_wave_speed material_wave_max_amplitude material_wave_grid_size material_ignore_sun
    material_alpha_func material_default_mapping] in *;
  g_use; subst; repeat match goal with H : finite_vec2 _ = true |- _ => apply LFloatText.finite_vec2_read in H end; g_run_with I ltac:(first [discriminate | eapply gives_cons; [apply gives_enum8; assumption | cbn beta iota] | progress (repeat match goal with H : text_vec2 _ = _ |- _ => rewrite !H end)]). all: reflexivity.
Qed.
