(** Model script sources: the parser reads back every script of the grammar. *)

From Coq Require Import Lia ZifyN ZifyBool ZifyNat.
From Verif Require Import MBase MStream SStream MBoxes SBoxes SFormat MText MVfs SVfs MScript SScript LBase LStream LVfs LText LMds.
Local Open Scope N_scope.
Local Open Scope m_scope.

(* ------------------------------------------------------------------ *)
(** ** Numbers *)
Lemma is_int_scan s v z rest : scan_int s = Some (z, rest) -> int32 z ->
  is_int (mkIs s false false) v = (z, mkIs rest (match rest with [] => true | _ => false end) false).
Proof.
  unfold scan_int, is_int, int32. cbn [is_eof is_fail is_rest orb]. intros H Hz.
  destruct (drop_while MText.is_ws s) as [|c s1]; [discriminate|].
  destruct (scan_sign (c :: s1)) as [neg s2].
  destruct (take_while is_digit s2) as [|d ds]; [discriminate|].
  injection H as <- <-.
  set (n := (if neg then _ else _)%Z) in *.
  destruct (Z.ltb_spec n (- 2 ^ 31)); [lia|]. destruct (Z.leb_spec (2 ^ 31) n); [lia|]. reflexivity.
Qed.

Lemma frames_ok l : l <> [] -> Forall int32 l -> forall sp fuel b v, sp = [] \/ sp = [x20] -> (length l <= fuel)%nat ->
  frame_list fuel b (mkIs (sp ++ frames_text l) false false) v = Ret l.
Proof.
  induction l as [|z l IH]; intros Hne Hl sp fuel b v Hsp Hf; [congruence|]. clear Hne.
  apply Forall_cons_iff in Hl. destruct Hl as [Hz Hl].
  destruct fuel as [|fuel]; [cbn in Hf; lia|].
  set (tail := match l with [] => [] | _ => x20 :: frames_text l end).
  assert (E : frames_text (z :: l) = decz z ++ tail) by (unfold tail; destruct l; [cbn; rewrite app_nil_r|]; reflexivity).
  assert (S : scan_int (sp ++ frames_text (z :: l)) = Some (z, tail)).
  { rewrite E. destruct Hsp as [-> | ->]; cbn [app]; [|rewrite scan_int_ws]; apply scan_int_decz; unfold tail; destruct l; [exact I | reflexivity | exact I | reflexivity]. }
  cbn [frame_list is_eof is_fail]. rewrite Bool.andb_false_r. cbn [orb].
  rewrite (is_int_scan _ v z tail S Hz).
  destruct l as [|z' l'].
  - cbn [tail]. destruct fuel; reflexivity.
  - unfold tail. change (x20 :: frames_text (z' :: l')) with ([x20] ++ frames_text (z' :: l')).
    cbn [app]. change (x20 :: frames_text (z' :: l')) with ([x20] ++ frames_text (z' :: l')).
    rewrite (IH ltac:(discriminate) Hl [x20] fuel b z ltac:(right; reflexivity) ltac:(cbn in *; lia)). reflexivity.
Qed.
Lemma frames_len l : (length l <= S (length (frames_text l)))%nat.
Proof.
  induction l as [|z l IH]; [cbn; lia|]. destruct l as [|z' l']; [cbn; lia|].
  change (frames_text (z :: z' :: l')) with (decz z ++ x20 :: frames_text (z' :: l')).
  rewrite app_length. cbn [length]. cbn [length] in IH. lia.
Qed.
Lemma frames_of_text l b v : l <> [] -> Forall int32 l ->
  frame_list (S (length (frames_text l))) b (is_of (frames_text l)) v = Ret l.
Proof.
  intros H1 H2. apply (frames_ok l H1 H2 []); [left; reflexivity | apply frames_len].
Qed.

(** ** Words *)
Lemma iequals_same v w x : same v w = true -> iequals v x = iequals w x.
Proof.
  intros H. apply same_spec in H.
  destruct (iequals w x) eqn:E.
  - apply iequals_lower in E. apply iequals_lower. congruence.
  - apply Bool.not_true_is_false. intros E'. apply iequals_lower in E'.
    assert (iequals w x = true) by (apply iequals_lower; congruence). congruence.
Qed.

Lemma event_type_name name ty : In (name, ty) tag_names -> event_type name = ty.
Proof.
  intros H. assert (E : Forall (fun p => event_type (fst p) = snd p) tag_names).
  { repeat (apply Forall_cons; [vm_compute; reflexivity|]). apply Forall_nil. }
  rewrite Forall_forall in E. apply (E _ H).
Qed.
Lemma fight_mode_name a m : In (a, m) fight_modes -> fight_mode a = m.
Proof.
  intros H. assert (E : Forall (fun p => fight_mode (fst p) = snd p) fight_modes).
  { repeat (apply Forall_cons; [vm_compute; reflexivity|]). apply Forall_nil. }
  rewrite Forall_forall in E. apply (E _ H).
Qed.

(** ** Flags *)
Definition flag_bits : list N := [0; 1; 2; 3; 4; 5].
Lemma flags_of_app a c : flags_of (a ++ [c]) = N.lor (flags_of a) (flag_of c).
Proof. unfold flags_of. rewrite fold_left_app. reflexivity. Qed.
Lemma flag_of_bit c i : N.testbit (flag_of c) i = existsb (fun p => beq c (fst p) && (snd p =? 2 ^ i)) flag_letters.
Proof.
  destruct (N.le_gt_cases 6 i) as [Hi|Hi].
  - transitivity false.
    + unfold flag_of. repeat match goal with |- context [if ?b then _ else _] => destruct b end;
        (apply N.bits_above_log2; match goal with |- N.log2 ?x < _ => let y := eval vm_compute in (N.log2 x) in change (N.log2 x) with y end; lia).
    + symmetry. assert (P : 64 <= 2 ^ i) by (change 64 with (2 ^ 6); apply N.pow_le_mono_r; lia).
      unfold flag_letters. cbn [existsb fst snd].
      repeat match goal with |- context [?x =? 2 ^ i] => replace (x =? 2 ^ i) with false by (symmetry; apply N.eqb_neq; lia) end.
      rewrite !Bool.andb_false_r. reflexivity.
  - assert (C : i = 0 \/ i = 1 \/ i = 2 \/ i = 3 \/ i = 4 \/ i = 5) by lia.
    destruct C as [->|[->|[->|[->|[->| ->]]]]]; destruct c; reflexivity.
Qed.
Lemma flags_of_bit s i : N.testbit (flags_of s) i = existsb (fun c => N.testbit (flag_of c) i) s.
Proof.
  induction s as [|c s IH] using rev_ind; [apply N.bits_0|].
  rewrite flags_of_app, N.lor_spec, IH, existsb_app. cbn [existsb]. rewrite Bool.orb_false_r. reflexivity.
Qed.
Lemma land_pow2 f i : N.land f (2 ^ i) = 2 ^ i <-> N.testbit f i = true.
Proof.
  split; intros H.
  - assert (E : N.testbit (N.land f (2 ^ i)) i = true) by (rewrite H; apply N.pow2_bits_true).
    rewrite N.land_spec in E. apply andb_prop in E. apply E.
  - apply N.bits_inj. intros j. rewrite N.land_spec. destruct (N.eq_dec i j) as [<-|Hj].
    + rewrite N.pow2_bits_true, H. reflexivity.
    + rewrite N.pow2_bits_false by assumption. apply Bool.andb_false_r.
Qed.
Lemma flags_say_of v f : flags_say v f -> flags_of v = f.
Proof.
  intros [Hf Hb]. apply N.bits_inj. intros i.
  destruct (N.le_gt_cases 6 i) as [Hi|Hi].
  - transitivity false.
    + rewrite flags_of_bit. apply Bool.not_true_is_false. intros E. apply existsb_exists in E. destruct E as (c & _ & E).
      rewrite flag_of_bit in E. apply existsb_exists in E. destruct E as ([c' b] & Hin & E). cbn [fst snd] in E.
      apply andb_prop in E. destruct E as [_ E]. apply N.eqb_eq in E.
      assert (P : 64 <= 2 ^ i) by (change 64 with (2 ^ 6); apply N.pow_le_mono_r; lia).
      cbn in Hin. repeat (destruct Hin as [Hin|Hin]; [injection Hin as <- <-; lia|]). contradiction.
    + symmetry. destruct (N.eq_dec f 0) as [->|Hz]; [apply N.bits_0|].
      apply N.bits_above_log2. assert (N.log2 f < 6) by (apply N.log2_lt_pow2; [lia | exact Hf]). lia.
  - assert (In (nth (N.to_nat i) [x4d; x52; x45; x46; x49; x50] x00, 2 ^ i) flag_letters) as Hin.
    { assert (C : i = 0 \/ i = 1 \/ i = 2 \/ i = 3 \/ i = 4 \/ i = 5) by lia. unfold flag_letters.
      destruct C as [->|[->|[->|[->|[->| ->]]]]]; cbn; tauto. }
    set (c0 := nth _ _ _) in *. specialize (Hb c0 (2 ^ i) Hin). rewrite land_pow2 in Hb.
    rewrite flags_of_bit. apply Bool.eq_iff_eq_true. rewrite Hb. rewrite existsb_exists. split.
    + intros (c & Hc & E). rewrite flag_of_bit in E. apply existsb_exists in E. destruct E as ([c' b] & Hin' & E). cbn [fst snd] in E.
      apply andb_prop in E. destruct E as [E1 E2]. apply beq_spec in E1. apply N.eqb_eq in E2. subst c' b.
      assert (c0 = c) as ->; [|assumption].
      assert (C : i = 0 \/ i = 1 \/ i = 2 \/ i = 3 \/ i = 4 \/ i = 5) by lia. subst c0.
      destruct C as [->|[->|[->|[->|[->| ->]]]]]; cbn in Hin' |- *;
        repeat (destruct Hin' as [Hin'|Hin']; [injection Hin' as <-; try discriminate; reflexivity|]); contradiction.
    + intros Hc. exists c0. split; [assumption|]. rewrite flag_of_bit. apply existsb_exists. exists (c0, 2 ^ i).
      split; [assumption|]. cbn [fst snd]. rewrite beq_refl, N.eqb_refl. reflexivity.
Qed.

(* ------------------------------------------------------------------ *)
(** * Running over tokens *)
Section Parse.
Variable D : bytes.
Variable F : nat.
Variable rest : bytes.
Hypothesis HD : len D < max_size.
Hypothesis HF : (S (length D) < F)%nat.

Definition at_ (l : toks) (t : tks) : Prop :=
  exists pre g, tk_r t = mkR D (len pre) /\ D = pre ++ g /\ text_of l g rest.

Lemma at_next k v l t : at_ ((k, v) :: l) t ->
  exists t', tk_next F t = Ret ((k, v), t') /\ at_ l t' /\ (exists t'', tk_backtrack t' = Ret (tt, t'') /\ at_ ((k, v) :: l) t'').
Proof using HD HF rest.
  intros (pre & g & Er & ED & H). destruct t as [r m]. cbn [tk_r] in Er. subst r.
  inversion H as [|b k0 v0 t0 l0 g0 rest0 Hb Hlex Hg]; subst k0 v0 l0 rest0 g.
  assert (L : (length D = length pre + (length b + (length t0 + length g0)))%nat) by (rewrite ED at 1; rewrite !app_length; reflexivity).
  destruct (blank_at D HD b Hb F pre (t0 ++ g0) m ltac:(lia) ED) as (f' & m' & Hf' & R).
  destruct f' as [|f']; [lia|].
  assert (E2 : D = (pre ++ b) ++ t0 ++ g0) by (rewrite ED; apps).
  pose proof (lexeme_next D HD k v t0 g0 Hlex f' (pre ++ b) m' ltac:(lia) E2) as R2.
  exists (mkTk (mkR D (len ((pre ++ b) ++ t0))) (len (pre ++ b))). split; [rewrite R; exact R2|]. split.
  - exists ((pre ++ b) ++ t0), g0. split; [reflexivity|]. split; [rewrite ED; apps | assumption].
  - exists (mkTk (mkR D (len (pre ++ b))) (len (pre ++ b))). split.
    + unfold tk_backtrack, on_r. cbn [tk_r tk_mark]. rewrite rd_seek_beg; [reflexivity | | assumption].
      rewrite E2, !len_app. clear. lia.
    + exists (pre ++ b), (t0 ++ g0). split; [reflexivity|]. split; [assumption|].
      change (t0 ++ g0) with ([] ++ t0 ++ g0). apply text_cons; [apply blank_nil | assumption | assumption].
Qed.

Lemma lexeme_nonempty k v t g : lexeme k v t g -> exists c t', t = c :: t'.
Proof using Type.
  destruct 1; try (eexists; eexists; reflexivity).
  - destruct neg; cbn; [eexists; eexists; reflexivity|]. destruct ds; [congruence | eexists; eexists; reflexivity].
  - destruct neg; cbn; [eexists; eexists; reflexivity|]. destruct ds; [congruence | eexists; eexists; reflexivity].
Qed.
Lemma at_not_eof x l t : at_ (x :: l) t -> on_r rd_eof t = Ret (false, t).
Proof using HD.
  intros (pre & g & Er & ED & H). destruct t as [r m]. cbn [tk_r] in Er. subst r.
  inversion H as [|b k v t0 l0 g0 rest0 Hb Hlex Hg]. subst x l0 rest0 g.
  destruct (lexeme_nonempty _ _ _ _ Hlex) as (c & t' & ->).
  destruct b as [|d b]; cbn [app] in ED; apply (not_eof D HD _ _ _ m ED).
Qed.
Lemma at_len l t : at_ l t -> (length l <= length D)%nat.
Proof using Type.
  clear HD HF. intros (pre & g & _ & ED & H). rewrite ED, app_length. clear ED. induction H as [|b k v t0 l g rest' Hb Hlex Hg IH]; [cbn; lia|].
  destruct (lexeme_nonempty _ _ _ _ Hlex) as (c & t' & ->). rewrite !app_length. cbn [length] in *. lia.
Qed.

(** [m], started at [t], gives [a] and stops at the tokens [l']. *)
Definition goes {A} (m : M tks A) (t : tks) (a : A) (l' : toks) : Prop := exists t', m t = Ret (a, t') /\ at_ l' t'.

Lemma goes_ret {A} (a : A) l t : at_ l t -> goes (ret a) t a l.
Proof using Type. intros H. exists t. split; [reflexivity | assumption]. Qed.
Lemma goes_bind {A B} (m : M tks A) (k : A -> M tks B) a b l1 l2 t :
  goes m t a l1 -> (forall t', at_ l1 t' -> goes (k a) t' b l2) -> goes (bind m k) t b l2.
Proof using Type.
  intros (t' & E & H) K. destruct (K t' H) as (t'' & E' & H'). exists t''. split; [|assumption].
  unfold bind. rewrite E. assumption.
Qed.
Lemma goes_eq {A} (m : M tks A) t a a' l : goes m t a l -> a = a' -> goes m t a' l.
Proof using Type. intros H <-. assumption. Qed.
Lemma goes_uncaught {A} (o : outcome A) a l t : o = Ret a -> at_ l t -> goes (uncaught o) t a l.
Proof using Type. intros -> H. exists t. split; [reflexivity | assumption]. Qed.

Definition head_not (k : token) (l : toks) : Prop := match l with (k', _) :: _ => k' <> k | [] => False end.
Definition not_word (w : bytes) (l : toks) : Prop :=
  match l with (TKeyword, v) :: _ => iequals v w = false | _ :: _ => True | [] => False end.

Lemma token_eqb_spec a b : token_eqb a b = true <-> a = b.
Proof using Type. destruct a, b; cbn; split; congruence. Qed.

Lemma maybe_hit k v l t : at_ ((k, v) :: l) t -> goes (p_maybe F k) t (Some v) l.
Proof using HD HF rest.
  intros H. destruct (at_next k v l t H) as (t' & E & H' & _). exists t'. split; [|assumption].
  unfold p_maybe, bind. rewrite E. cbn [fst snd]. replace (token_eqb k k) with true by (symmetry; apply token_eqb_spec; reflexivity).
  reflexivity.
Qed.
Lemma maybe_miss k l t : head_not k l -> at_ l t -> goes (p_maybe F k) t None l.
Proof using HD HF rest.
  destruct l as [|[k' v] l]; [contradiction|]. intros Hk H. cbn [head_not] in Hk.
  destruct (at_next k' v l t H) as (t' & E & _ & t'' & E' & H'). exists t''. split; [|assumption].
  unfold p_maybe, bind. rewrite E. cbn [fst snd].
  replace (token_eqb k' k) with false by (symmetry; apply Bool.not_true_is_false; rewrite token_eqb_spec; assumption).
  rewrite E'. reflexivity.
Qed.
Lemma expect_hit k v l t : at_ ((k, v) :: l) t -> goes (p_expect F k) t v l.
Proof using HD HF rest.
  intros H. unfold p_expect. eapply goes_bind; [apply maybe_hit; eassumption|]. intros t' H'. apply goes_ret. assumption.
Qed.
Lemma word_hit v w l t : same v w = true -> at_ ((TKeyword, v) :: l) t -> goes (p_maybe_word F w) t true l.
Proof using HD HF rest.
  intros E H. unfold p_maybe_word. eapply goes_bind; [apply maybe_hit; eassumption|]. intros t' H'. cbv beta iota.
  replace (iequals v w) with true by (symmetry; apply iequals_lower, same_spec; assumption). apply goes_ret. assumption.
Qed.
Lemma word_miss w l t : not_word w l -> at_ l t -> goes (p_maybe_word F w) t false l.
Proof using HD HF rest.
  intros Hw H. destruct l as [|[k v] l]; [contradiction|]. unfold p_maybe_word.
  destruct (token_eqb k TKeyword) eqn:Ek.
  - apply token_eqb_spec in Ek. subst k. cbn [not_word] in Hw.
    destruct (at_next TKeyword v l t H) as (t' & E & _ & t'' & E' & H'). exists t''. split; [|assumption].
    unfold p_maybe, bind. rewrite E. cbn [fst snd token_eqb]. unfold ret at 1. rewrite Hw. rewrite E'. reflexivity.
  - eapply goes_bind; [apply maybe_miss with (l := (k, v) :: l); [|assumption]|].
    + cbn. intros ->. discriminate.
    + intros t' H'. apply goes_ret. assumption.
Qed.
Lemma int_hit v z l t : stoi v = Ret z -> at_ ((TInteger, v) :: l) t -> goes (p_expect_int F) t z l.
Proof using HD HF rest.
  intros E H. unfold p_expect_int. eapply goes_bind; [apply expect_hit; eassumption|]. intros t' H'. apply goes_uncaught; assumption.
Qed.
Lemma mint_hit v z l t : stoi v = Ret z -> at_ ((TInteger, v) :: l) t -> goes (p_maybe_int F) t (Some z) l.
Proof using HD HF rest.
  intros E H. unfold p_maybe_int. eapply goes_bind; [apply maybe_hit; eassumption|]. intros t' H'. cbv beta iota.
  eapply goes_bind; [apply goes_uncaught; eassumption|]. intros t2 H2. apply goes_ret. assumption.
Qed.
Lemma mint_miss l t : head_not TInteger l -> at_ l t -> goes (p_maybe_int F) t None l.
Proof using HD HF rest.
  intros E H. unfold p_maybe_int. eapply goes_bind; [apply maybe_miss; eassumption|]. intros t' H'. apply goes_ret. assumption.
Qed.
Lemma mnum_hit k v x l t : k = TInteger \/ k = TFloat -> stof v = Ret x -> at_ ((k, v) :: l) t -> goes (p_maybe_number F) t (Some x) l.
Proof using HD HF rest.
  intros Hk E H. destruct (at_next k v l t H) as (t' & E1 & H' & _). exists t'. split; [|assumption].
  unfold p_maybe_number, bind. rewrite E1. cbn [fst snd]. destruct Hk; subst k; unfold uncaught; rewrite E; reflexivity.
Qed.
Lemma mnum_miss l t : head_not TInteger l -> head_not TFloat l -> at_ l t -> goes (p_maybe_number F) t None l.
Proof using HD HF rest.
  destruct l as [|[k' v] l]; [contradiction|]. intros H1 H2 H. cbn [head_not] in H1, H2.
  destruct (at_next k' v l t H) as (t' & E & _ & t'' & E' & H'). exists t''. split; [|assumption].
  unfold p_maybe_number, bind. rewrite E. cbn [fst snd]. destruct k'; try congruence; rewrite E'; reflexivity.
Qed.
Lemma num_hit k v x l t : k = TInteger \/ k = TFloat -> stof v = Ret x -> at_ ((k, v) :: l) t -> goes (p_expect_number F) t x l.
Proof using HD HF rest.
  intros Hk E H. unfold p_expect_number. eapply goes_bind; [eapply mnum_hit; eassumption|]. intros t' H'. apply goes_ret. assumption.
Qed.
Lemma flags_colon v f u l t : flags_say v f -> at_ ((TKeyword, v) :: (TColon, u) :: l) t -> goes (p_expect_flags F) t f l.
Proof using HD HF rest.
  intros E H. unfold p_expect_flags. eapply goes_bind; [apply expect_hit; eassumption|]. intros t' H'.
  eapply goes_bind; [apply maybe_hit; eassumption|]. intros t2 H2. eapply goes_eq; [apply goes_ret; assumption|].
  apply flags_say_of. assumption.
Qed.
Lemma flags_plain v f l t : flags_say v f -> head_not TColon l -> at_ ((TKeyword, v) :: l) t -> goes (p_expect_flags F) t f l.
Proof using HD HF rest.
  intros E Hc H. unfold p_expect_flags. eapply goes_bind; [apply expect_hit; eassumption|]. intros t' H'.
  eapply goes_bind; [apply maybe_miss; eassumption|]. intros t2 H2. eapply goes_eq; [apply goes_ret; assumption|].
  apply flags_say_of. assumption.
Qed.
Lemma named_hit w v u k n x l t : same v w = true -> k = TInteger \/ k = TFloat -> stof n = Ret x ->
  at_ ((TKeyword, v) :: (TColon, u) :: (k, n) :: l) t -> goes (p_maybe_named F w) t (Some x) l.
Proof using HD HF rest.
  intros E Hk En H. unfold p_maybe_named. eapply goes_bind; [eapply word_hit; eassumption|]. intros t' H'. cbv beta iota.
  eapply goes_bind; [apply expect_hit; eassumption|]. intros t2 H2.
  eapply goes_bind; [eapply num_hit; eassumption|]. intros t3 H3. apply goes_ret. assumption.
Qed.
Lemma named_miss w l t : not_word w l -> at_ l t -> goes (p_maybe_named F w) t None l.
Proof using HD HF rest.
  intros E H. unfold p_maybe_named. eapply goes_bind; [eapply word_miss; eassumption|]. intros t' H'. apply goes_ret. assumption.
Qed.

Lemma block_more k v l t : k <> TRbrace -> k <> TEof -> at_ ((k, v) :: l) t -> goes (p_block_end F) t false ((k, v) :: l).
Proof using HD HF rest.
  intros H1 H2 H. unfold p_block_end. eapply goes_bind; [apply maybe_miss with (l := (k, v) :: l); [exact H1 | eassumption]|].
  intros t' H'. cbv beta iota. eapply goes_bind; [apply maybe_miss with (l := (k, v) :: l); [exact H2 | eassumption]|].
  intros t2 H3. apply goes_ret. assumption.
Qed.
Lemma block_closed v l t : at_ ((TRbrace, v) :: l) t -> goes (p_block_end F) t true l.
Proof using HD HF rest.
  intros H. unfold p_block_end. eapply goes_bind; [apply maybe_hit; eassumption|]. intros t' H'. apply goes_ret. assumption.
Qed.

Lemma ignore_ok l : Forall (fun t => fst t <> TRbrace) l -> forall n u l' t, (length l < n)%nat ->
  at_ (l ++ (TRbrace, u) :: l') t -> goes (p_ignore_block F n) t tt l'.
Proof using HD HF rest.
  induction 1 as [|[k v] l Hk Hl IH]; intros n u l' t Hn H; (destruct n as [|n]; [cbn in Hn; lia|]); cbn [p_ignore_block app] in *.
  - destruct (at_next _ _ _ _ H) as (t' & E & H' & _). exists t'. split; [|assumption]. unfold bind. rewrite E. reflexivity.
  - destruct (at_next _ _ _ _ H) as (t' & E & H' & _). cbn [fst] in Hk.
    destruct (IH n u l' t' ltac:(cbn in Hn; lia) H') as (t2 & E2 & H2). exists t2. split; [|assumption].
    unfold bind. rewrite E. cbn [fst]. destruct k; congruence.
Qed.
Lemma skipped_ok l : skipped l -> forall l' t, at_ (l ++ l') t ->
  goes (let* b := p_maybe F TLbrace in (match b with Some _ => p_ignore_block F F | None => ret tt end)) t tt l'.
Proof using HD HF rest.
  intros (a & b & (u & ->) & (c & d & Hc & (w & ->) & ->) & ->) l' t H. cbn [app] in H.
  eapply goes_bind; [apply maybe_hit; eassumption|]. intros t' H'. cbv beta iota.
  rewrite <- app_assoc in H'. cbn [app] in H'. pose proof (at_len _ _ H') as L. rewrite app_length in L.
  eapply ignore_ok; [exact Hc | lia | exact H'].
Qed.
Lemma unskipped_ok l' t : head_not TLbrace l' -> at_ l' t ->
  goes (let* b := p_maybe F TLbrace in (match b with Some _ => p_ignore_block F F | None => ret tt end)) t tt l'.
Proof using HD HF rest.
  intros Hl H. eapply goes_bind; [apply maybe_miss; eassumption|]. intros t' H'. apply goes_ret. assumption.
Qed.

(** What follows a command or event. *)
Definition reserved : list bytes :=
  [lit "ATTACH"; lit "R"; lit "F"; lit "EMPTY_SLOT"; lit "EMTPY_SLOT"; lit "FPS"; lit "CVS"; lit "DONT_USE_MESH"].
Definition bword (v : bytes) : bool := forallb (fun w => negb (iequals v w)) reserved.
Definition bnd (l : toks) : Prop :=
  match l with (TRbrace, _) :: _ => True | (TKeyword, v) :: _ => bword v = true | _ => False end.
Lemma bword_same v w : same v w = true -> bword v = bword w.
Proof using Type.
  intros H. unfold bword. induction reserved as [|x l IH]; [reflexivity|]. cbn [forallb]. rewrite IH, (iequals_same v w x H). reflexivity.
Qed.
Lemma bnd_not_word w l : bnd l -> In w reserved -> not_word w l.
Proof using Type.
  destruct l as [|[[] v] l]; cbn [bnd not_word]; try contradiction; [|trivial].
  intros H Hw. unfold bword in H. rewrite forallb_forall in H. specialize (H w Hw). apply negb_true_iff. assumption.
Qed.
Lemma bnd_head k l : bnd l -> k <> TKeyword -> k <> TRbrace -> head_not k l.
Proof using Type. destruct l as [|[[] v] l]; cbn; try contradiction; congruence. Qed.

(* ------------------------------------------------------------------ *)
(** * Events *)
Lemma goes_at {A} (m : M tks A) t a l l0 : l0 = l -> goes m t a l0 -> goes m t a l.
Proof using Type. intros ->. trivial. Qed.

Ltac side :=
  first
    [ exact I
    | cbn [head_not]; discriminate
    | cbn [not_word]; match goal with S : same ?v _ = true |- iequals ?v _ = false => rewrite (iequals_same _ _ _ S); reflexivity end
    | apply bnd_head; [assumption | discriminate | discriminate]
    | apply bnd_not_word; [assumption | cbn [In reserved]; tauto] ].
Ltac prim :=
  first
    [ eapply expect_hit; eassumption
    | eapply maybe_hit; eassumption
    | eapply maybe_miss; [|eassumption]; side
    | eapply word_hit; [|eassumption]; eassumption
    | eapply word_miss; [|eassumption]; side
    | eapply int_hit; [|eassumption]; eassumption
    | eapply mint_hit; [|eassumption]; eassumption
    | eapply mint_miss; [|eassumption]; side
    | eapply mnum_hit; [| |eassumption]; eassumption
    | eapply mnum_miss; [| |eassumption]; side
    | eapply num_hit; [| |eassumption]; eassumption
    | eapply named_hit; [| | |eassumption]; eassumption
    | eapply named_miss; [|eassumption]; side
    | eapply flags_colon; [|eassumption]; eassumption
    | eapply flags_plain; [| |eassumption]; [eassumption | side] ].
Ltac gstep := eapply goes_bind; [prim | let t := fresh "t" in let H := fresh "H" in intros t H; cbv beta iota].
Ltac gsteps := repeat gstep.
(** Open up membership in the grammar. *)
Ltac open_l :=
  repeat match goal with
  | H : cat _ _ _ |- _ => let a := fresh "a" in let b := fresh "b" in let E := fresh "E" in destruct H as (a & b & H & ? & E); subst
  | H : word _ _ |- _ => let v := fresh "v" in destruct H as (v & -> & H)
  | H : str _ _ |- _ => unfold str in H; subst
  | H : int _ _ |- _ => let v := fresh "v" in destruct H as (v & -> & H)
  | H : num _ _ |- _ => let k := fresh "k" in let v := fresh "v" in destruct H as (k & v & -> & ? & H)
  | H : tok _ _ |- _ => let v := fresh "v" in destruct H as (v & ->)
  | H : nothing _ |- _ => unfold nothing in H; subst
  | H : given _ _ _ |- _ => destruct H as [? H]
  | H : strs _ _ |- _ => unfold strs in H; subst
  | H : named _ _ _ _ |- _ => unfold named in H
  | H : default_int _ _ |- _ => unfold default_int in H
  | H : either _ _ _ |- _ => destruct H as [H|H]
  end.

Lemma tag_made fr name ty args att : In (name, ty) tag_names -> args_fit ty args -> ~ args_dropped ty ->
  make_event_tag fr name (nth_error (arg_texts args) 0) (nth_error (arg_texts args) 1) att = Ret (tag_value fr ty args att).
Proof using Type.
  intros Hn Hf Hd. unfold make_event_tag. rewrite (event_type_name _ _ Hn).
  destruct ty; cbn in Hf, Hd; try tauto; destruct args; try contradiction; try reflexivity;
    try (cbn [arg_texts nth_error opt_text]; rewrite frames_of_text by apply Hf; reflexivity);
    cbn [arg_texts nth_error opt_text tag_value]; rewrite (fight_mode_name _ _ Hf); reflexivity.
Qed.

Ltac start := cbn [app] in *; rewrite <- ?app_assoc in *; cbn [app] in *.
Ltac finish := eapply goes_eq; [apply goes_ret; eassumption|].

Lemma p_eventTag_ok tg l : g_tag tg l -> ~ args_dropped (tg_type tg) ->
  exists kw l1, l = (TKeyword, kw) :: l1 /\ same kw (lit "*eventTag") = true /\
    forall l' t, bnd l' -> at_ (l1 ++ l') t -> goes (p_eventTag F) t tg l'.
Proof using HD HF rest.
  intros (name & args & Hn & Hf & Ev & H) Hd. open_l.
  all: match goal with S : same ?kw (lit "*eventTag") = true |- _ => exists kw; eexists; split; [reflexivity|]; split; [exact S|] end.
  all: intros l' t Hb Ht; start.
  all: pose proof (tag_made (tg_frame tg) name (tg_type tg) args (tg_attached tg) Hn Hf Hd) as Mk; rewrite <- Ev in Mk.
  all: unfold p_eventTag; gstep; gstep.
  all: destruct (tg_attached tg) eqn:Ea; cbn [when] in *; open_l.
  all: try match goal with Hz : _ = 0%Z |- _ => rewrite Hz in Mk end.
  all: destruct args; cbn [arg_texts map app nth_error] in *; gsteps; cbn [opt_or];
    (eapply goes_uncaught; [exact Mk | assumption]).
Qed.

Lemma p_event_ok e l : g_event e l -> event_kept e ->
  exists kw l1 p, l = (TKeyword, kw) :: l1 /\ bword kw = true /\ p_event F kw = Some p /\
    forall l' t, bnd l' -> at_ (l1 ++ l') t -> goes p t e l'.
Proof using HD HF rest.
  intros H Hk. destruct e as [e|e|e|e|e|e|e]; cbn [g_event event_kept] in H, Hk.
  - destruct (p_eventTag_ok e l H Hk) as (kw & l1 & -> & S & R). exists kw, l1. eexists.
    split; [reflexivity|]. split; [rewrite (bword_same _ _ S); reflexivity|].
    split; [unfold p_event; rewrite !(iequals_same _ _ _ S); reflexivity|].
    intros l' t Hb Ht. eapply goes_bind; [apply R; eassumption|]. intros t' Ht'. apply goes_ret. assumption.
  - destruct (px_attached e) eqn:Ea; cbn [when] in H; open_l.
    all: match goal with S : same ?kw (lit "*eventPFX") = true |- _ => exists kw; eexists; eexists; split; [reflexivity|];
      split; [rewrite (bword_same _ _ S); reflexivity|]; split; [unfold p_event; rewrite !(iequals_same _ _ _ S); reflexivity|] end.
    all: intros l' t Hb Ht; start; unfold p_eventPFX.
    all: (eapply goes_bind; [| intros t' Ht'; apply goes_ret; exact Ht']).
    all: gsteps.
    all: try (eapply goes_bind; [apply goes_ret; eassumption | intros ? ?]).
    all: try (eapply goes_bind; [eapply goes_bind; [prim | intros ? ?; cbv beta iota; apply goes_ret; eassumption] | intros ? ?; cbv beta iota]).
    all: finish; destruct e; cbn in *; subst; reflexivity.
  - open_l.
    all: match goal with S : same ?kw (lit "*eventPFXStop") = true |- _ => exists kw; eexists; eexists; split; [reflexivity|];
      split; [rewrite (bword_same _ _ S); reflexivity|]; split; [unfold p_event; rewrite !(iequals_same _ _ _ S); reflexivity|] end.
    intros l' t Hb Ht; start; unfold p_eventPFXStop.
    eapply goes_bind; [| intros t' Ht'; apply goes_ret; exact Ht'].
    gsteps. finish; destruct e; cbn in *; subst; reflexivity.
  - destruct (sx_empty_slot e) eqn:Ea; cbn [when] in H; open_l.
    all: match goal with S : same ?kw (lit "*eventSFX") = true |- _ => exists kw; eexists; eexists; split; [reflexivity|];
      split; [rewrite (bword_same _ _ S); reflexivity|]; split; [unfold p_event; rewrite !(iequals_same _ _ _ S); reflexivity|] end.
    all: intros l' t Hb Ht; start; unfold p_eventSFX.
    all: (eapply goes_bind; [| intros t' Ht'; apply goes_ret; exact Ht']).
    all: gsteps.
    all: try (eapply goes_bind; [apply goes_ret; eassumption | intros ? ?]).
    all: finish; destruct e; cbn in *; subst; reflexivity.
  - rewrite Hk in H. cbn [when] in H. open_l.
    all: match goal with S : same ?kw (lit "*eventSFXGrnd") = true |- _ => exists kw; eexists; eexists; split; [reflexivity|];
      split; [rewrite (bword_same _ _ S); reflexivity|]; split; [unfold p_event; rewrite !(iequals_same _ _ _ S); reflexivity|] end.
    intros l' t Hb Ht; start; unfold p_eventSFXGrnd.
    eapply goes_bind; [| intros t' Ht'; apply goes_ret; exact Ht'].
    gsteps. finish; destruct e; cbn in *; subst; reflexivity.
  - open_l.
    all: match goal with S : same ?kw (lit "*eventMMStartAni") = true |- _ => exists kw; eexists; eexists; split; [reflexivity|];
      split; [rewrite (bword_same _ _ S); reflexivity|]; split; [unfold p_event; rewrite !(iequals_same _ _ _ S); reflexivity|] end.
    all: intros l' t Hb Ht; start; unfold p_eventMMStartAni.
    all: (eapply goes_bind; [| intros t' Ht'; apply goes_ret; exact Ht']).
    all: gsteps; finish; destruct e; cbn in *; subst; reflexivity.
  - open_l.
    all: match goal with S : same ?kw (lit "*eventCamTremor") = true |- _ => exists kw; eexists; eexists; split; [reflexivity|];
      split; [rewrite (bword_same _ _ S); reflexivity|]; split; [unfold p_event; rewrite !(iequals_same _ _ _ S); reflexivity|] end.
    all: intros l' t Hb Ht; start; unfold p_eventCamTremor.
    all: (eapply goes_bind; [| intros t' Ht'; apply goes_ret; exact Ht']).
    all: gsteps; finish; destruct e; cbn in *; subst; reflexivity.
Qed.

Lemma push_events_ani evs : forall a, fold_left push_event evs a =
  mkMdsAni (an_name a) (an_layer a) (an_next a) (an_blend_in a) (an_blend_out a) (an_flags a) (an_model a) (an_backward a)
    (an_first_frame a) (an_last_frame a) (an_fps a) (an_speed a) (an_cvs a)
    (an_events a ++ an_events (ani_with a evs)) (an_pfx a ++ an_pfx (ani_with a evs)) (an_pfx_stop a ++ an_pfx_stop (ani_with a evs))
    (an_sfx a ++ an_sfx (ani_with a evs)) (an_sfx_ground a ++ an_sfx_ground (ani_with a evs))
    (an_morph a ++ an_morph (ani_with a evs)) (an_tremors a ++ an_tremors (ani_with a evs)).
Proof using Type.
  clear. induction evs as [|e evs IH]; intros a; cbn [fold_left].
  - destruct a; cbn. rewrite !app_nil_r. reflexivity.
  - rewrite IH. destruct a, e; cbn; rewrite <- ?app_assoc; reflexivity.
Qed.
Lemma push_events_with a evs : no_events a -> fold_left push_event evs a = ani_with a evs.
Proof using Type.
  clear. intros (H1 & H2 & H3 & H4 & H5 & H6 & H7). rewrite push_events_ani, H1, H2, H3, H4, H5, H6, H7. reflexivity.
Qed.

(** A command follows that is no event. *)
Definition other_word (l : toks) : Prop :=
  match l with (TKeyword, v) :: _ => bword v = true /\ p_event F v = None | _ => False end.

Lemma events_bnd evs l l' : g_events evs l -> Forall event_kept evs -> bnd l' -> bnd (l ++ l').
Proof using HD HF rest.
  destruct evs as [|e evs]; cbn [g_events]; intros H Hk Hb.
  - unfold nothing in H. subst. assumption.
  - destruct H as (a & b & He & _ & ->). apply Forall_cons_iff in Hk. destruct Hk as [Hk _].
    destruct (p_event_ok e a He Hk) as (kw & l1 & p & -> & B & _). cbn. assumption.
Qed.

Lemma p_events_closed evs : forall l n a u l' t, g_events evs l -> Forall event_kept evs -> (length evs < n)%nat ->
  at_ (l ++ (TRbrace, u) :: l') t -> goes (p_events F n a) t (fold_left push_event evs a) l'.
Proof using HD HF rest.
  induction evs as [|e evs IH]; intros l n a u l' t H Hk Hn Ht; (destruct n as [|n]; [cbn in Hn; lia|]); cbn [p_events].
  - cbn [g_events] in H. unfold nothing in H. subst l. cbn [app] in Ht.
    unfold goes, bind at 1. rewrite (at_not_eof _ _ _ Ht).
    eapply goes_bind; [eapply block_closed; eassumption|]. intros t1 H1. cbn [fold_left]. apply goes_ret. assumption.
  - cbn [g_events] in H. destruct H as (x & y & He & Hes & ->).
    apply Forall_cons_iff in Hk. destruct Hk as [Hk Hks].
    destruct (p_event_ok e x He Hk) as (kw & l1 & p & -> & B & Ep & R).
    rewrite <- !app_assoc in Ht. cbn [app] in Ht.
    unfold goes, bind at 1. rewrite (at_not_eof _ _ _ Ht).
    eapply goes_bind; [eapply block_more; [| |eassumption]; discriminate|]. intros t1 H1. cbv beta iota.
    eapply goes_bind; [eapply expect_hit; eassumption|]. intros t2 H2. rewrite Ep.
    eapply goes_bind; [apply R; [|exact H2]|].
    + apply (events_bnd evs); [assumption | assumption | exact I].
    + intros t3 H3. cbn [fold_left]. eapply IH; [eassumption | assumption | cbn in Hn; lia | eassumption].
Qed.
Lemma p_events_open evs : forall l n a l' t, g_events evs l -> Forall event_kept evs -> (length evs < n)%nat -> other_word l' ->
  at_ (l ++ l') t -> goes (p_events F n a) t (fold_left push_event evs a) l'.
Proof using HD HF rest.
  induction evs as [|e evs IH]; intros l n a l' t H Hk Hn Ho Ht; (destruct n as [|n]; [cbn in Hn; lia|]); cbn [p_events].
  - cbn [g_events] in H. unfold nothing in H. subst l. cbn [app] in Ht.
    destruct l' as [|[[] v] l']; cbn [other_word] in Ho; try contradiction. destruct Ho as [B Ho].
    unfold goes, bind at 1. rewrite (at_not_eof _ _ _ Ht).
    eapply goes_bind; [eapply block_more; [| |eassumption]; discriminate|]. intros t1 H1. cbv beta iota.
    destruct (at_next _ _ _ _ H1) as (t2 & E & _ & t3 & E' & H').
    exists t3. split; [|assumption]. cbn [fold_left].
    unfold p_expect, p_maybe, bind. rewrite E. cbn [fst snd token_eqb]. unfold ret. rewrite Ho, E'. reflexivity.
  - cbn [g_events] in H. destruct H as (x & y & He & Hes & ->).
    apply Forall_cons_iff in Hk. destruct Hk as [Hk Hks].
    destruct (p_event_ok e x He Hk) as (kw & l1 & p & -> & B & Ep & R).
    rewrite <- !app_assoc in Ht. cbn [app] in Ht.
    unfold goes, bind at 1. rewrite (at_not_eof _ _ _ Ht).
    eapply goes_bind; [eapply block_more; [| |eassumption]; discriminate|]. intros t1 H1. cbv beta iota.
    eapply goes_bind; [eapply expect_hit; eassumption|]. intros t2 H2. rewrite Ep.
    eapply goes_bind; [apply R; [|exact H2]|].
    + apply (events_bnd evs); [assumption | assumption |].
      destruct l' as [|[[] v] l']; cbn [other_word] in Ho; try contradiction. cbn. apply Ho.
    + intros t3 H3. cbn [fold_left]. eapply IH; [eassumption | assumption | cbn in Hn; lia | assumption | eassumption].
Qed.
Lemma events_count evs : forall l, g_events evs l -> Forall event_kept evs -> (length evs <= length l)%nat.
Proof using HD HF rest.
  induction evs as [|e evs IH]; intros l H Hk; [cbn; lia|].
  cbn [g_events] in H. destruct H as (x & y & He & Hes & ->).
  apply Forall_cons_iff in Hk. destruct Hk as [Hk Hks].
  destruct (p_event_ok e x He Hk) as (kw & l1 & p & -> & _). specialize (IH y Hes Hks). cbn [length app]. rewrite app_length. lia.
Qed.

(* ------------------------------------------------------------------ *)
(** * Commands *)
Lemma uint32_layer n z : n = uint 32 z -> uint 32 z = n.
Proof using Type. congruence. Qed.

Definition command_words : list bytes := [lit "ani"; lit "aniBlend"; lit "aniAlias"; lit "aniComb"; lit "aniDisable"; lit "modelTag"].
Lemma command_word w v : In w command_words -> same v w = true -> other_word [(TKeyword, v)].
Proof using Type.
  intros Hw S. cbn [other_word]. rewrite (bword_same _ _ S). unfold p_event. rewrite !(iequals_same _ _ _ S).
  cbn in Hw. repeat (destruct Hw as [<-|Hw]; [split; reflexivity|]). contradiction.
Qed.

(** The condition a command puts on the tokens after it. *)
Definition follow (n : need) (l : toks) : Prop :=
  bnd l /\ match n with
           | NAny => True
           | NMore => other_word l
           | NLower => match l with (TKeyword, v) :: _ => low_word v = true | _ => True end
           end.

Lemma layer_hit n l l' t : layer n l -> at_ (l ++ l') t -> exists z, uint 32 z = n /\ goes (p_expect_int F) t z l'.
Proof using HD HF rest.
  intros (z & (v & -> & E) & ->) H. exists z. split; [reflexivity|]. eapply int_hit; eassumption.
Qed.
Lemma flags_hit f l l' t : flags f l -> head_not TColon l' -> at_ (l ++ l') t -> goes (p_expect_flags F) t f l'.
Proof using HD HF rest.
  intros (v & Hv & (a & b & -> & Hb & ->)) Hc H. destruct Hb as [Hb|[u ->]].
  - unfold nothing in Hb. subst b. eapply flags_plain; eassumption.
  - cbn [app] in H. eapply flags_colon; eassumption.
Qed.

(** The seven items common to animations, aliases and combinations. *)
Definition p_header {A} (k : bytes -> Z -> bytes -> N -> N -> N -> bytes -> M tks A) : M tks A :=
  let* name := p_expect F TString in
  let* layer := p_expect_int F in
  let* next := p_expect F TString in
  let* bi := p_expect_number F in
  let* bo := p_expect_number F in
  let* fl := p_expect_flags F in
  let* model := p_expect F TString in
  k name layer next bi bo fl model.
Lemma header_ok {A} (k : bytes -> Z -> bytes -> N -> N -> N -> bytes -> M tks A) name lay next bi bo fl model l l' l2 t a :
  header name lay next bi bo fl model l -> at_ (l ++ l') t ->
  (forall z t', uint 32 z = lay -> at_ l' t' -> goes (k name z next bi bo fl model) t' a l2) -> goes (p_header k) t a l2.
Proof using HD HF rest.
  intros H Ht K. unfold header in H.
  destruct H as (l1 & r1 & H1 & (l3 & r3 & H3 & (l4 & r4 & H4 & (l5 & r5 & H5 & (l6 & r6 & H6 & (l7 & r7 & H7 & H8 & ->) & ->) & ->) & ->) & ->) & ->).
  unfold str in H1, H4, H8. subst l1 l4 r7. rewrite <- !app_assoc in Ht. cbn [app] in Ht. unfold p_header.
  gstep. destruct (layer_hit _ _ _ _ H3 H) as (z & Ez & G). eapply goes_bind; [exact G|]. intros t2 H2. cbv beta iota.
  gstep. open_l. rewrite <- ?app_assoc in *. cbn [app] in *. gsteps.
  eapply goes_bind; [eapply flags_hit; [exact H7 | | eassumption]; cbn; discriminate|]. intros t6 H'. cbv beta iota.
  gstep. apply K; assumption.
Qed.

Lemma p_ani_ok a evs n l l' t : Forall event_kept evs -> g_command (CAni a evs) n l -> follow n l' ->
  forall kw l1, l = (TKeyword, kw) :: l1 -> at_ (l1 ++ l') t -> goes (p_ani F) t (ani_with a evs) l'.
Proof using HD HF rest.
  intros Hk H Hn kw l1 El Ht. cbn [g_command] in H. destruct H as [[Hne Hsp] H].
  destruct H as (x1 & y1 & (v1 & -> & S1) & (x2 & y2 & Hh & (x3 & y3 & Hdir & (x4 & y4 & H4 & (x5 & y5 & H5 & (x6 & y6 & H6 & (x7 & y7 & H7 & H8 & ->) & ->) & ->) & ->) & ->) & ->) & ->).
  cbn [app] in El. injection El as <- <-. rewrite <- !app_assoc in Ht.
  change (p_ani F) with (p_header (fun name layer next bi bo fl model =>
    let* kw := p_expect F TKeyword in
    (if iequals kw (lit "F") || iequals kw (lit "R") then ret tt else throw ScriptSyntaxError) ;;
    let* first := p_expect_int F in
    let* last := p_expect_int F in
    let* fps := p_maybe_named F (lit "FPS") in
    let* cvs := p_maybe_named F (lit "CVS") in
    p_maybe F TLbrace ;;
    p_events F F (mkMdsAni name (uint 32 layer) next bi bo fl model (iequals kw (lit "R")) first last
                (opt_or fps f_25) 0 (opt_or cvs f_1) [] [] [] [] [] [] []))).
  eapply header_ok; [exact Hh | exact Ht|]. intros z t1 Ez H1.
  assert (Hd : exists v, x3 = [(TKeyword, v)] /\ iequals v (lit "F") || iequals v (lit "R") = true /\ iequals v (lit "R") = an_backward a).
  { destruct (an_backward a); destruct Hdir as (v & -> & Sv); exists v; (split; [reflexivity|]); rewrite !(iequals_same _ _ _ Sv); split; reflexivity. }
  destruct Hd as (v & -> & Dv & Bv). cbn [app] in H1.
  gstep. rewrite Dv, Bv. eapply goes_bind; [apply goes_ret; eassumption|]. intros t3 H3. cbv beta iota.
  destruct H4 as (w4 & -> & E4), H5 as (w5 & -> & E5). cbn [app] in H3. gstep. gstep.
  assert (Fe : forall fps cvs, opt_or fps f_25 = an_fps a -> opt_or cvs f_1 = an_cvs a ->
    forall t5, at_ (y7 ++ l') t5 -> goes (p_maybe F TLbrace ;;
      p_events F F (mkMdsAni (an_name a) (uint 32 z) (an_next a) (an_blend_in a) (an_blend_out a) (an_flags a) (an_model a)
        (an_backward a) (an_first_frame a) (an_last_frame a) (opt_or fps f_25) 0 (opt_or cvs f_1) [] [] [] [] [] [] [])) t5 (ani_with a evs) l').
  { intros fps cvs Ef Ec t5 H5. rewrite Ez, Ef, Ec, <- Hsp.
    replace (mkMdsAni _ _ _ _ _ _ _ _ _ _ _ _ _ _ _ _ _ _ _ _) with a
      by (destruct Hne as (N1 & N2 & N3 & N4 & N5 & N6 & N7); destruct a; cbn in *; subst; reflexivity).
    rewrite <- (push_events_with a evs Hne).
    destruct H8 as [[-> H8]|[-> H8]].
    - destruct H8 as (a1 & b1 & (u1 & ->) & (a2 & b2 & H8 & (u2 & ->) & ->) & ->). cbn [app] in H5.
      gstep.
      match goal with Hat : at_ ((a2 ++ _) ++ _) _ |- _ => rewrite <- app_assoc in Hat; cbn [app] in Hat; pose proof (at_len _ _ Hat) as L; rewrite app_length in L;
        pose proof (events_count _ _ H8 Hk); eapply p_events_closed; [exact H8 | exact Hk | lia | exact Hat] end.
    - destruct Hn as [Hb Ho]. destruct H8 as (a1 & b1 & Ha & H8 & ->). rewrite <- app_assoc in H5.
      assert (G : goes (p_maybe F TLbrace) t5 (match a1 with [] => None | (_, v) :: _ => Some v end) (b1 ++ l')).
      { destruct Ha as [Ha|[u ->]].
        - unfold nothing in Ha. subst a1. cbn [app] in H5. eapply maybe_miss; [|exact H5].
          apply bnd_head; [|discriminate|discriminate]. apply (events_bnd evs); assumption.
        - cbn [app] in H5. eapply maybe_hit. exact H5. }
      eapply goes_bind; [exact G|]. intros t6 H9.
      match goal with Hat : at_ (b1 ++ _) _ |- _ => pose proof (at_len _ _ Hat) as L; rewrite app_length in L;
        pose proof (events_count _ _ H8 Hk); eapply p_events_open; [exact H8 | exact Hk | lia | exact Ho | exact Hat] end. }
  assert (HbN : bnd (y7 ++ l') \/ head_not TKeyword (y7 ++ l')).
  { destruct H8 as [[_ (a1 & b1 & (u1 & ->) & _ & ->)]|[-> (a1 & b1 & Ha & H8 & ->)]].
    - right. cbn. discriminate.
    - destruct Ha as [Ha|[u ->]].
      + unfold nothing in Ha. subst a1. left. apply (events_bnd evs); [assumption | assumption | apply Hn].
      + right. cbn. discriminate. }
  assert (NW : forall w, In w reserved -> not_word w (y7 ++ l')).
  { intros w Hw. destruct HbN as [Hb|Hb]; [apply bnd_not_word; assumption|].
    destruct (y7 ++ l') as [|[[] ?] ?]; cbn in *; trivial; congruence. }
  clear HbN.
  destruct H6 as [[E6 H6]|(p6 & q6 & (v6 & -> & S6) & (p6' & q6' & (u6 & ->) & (k6 & n6 & -> & K6 & E6) & ->) & ->)].
  - unfold nothing in H6. subst x6. cbn [app] in H0.
    destruct H7 as [[E7 H7]|(p7 & q7 & (v7 & -> & S7) & (p7' & q7' & (u7 & ->) & (k7 & n7 & -> & K7 & E7) & ->) & ->)].
    + unfold nothing in H7. subst x7. cbn [app] in *.
      eapply goes_bind; [eapply named_miss; [apply NW; cbn; tauto | eassumption]|]. intros ? ?. cbv beta iota.
      eapply goes_bind; [eapply named_miss; [apply NW; cbn; tauto | eassumption]|]. intros ? ?. cbv beta iota.
      apply Fe; [symmetry; exact E6 | symmetry; exact E7 | assumption].
    + cbn [app] in *. gstep. gstep. apply Fe; [symmetry; exact E6 | reflexivity | assumption].
  - cbn [app] in *. gstep.
    destruct H7 as [[E7 H7]|(p7 & q7 & (v7 & -> & S7) & (p7' & q7' & (u7 & ->) & (k7 & n7 & -> & K7 & E7) & ->) & ->)].
    + unfold nothing in H7. subst x7. cbn [app] in *.
      eapply goes_bind; [eapply named_miss; [apply NW; cbn; tauto | eassumption]|]. intros ? ?. cbv beta iota.
      apply Fe; [reflexivity | symmetry; exact E7 | assumption].
    + cbn [app] in *. gstep. apply Fe; [reflexivity | reflexivity | assumption].
Qed.

Ltac flat H := repeat (progress (cbn [app] in H; rewrite <- ?app_assoc in H)).
Lemma p_alias_ok a n l l' t : g_command (CAlias a) n l -> follow n l' ->
  forall kw l1, l = (TKeyword, kw) :: l1 -> at_ (l1 ++ l') t -> goes (p_aniAlias F) t a l'.
Proof using HD HF rest.
  intros H [Hb _] kw l1 El Ht. cbn [g_command] in H. destruct H as [_ H].
  destruct H as (x1 & y1 & (v1 & -> & S1) & (x2 & y2 & Hh & Hdir & ->) & ->).
  cbn [app] in El. injection El as <- <-. flat Ht.
  change (p_aniAlias F) with (p_header (fun name layer next bi bo fl alias =>
    let* f := p_maybe_word F (lit "F") in
    let* r := (if f then ret false else p_maybe_word F (lit "R")) in
    ret (mkMdsAlias name (uint 32 layer) next bi bo fl alias r))).
  eapply header_ok; [exact Hh | exact Ht|]. intros z t1 Ez H1. rewrite Ez.
  destruct Hdir as [[Ed Hdir]|Hdir].
  - unfold nothing in Hdir. subst y2. cbn [app] in H1. gsteps. finish. rewrite <- Ed. destruct a; reflexivity.
  - destruct (al_backward a) eqn:Ed; destruct Hdir as (v & -> & Sv); cbn [app] in H1.
    + gsteps. finish. rewrite <- Ed. destruct a; reflexivity.
    + gstep. eapply goes_bind; [apply goes_ret; eassumption|]. intros ? ?. cbv beta iota. finish. rewrite <- Ed. destruct a; reflexivity.
Qed.

Lemma goes_block {A} (k : M tks A) l l' l2 t a :
  (l = [] /\ head_not TLbrace l') \/ skipped l -> at_ (l ++ l') t -> (forall t', at_ l' t' -> goes k t' a l2) ->
  goes (let* b := p_maybe F TLbrace in (match b with Some _ => p_ignore_block F F | None => ret tt end) ;; k) t a l2.
Proof using HD HF rest.
  intros Hl Ht K.
  assert (G : goes (let* b := p_maybe F TLbrace in (match b with Some _ => p_ignore_block F F | None => ret tt end)) t tt l').
  { destruct Hl as [[-> Hl]|Hl]; [apply unskipped_ok; assumption | eapply skipped_ok; eassumption]. }
  destruct G as (t1 & E & H1). destruct (K t1 H1) as (t2 & E2 & H2). exists t2. split; [|assumption].
  unfold bind in E |- *. destruct (p_maybe F TLbrace t) as [[b t0]|?| |]; try discriminate. rewrite E. assumption.
Qed.

Lemma p_comb_ok c n l l' t : g_command (CComb c) n l -> follow n l' ->
  forall kw l1, l = (TKeyword, kw) :: l1 -> at_ (l1 ++ l') t -> goes (p_aniComb F) t c l'.
Proof using HD HF rest.
  intros H [Hb _] kw l1 El Ht. cbn [g_command] in H. destruct H as [_ H].
  destruct H as (x1 & y1 & (v1 & -> & S1) & (x2 & y2 & Hh & (x3 & y3 & (v3 & -> & E3) & Hbl & ->) & ->) & ->).
  cbn [app] in El. injection El as <- <-. flat Ht.
  change (p_aniComb F) with (p_header (fun name layer next bi bo fl model =>
    let* last := p_expect_int F in
    let* b := p_maybe F TLbrace in
    (match b with Some _ => p_ignore_block F F | None => ret tt end) ;;
    ret (mkMdsComb name (uint 32 layer) next bi bo fl model last))).
  eapply header_ok; [exact Hh | exact Ht|]. intros z t1 Ez H1. rewrite Ez. cbn [app] in H1. gstep.
  eapply goes_block; [|eassumption|].
  - destruct Hbl as [Hbl|Hbl]; [left; split; [exact Hbl|] | right; exact Hbl]. apply bnd_head; [exact Hb | discriminate | discriminate].
  - intros t2 H2. finish. destruct c; reflexivity.
Qed.

Lemma p_blend_ok b n l l' t : g_command (CBlend b) n l -> follow n l' ->
  forall kw l1, l = (TKeyword, kw) :: l1 -> at_ (l1 ++ l') t -> goes (p_aniBlend F) t b l'.
Proof using HD HF rest.
  intros H [Hb Hn] kw l1 El Ht. cbn [g_command] in H.
  destruct H as (x1 & y1 & (v1 & -> & S1) & (x2 & y2 & -> & (x3 & y3 & H3 & (x4 & y4 & -> & (x5 & y5 & H5 & H6 & ->) & ->) & ->) & ->) & ->).
  cbn [app] in El. injection El as <- <-. flat Ht. unfold p_aniBlend.
  assert (K : forall bi bo, opt_or bi 0 = bl_blend_in b -> opt_or bo 0 = bl_blend_out b -> forall t2, at_ (y5 ++ l') t2 ->
    goes (p_maybe_flags F ;; let* bb := p_maybe F TLbrace in
      (match bb with Some _ => p_ignore_block F F | None => ret tt end) ;;
      ret (mkMdsBlend (bl_name b) (bl_next b) (opt_or bi 0) (opt_or bo 0))) t2 b l').
  { intros bi bo Ei Eo t2 H2. rewrite Ei, Eo.
    assert (R : forall t3, at_ l' t3 -> goes (ret (mkMdsBlend (bl_name b) (bl_next b) (bl_blend_in b) (bl_blend_out b))) t3 b l').
    { intros t3 H'. finish. destruct b; reflexivity. }
    destruct H6 as [[-> H6]|[-> [H6|H6]]].
    - unfold nothing in H6. subst y5. cbn [app] in H2.
      eapply goes_bind with (l1 := l').
      + destruct l' as [|[[] v] l'']; try contradiction; cbn [bnd] in Hb.
        * destruct (at_next _ _ _ _ H2) as (t3 & E & _ & t4 & E' & H4). exists t4. split; [|exact H4].
          unfold p_maybe_flags, p_maybe, bind. rewrite E. cbn [fst snd token_eqb]. unfold ret at 1.
          unfold low_word in Hn. rewrite Hn. exact E'.
        * unfold p_maybe_flags. eapply goes_bind; [eapply maybe_miss; [|exact H2]; cbn; discriminate|].
          intros ? ?. cbv beta iota. apply goes_ret. assumption.
      + intros t3 H7. eapply goes_block with (l := []); [left; split; [reflexivity|] | exact H7 | exact R].
        apply bnd_head; [exact Hb | discriminate | discriminate].
    - eapply goes_bind with (l1 := y5 ++ l').
      + unfold p_maybe_flags. eapply goes_bind; [eapply maybe_miss; [|exact H2]|].
        * destruct H6 as (a1 & b1 & (u & ->) & _ & ->). cbn. discriminate.
        * intros ? ?. cbv beta iota. apply goes_ret. assumption.
      + intros t3 H7. eapply goes_block; [right; exact H6 | exact H7 | exact R].
    - destruct H6 as (a1 & b1 & (v & -> & Lv) & (a2 & b2 & H7 & H8 & ->) & ->). flat H2.
      assert (HB : (b2 = [] /\ head_not TLbrace l') \/ skipped b2).
      { destruct H8 as [H8|H8]; [left; split; [exact H8|] | right; exact H8]. apply bnd_head; [exact Hb | discriminate | discriminate]. }
      eapply goes_bind with (l1 := b2 ++ l').
      + unfold p_maybe_flags. eapply goes_bind; [eapply maybe_hit; exact H2|]. intros t3 H9. cbv beta iota. unfold low_word in Lv. rewrite Lv.
        destruct H7 as [H7|[u ->]].
        * unfold nothing in H7. subst a2. cbn [app] in H9.
          eapply goes_bind; [eapply maybe_miss; [|exact H9]|].
          { destruct HB as [[-> _]|(a3 & b3 & (u & ->) & _ & ->)]; [cbn [app]; apply bnd_head; [exact Hb | discriminate | discriminate] | cbn; discriminate]. }
          intros ? ?. apply goes_ret. assumption.
        * cbn [app] in H9. eapply goes_bind; [eapply maybe_hit; exact H9|]. intros ? ?. apply goes_ret. assumption.
      + intros t3 H9. eapply goes_block; [exact HB | exact H9 | exact R]. }
  assert (HY : forall k, k = TInteger \/ k = TFloat -> head_not k (y5 ++ l')).
  { intros k Kk. assert (k <> TKeyword /\ k <> TRbrace /\ TLbrace <> k) as (K1 & K2 & K3) by (destruct Kk; subst; repeat split; discriminate).
    destruct H6 as [[-> H6]|[-> [H6|H6]]].
    - unfold nothing in H6. subst y5. cbn [app]. apply bnd_head; assumption.
    - destruct H6 as (a1 & b1 & (u & ->) & _ & ->). cbn. assumption.
    - destruct H6 as (a1 & b1 & (v & -> & Lv) & _ & ->). cbn. congruence. }
  clear H6.
  assert (Hint : exists o, goes (p_maybe_int F) t o ((TString, bl_next b) :: x5 ++ y5 ++ l') \/ True) by (exists None; right; exact I). clear Hint.
  gstep.
  eapply goes_bind with (a := match x3 with [] => None | (_, v) :: _ => match stoi v with Ret z => Some z | _ => None end end)
    (l1 := (TString, bl_next b) :: x5 ++ y5 ++ l').
  { destruct H3 as [H3|(z & v & -> & E3)].
    - unfold nothing in H3. subst x3. cbn [app] in *. eapply mint_miss; [|eassumption]. cbn. discriminate.
    - rewrite E3. cbn [app] in *. eapply mint_hit; eassumption. }
  intros t2 H2. cbv beta iota. gstep.
  destruct H5 as [[[E1 E2] H5]|[[E2 H5]|H5]].
  - unfold nothing in H5. subst x5. cbn [app] in *.
    eapply goes_bind; [eapply mnum_miss; [apply HY; left; reflexivity | apply HY; right; reflexivity | eassumption]|]. intros ? ?. cbv beta iota.
    eapply goes_bind; [eapply mnum_miss; [apply HY; left; reflexivity | apply HY; right; reflexivity | eassumption]|]. intros ? ?. cbv beta iota.
    apply K; [symmetry; exact E1 | symmetry; exact E2 | assumption].
  - destruct H5 as (k5 & v5 & -> & K5 & E5). cbn [app] in *. gstep.
    eapply goes_bind; [eapply mnum_miss; [apply HY; left; reflexivity | apply HY; right; reflexivity | eassumption]|]. intros ? ?. cbv beta iota.
    apply K; [reflexivity | symmetry; exact E2 | assumption].
  - destruct H5 as (a5 & b5 & (k5 & v5 & -> & K5 & E5) & (k6 & v6 & -> & K6 & E6) & ->). rewrite <- !app_assoc in *. cbn [app] in *. gstep. gstep.
    apply K; [reflexivity | reflexivity | assumption].
Qed.

Lemma script_over_step s c cs : script_over (script_over s [c]) cs = script_over s (c :: cs).
Proof using Type. clear. unfold script_over. destruct c; cbn; rewrite <- ?app_assoc, ?app_nil_r; reflexivity. Qed.
Lemma script_over_nil s : script_over s [] = s.
Proof using Type. clear. unfold script_over. destruct s; cbn; rewrite !app_nil_r; reflexivity. Qed.

Lemma p_command_ok c n l : g_command c n l -> command_kept c ->
  exists kw l1, l = (TKeyword, kw) :: l1 /\ other_word [(TKeyword, kw)] /\
    forall s l' t, follow n l' -> at_ (l1 ++ l') t -> goes (p_enum_command F s kw) t (script_over s [c]) l'.
Proof using HD HF rest.
  intros H Hk.
  assert (X : exists w kw l1, In w command_words /\ same kw w = true /\ l = (TKeyword, kw) :: l1 /\
    match c with CAni _ _ => w = lit "ani" | CAlias _ => w = lit "aniAlias" | CBlend _ => w = lit "aniBlend" | CComb _ => w = lit "aniComb"
      | CDisable _ => w = lit "aniDisable" | CTag _ => w = lit "modelTag" | _ => False end).
  { destruct c; cbn [g_command] in H; try contradiction;
      try (destruct H as [_ H]); destruct H as (x1 & y1 & (v1 & -> & S1) & _ & ->);
      eexists; exists v1; eexists; (split; [|split; [exact S1 | split; [reflexivity | reflexivity]]]); cbn; tauto. }
  destruct X as (w & kw & l1 & Hw & S & El & Hc). exists kw, l1. split; [exact El|]. split; [eapply command_word; eassumption|].
  intros s l' t Hf Ht. unfold p_enum_command. rewrite !(iequals_same _ _ _ S).
  destruct c; try contradiction; subst w.
  - change (iequals (lit "ani") (lit "ani")) with true. cbv iota.
    eapply goes_bind; [eapply p_ani_ok; eassumption|]. intros t1 H1. finish.
    unfold script_over, push_ani, with_animations; destruct s; cbn; rewrite ?app_nil_r; reflexivity.
  - change (goes (let* a0 := p_aniAlias F in ret (push_alias s a0)) t (script_over s [CAlias a]) l').
    eapply goes_bind; [eapply p_alias_ok; eassumption|]. intros t1 H1. finish.
    unfold script_over, push_alias; destruct s; cbn; rewrite ?app_nil_r; reflexivity.
  - change (goes (let* a0 := p_aniBlend F in ret (push_blend s a0)) t (script_over s [CBlend b]) l').
    eapply goes_bind; [eapply p_blend_ok; eassumption|]. intros t1 H1. finish.
    unfold script_over, push_blend; destruct s; cbn; rewrite ?app_nil_r; reflexivity.
  - change (goes (let* a0 := p_aniComb F in ret (push_comb s a0)) t (script_over s [CComb c]) l').
    eapply goes_bind; [eapply p_comb_ok; eassumption|]. intros t1 H1. finish.
    unfold script_over, push_comb; destruct s; cbn; rewrite ?app_nil_r; reflexivity.
  - change (goes (let* a0 := p_expect F TString in ret (push_disabled s a0)) t (script_over s [CDisable name]) l').
    cbn [g_command] in H. destruct H as [_ (x1 & y1 & (v1 & -> & S1) & -> & ->)]. cbn [app] in El. injection El as <- <-. cbn [app] in Ht. gstep. finish.
    unfold script_over, push_disabled; destruct s; cbn; rewrite ?app_nil_r; reflexivity.
  - change (goes (let* a0 := p_modelTag F in ret (push_tag s a0)) t (script_over s [CTag bone]) l').
    cbn [g_command] in H. destruct H as [_ (x1 & y1 & (v1 & -> & S1) & (x2 & y2 & (v2 & -> & S2) & -> & ->) & ->)].
    cbn [app] in El. injection El as <- <-. cbn [app] in Ht. unfold p_modelTag.
    eapply goes_bind.
    + gstep. rewrite (iequals_same _ _ _ S2). eapply goes_bind; [apply goes_ret; eassumption|]. intros ? ?. cbv beta iota. eapply expect_hit. eassumption.
    + intros t1 H1. finish. unfold script_over, push_tag; destruct s; cbn; rewrite ?app_nil_r; reflexivity.
Qed.

Lemma enum_head cs l : g_enum cs l -> Forall command_kept cs -> cs = [] /\ l = [] \/
  exists kw l1, l = (TKeyword, kw) :: l1 /\ other_word [(TKeyword, kw)].
Proof using HD HF rest.
  destruct 1 as [|c cs n l1 l2 H1 H2 H3]; intros Hk; [left; split; reflexivity|]. right.
  apply Forall_cons_iff in Hk. destruct Hk as [Hk _].
  destruct (p_command_ok c n l1 H1 Hk) as (kw & l3 & -> & Ho & _). eexists. eexists. split; [reflexivity | exact Ho].
Qed.
Lemma enum_count cs l : g_enum cs l -> Forall command_kept cs -> (length cs <= length l)%nat.
Proof using HD HF rest.
  induction 1 as [|c cs n l1 l2 H1 H2 IH H3]; intros Hk; [cbn; lia|].
  apply Forall_cons_iff in Hk. destruct Hk as [Hk Hks]. specialize (IH Hks).
  destruct (p_command_ok c n l1 H1 Hk) as (kw & l3 & -> & _). rewrite app_length. cbn [length]. lia.
Qed.

Lemma p_enum_ok cs l : g_enum cs l -> Forall command_kept cs -> forall n s u l' t, (length cs < n)%nat ->
  at_ (l ++ (TRbrace, u) :: l') t -> goes (p_enum F n s) t (script_over s cs) l'.
Proof using HD HF rest.
  induction 1 as [|c cs need l1 l2 H1 H2 IH H3]; intros Hk n s u l' t Hn Ht; (destruct n as [|n]; [cbn in Hn; lia|]); cbn [p_enum].
  - cbn [app] in Ht. unfold goes, bind at 1. rewrite (at_not_eof _ _ _ Ht).
    eapply goes_bind; [eapply block_closed; eassumption|]. intros t1 E1. cbv beta iota. rewrite script_over_nil. apply goes_ret. assumption.
  - apply Forall_cons_iff in Hk. destruct Hk as [Hk Hks].
    destruct (p_command_ok c need l1 H1 Hk) as (kw & l3 & -> & Ho & R).
    rewrite <- app_assoc in Ht. cbn [app] in Ht.
    unfold goes, bind at 1. rewrite (at_not_eof _ _ _ Ht).
    eapply goes_bind; [eapply block_more; [| |eassumption]; discriminate|]. intros t1 E1. cbv beta iota.
    eapply goes_bind; [eapply expect_hit; eassumption|]. intros t2 E2. cbv beta iota.
    eapply goes_bind; [apply R; [|exact E2]|].
    + destruct (enum_head cs l2 H2 Hks) as [[-> ->]|(kw2 & l4 & -> & Ho2)].
      * cbn [app]. split; [exact I|]. destruct need; [exact I | cbn in H3; congruence | exact I].
      * cbn [app]. split; [apply Ho2|]. destruct need; [exact I | exact Ho2 | exact H3].
    + intros t3 E3. rewrite <- (script_over_step s c cs). eapply IH; [exact Hks | cbn in Hn; lia | exact E3].
Qed.

(** What may follow a part of a [Model] block. *)
Lemma p_commands_ok tops : forall l n s u l' t, g_tops tops l -> Forall command_kept (flat_map top_commands tops) -> (length tops < n)%nat ->
  at_ (l ++ (TRbrace, u) :: l') t -> goes (p_commands F n s) t (script_over s (flat_map top_commands tops)) l'.
Proof using HD HF rest.
  induction tops as [|x tops IH]; intros l n s u l' t H Hk Hn Ht; (destruct n as [|n]; [cbn in Hn; lia|]); cbn [p_commands].
  - cbn [g_tops] in H. unfold nothing in H. subst l. cbn [app] in Ht.
    unfold goes, bind at 1. rewrite (at_not_eof _ _ _ Ht).
    eapply goes_bind; [eapply block_closed; eassumption|]. intros t1 H1. cbv beta iota. cbn [flat_map].
    rewrite script_over_nil. apply goes_ret. assumption.
  - cbn [g_tops] in H. destruct H as (a & b & Hx & Hxs & ->). cbn [flat_map] in Hk |- *. apply Forall_app in Hk. destruct Hk as [Hk Hks].
    assert (HB : bnd (b ++ (TRbrace, u) :: l')).
    { clear - Hxs. destruct tops as [|y tops]; cbn [g_tops] in Hxs; [unfold nothing in Hxs; subst; exact I|].
      destruct Hxs as (a & b' & Hy & _ & ->).
      destruct y; cbn [g_top] in Hy; destruct Hy as (x1 & y1 & (v & -> & S) & _ & ->); cbn [app bnd]; rewrite (bword_same _ _ S); vm_compute; reflexivity. }
    assert (SO : forall cs1 cs2, script_over (script_over s cs1) cs2 = script_over s (cs1 ++ cs2)).
    { clear. intros cs1. revert s. induction cs1 as [|c cs1 IH]; intros s cs2; [rewrite script_over_nil; reflexivity|].
      rewrite <- (script_over_step s c cs1), IH. cbn [app]. apply script_over_step. }
    rewrite <- SO.
    rewrite <- app_assoc in Ht.
    destruct x as [k|m|cs]; cbn [g_top top_commands] in Hx, Hk |- *.
    + destruct (sk_disable_mesh k) eqn:Ek; cbn [when] in Hx; open_l; rewrite <- ?app_assoc in Ht; cbn [app] in Ht;
        (unfold goes, bind at 1; rewrite (at_not_eof _ _ _ Ht));
        (eapply goes_bind; [eapply block_more; [| |eassumption]; discriminate|]; intros t1 E1; cbv beta iota);
        (eapply goes_bind; [eapply expect_hit; eassumption|]; intros t2 E2; cbv beta iota);
        (match goal with S : same ?kw (lit "meshAndTree") = true |- _ => rewrite !(iequals_same _ _ _ S) end);
        (change (iequals (lit "meshAndTree") (lit "meshAndTree")) with true; cbv iota);
        unfold p_meshAndTree.
      * eapply goes_bind; [gstep; gstep; apply goes_ret; eassumption|]. intros t3 E3. cbv beta iota.
        replace (with_skeleton s _) with (script_over s [CSkeleton k])
          by (unfold script_over, with_skeleton; destruct s, k; cbn in *; subst; rewrite ?app_nil_r; reflexivity).
        eapply IH; [eassumption | assumption | cbn in Hn; lia | exact E3].
      * eapply goes_bind; [gstep; gstep; apply goes_ret; eassumption|]. intros t3 E3. cbv beta iota.
        replace (with_skeleton s _) with (script_over s [CSkeleton k])
          by (unfold script_over, with_skeleton; destruct s, k; cbn in *; subst; rewrite ?app_nil_r; reflexivity).
        eapply IH; [eassumption | assumption | cbn in Hn; lia | exact E3].
    + open_l. cbn [app] in Ht. unfold goes, bind at 1. rewrite (at_not_eof _ _ _ Ht).
      eapply goes_bind; [eapply block_more; [| |eassumption]; discriminate|]. intros t1 E1. cbv beta iota.
      eapply goes_bind; [eapply expect_hit; eassumption|]. intros t2 E2. cbv beta iota. rewrite !(iequals_same _ _ _ Hx).
      change (iequals (lit "registerMesh") (lit "meshAndTree")) with false.
      change (iequals (lit "registerMesh") (lit "registerMesh")) with true. cbv iota.
      gstep. replace (push_mesh s m) with (script_over s [CMesh m])
        by (unfold script_over, push_mesh; destruct s; cbn; rewrite ?app_nil_r; reflexivity).
      eapply IH; [eassumption | assumption | cbn in Hn; lia | eassumption].
    + destruct Hx as (x1 & y1 & (v & -> & S) & (x2 & y2 & (u2 & ->) & (x3 & y3 & He & (u3 & ->) & ->) & ->) & ->).
      flat Ht. unfold goes, bind at 1. rewrite (at_not_eof _ _ _ Ht).
      eapply goes_bind; [eapply block_more; [| |eassumption]; discriminate|]. intros t1 E1. cbv beta iota.
      eapply goes_bind; [eapply expect_hit; eassumption|]. intros t2 E2. cbv beta iota. rewrite !(iequals_same _ _ _ S).
      change (iequals (lit "aniEnum") (lit "meshAndTree")) with false.
      change (iequals (lit "aniEnum") (lit "registerMesh")) with false.
      change (iequals (lit "aniEnum") (lit "aniEnum")) with true. cbv iota.
      unfold p_aniEnum. eapply goes_bind.
      * gstep. match goal with Hat : at_ (x3 ++ _) _ |- _ => pose proof (at_len _ _ Hat) as L; rewrite app_length in L;
          pose proof (enum_count _ _ He Hk); eapply p_enum_ok; [exact He | exact Hk | lia | exact Hat] end.
      * intros t3 E3. cbv beta. eapply IH; [eassumption | assumption | cbn in Hn; lia | exact E3].
Qed.
Lemma tops_count tops : forall l, g_tops tops l -> (length tops <= length l)%nat.
Proof using Type.
  clear. induction tops as [|x tops IH]; intros l H; [cbn; lia|]. cbn [g_tops] in H. destruct H as (a & b & Hx & Hxs & ->).
  specialize (IH b Hxs). rewrite app_length. cbn [length].
  destruct x; cbn [g_top] in Hx; destruct Hx as (x1 & y1 & (v & -> & S) & _ & ->); cbn [app length]; lia.
Qed.

Lemma p_script_ok tops l s t : g_script tops l -> Forall command_kept (flat_map top_commands tops) -> at_ l t ->
  exists t', p_script F s t = Ret (script_over s (flat_map top_commands tops), t').
Proof using HD HF rest.
  intros H Hk Ht. unfold g_script in H.
  destruct H as (x1 & y1 & (v & -> & S) & (x2 & y2 & (u2 & ->) & (x3 & y3 & (u3 & ->) & (x4 & y4 & H4 & (u4 & ->) & ->) & ->) & ->) & ->).
  cbn [app] in Ht. cut (goes (p_script F s) t (script_over s (flat_map top_commands tops)) []).
  { intros (t' & E & _). exists t'. exact E. }
  unfold p_script, p_expect_word. eapply goes_bind.
  - gstep. rewrite (iequals_same _ _ _ S). change (iequals (lit "Model") (lit "Model")) with true. cbv iota. apply goes_ret. eassumption.
  - intros t1 H1. gstep. gstep.
    match goal with Hat : at_ (x4 ++ _) _ |- _ => pose proof (at_len _ _ Hat) as L; rewrite app_length in L;
      pose proof (tops_count _ _ H4); eapply p_commands_ok; [exact H4 | exact Hk | lia | exact Hat] end.
Qed.
End Parse.
