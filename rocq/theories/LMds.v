(** Model script sources: the tokenizer reads back every layout of a list of tokens. *)

From Coq Require Import Lia ZifyN ZifyBool ZifyNat.
From Verif Require Import MBase MStream SStream MBoxes SBoxes SFormat MText MVfs SVfs MScript SScript LBase LStream LVfs.
Local Open Scope N_scope.
Local Open Scope m_scope.

Ltac apps := repeat (progress (rewrite <- ?app_assoc; cbn [app])); reflexivity.

(** ** Characters *)
Definition memb (c : byte) (s : bytes) : bool := existsb (beq c) s.
Lemma memb_spec c s : memb c s = true <-> In c s.
Proof.
  unfold memb. rewrite existsb_exists. split.
  - intros (x & H & E). apply beq_spec in E. subst. assumption.
  - intros H. exists c. split; [assumption | apply beq_refl].
Qed.
Lemma memb_false c s : memb c s = false <-> ~ In c s.
Proof. rewrite <- memb_spec. destruct (memb c s); split; congruence. Qed.

Lemma skip_mem c : tk_skip c = memb c (spaces ++ lit "();").
Proof. destruct c; reflexivity. Qed.
Lemma word_start_mem c : tk_word_start c = memb c word_starts.
Proof. destruct c; reflexivity. Qed.
Lemma word_mem c : tk_word c = memb c word_chars.
Proof. destruct c; reflexivity. Qed.
Lemma digit_mem c : is_digit c = memb c digits.
Proof. destruct c; reflexivity. Qed.
Lemma ws_mem c : MText.is_ws c = memb c spaces.
Proof. destruct c; reflexivity. Qed.

Definition first_char (c : byte) : bool := negb (tk_skip c) && negb (beq c x2f).
Lemma word_first c : In c word_starts -> first_char c = true.
Proof.
  intros H. assert (E : forallb first_char word_starts = true) by (vm_compute; reflexivity).
  rewrite forallb_forall in E. apply E. assumption.
Qed.
Lemma digit_kinds c : In c digits -> first_char c = true /\ tk_word_start c = false /\ beq c x22 = false /\ tk_number_start c = true.
Proof.
  intros H.
  assert (E : forallb (fun c => first_char c && negb (tk_word_start c) && negb (beq c x22) && tk_number_start c) digits = true)
    by (vm_compute; reflexivity).
  rewrite forallb_forall in E. specialize (E _ H). apply andb_prop in E. destruct E as [E E4].
  apply andb_prop in E. destruct E as [E E3]. apply andb_prop in E. destruct E as [E1 E2].
  rewrite negb_true_iff in E2, E3. auto.
Qed.

(* ------------------------------------------------------------------ *)
(** ** Reading *)
Section Read.
Variable D : bytes.
Hypothesis HD : len D < max_size.

Lemma rc_at pre c post : D = pre ++ c :: post -> read_char (mkR D (len pre)) = Ret (c, mkR D (len (pre ++ [c]))).
Proof using HD.
  intros E. rewrite E. rewrite read_char_at by (rewrite <- E; assumption).
  rewrite len_app. reflexivity.
Qed.

Lemma back_at pre c post : D = pre ++ c :: post -> rd_seek (-1) CUR (mkR D (len (pre ++ [c]))) = Ret (tt, mkR D (len pre)).
Proof using HD.
  intros E. rewrite rd_seek_back.
  - rewrite len_app. change (len [c]) with 1. replace (len pre + 1 - 1) with (len pre) by lia. reflexivity.
  - rewrite len_app. change (len [c]) with 1. lia.
  - rewrite E, !len_app, (len_cons c post). change (len [c]) with 1. lia.
  - assumption.
Qed.

Lemma tk_line_at t : ~ In x0a t -> forall fuel pre post, (length t < fuel)%nat -> D = pre ++ t ++ x0a :: post ->
  tk_line fuel (mkR D (len pre)) = Ret (tt, mkR D (len (pre ++ t ++ [x0a]))).
Proof using HD.
  induction t as [|c t IH]; intros Ht fuel pre post Hf E; (destruct fuel as [|fuel]; [cbn in Hf; lia|]); cbn [tk_line].
  - unfold bind. rewrite (rc_at pre x0a post E). cbn [app]. reflexivity.
  - unfold bind. rewrite (rc_at pre c (t ++ x0a :: post) E).
    replace (beq c x0a) with false
      by (symmetry; apply Bool.not_true_is_false; intros B; apply beq_spec in B; subst; apply Ht; left; reflexivity).
    rewrite (IH (fun H => Ht (or_intror H)) fuel (pre ++ [c]) post).
    + rewrite <- app_assoc. reflexivity.
    + cbn in Hf. lia.
    + rewrite E, <- app_assoc. reflexivity.
Qed.

Lemma tk_word_rest_at w : (forall x, In x w -> In x word_chars) -> forall fuel c acc pre d post, (length w < fuel)%nat ->
  ~ In d word_chars -> D = pre ++ w ++ d :: post ->
  tk_word_rest fuel c acc (mkR D (len pre)) = Ret (acc ++ c :: w, mkR D (len (pre ++ w ++ [d]))).
Proof using HD.
  induction w as [|x w IH]; intros Hw fuel c acc pre d post Hf Hd E; (destruct fuel as [|fuel]; [cbn in Hf; lia|]); cbn [tk_word_rest].
  - unfold bind. rewrite (rc_at pre d post E). rewrite word_mem.
    replace (memb d word_chars) with false by (symmetry; apply memb_false; assumption). reflexivity.
  - unfold bind. rewrite (rc_at pre x (w ++ d :: post) E). rewrite word_mem.
    replace (memb x word_chars) with true by (symmetry; apply memb_spec; apply Hw; left; reflexivity).
    rewrite (IH (fun y H => Hw y (or_intror H)) fuel x (acc ++ [c]) (pre ++ [x]) d post).
    + rewrite <- !app_assoc. reflexivity.
    + cbn in Hf. lia.
    + assumption.
    + rewrite E, <- app_assoc. reflexivity.
Qed.

(** The last character that is no white space, starting from [prev]. *)
Definition last_vis (v : bytes) (prev : byte) : byte := fold_left (fun p c => if MText.is_ws c then p else c) v prev.

Lemma tk_string_rest_at v : ~ In x22 v -> ~ In x0a v -> forall fuel acc prev pre d post, (length v < fuel)%nat ->
  d = x22 \/ d = x0a -> D = pre ++ v ++ d :: post -> forall c w, v ++ [d] = c :: w ->
  tk_string_rest fuel c acc prev (mkR D (len (pre ++ [c]))) = Ret (acc ++ v, last_vis v prev, d, mkR D (len (pre ++ v ++ [d]))).
Proof using HD.
  induction v as [|x v IH]; intros H1 H2 fuel acc prev pre d post Hf Hd E c w Ec; (destruct fuel as [|fuel]; [cbn in Hf; lia|]); cbn [tk_string_rest].
  - cbn [app] in Ec. injection Ec as <- _.
    replace (beq d x22 || beq d x0a) with true by (destruct Hd; subst; reflexivity).
    rewrite app_nil_r. reflexivity.
  - cbn [app] in Ec. injection Ec as <- _.
    replace (beq x x22 || beq x x0a) with false.
    2:{ symmetry. apply Bool.orb_false_iff. split; apply Bool.not_true_is_false; intros B; apply beq_spec in B; subst.
        - apply H1; left; reflexivity. - apply H2; left; reflexivity. }
    destruct (v ++ [d]) as [|c' w'] eqn:Ev; [destruct v; discriminate|].
    assert (E' : D = (pre ++ [x]) ++ v ++ d :: post) by (rewrite E, <- app_assoc; reflexivity).
    assert (E2 : D = (pre ++ [x]) ++ c' :: w' ++ post).
    { rewrite E'. f_equal. change (v ++ d :: post) with (v ++ [d] ++ post). rewrite app_assoc. rewrite Ev. reflexivity. }
    unfold bind. rewrite (rc_at (pre ++ [x]) c' (w' ++ post) E2).
    rewrite (IH (fun H => H1 (or_intror H)) (fun H => H2 (or_intror H)) fuel (acc ++ [x]) (if MText.is_ws x then prev else x)
               (pre ++ [x]) d post ltac:(cbn in Hf; lia) Hd E' c' w' Ev).
    rewrite <- !app_assoc. reflexivity.
Qed.

(** Numbers, from the character after the first. *)
Lemma tk_digits_at ds : (forall x, In x ds -> In x digits) -> forall fuel c acc fl pre d post, (length ds < fuel)%nat ->
  ~ In d (digits ++ lit ".") -> D = pre ++ ds ++ d :: post ->
  tk_number_rest fuel c acc fl (mkR D (len pre)) = Ret (acc ++ c :: ds, fl, mkR D (len (pre ++ ds ++ [d]))).
Proof using HD.
  induction ds as [|x ds IH]; intros Hw fuel c acc fl pre d post Hf Hd E; (destruct fuel as [|fuel]; [cbn in Hf; lia|]); cbn [tk_number_rest].
  - unfold bind. rewrite (rc_at pre d post E).
    assert (N1 : beq d x2e = false)
      by (apply Bool.not_true_is_false; intros B; apply beq_spec in B; subst; apply Hd; apply in_or_app; right; left; reflexivity).
    rewrite N1. unfold ret. rewrite digit_mem.
    replace (memb d digits) with false by (symmetry; apply memb_false; intros B; apply Hd; apply in_or_app; left; assumption).
    reflexivity.
  - assert (Dx : In x digits) by (apply Hw; left; reflexivity).
    unfold bind. rewrite (rc_at pre x (ds ++ d :: post) E).
    assert (N1 : beq x x2e = false).
    { assert (Ex : forallb (fun x => negb (beq x x2e)) digits = true) by (vm_compute; reflexivity).
      rewrite forallb_forall in Ex. apply negb_true_iff. apply Ex. assumption. }
    rewrite N1. unfold ret. rewrite digit_mem.
    replace (memb x digits) with true by (symmetry; apply memb_spec; assumption).
    rewrite (IH (fun y H => Hw y (or_intror H)) fuel x (acc ++ [c]) fl (pre ++ [x]) d post).
    + rewrite <- !app_assoc. reflexivity.
    + cbn in Hf. lia.
    + assumption.
    + rewrite E, <- app_assoc. reflexivity.
Qed.

Lemma tk_fraction_at ds fs : (forall x, In x ds -> In x digits) -> (forall x, In x fs -> In x digits) ->
  forall fuel c acc fl pre d post, (length ds + length fs < fuel)%nat ->
  ~ In d (digits ++ lit ".") -> D = pre ++ ds ++ x2e :: fs ++ d :: post ->
  tk_number_rest fuel c acc fl (mkR D (len pre)) = Ret (acc ++ c :: ds ++ x2e :: fs, true, mkR D (len (pre ++ ds ++ x2e :: fs ++ [d]))).
Proof using HD.
  intros Hds Hfs. induction ds as [|x ds IH]; intros fuel c acc fl pre d post Hf Hd E; (destruct fuel as [|fuel]; [cbn in Hf; lia|]); cbn [tk_number_rest].
  - cbn [app] in E |- *. unfold bind. rewrite (rc_at pre x2e (fs ++ d :: post) E). change (beq x2e x2e) with true. cbv iota.
    assert (E' : D = (pre ++ [x2e]) ++ fs ++ d :: post) by (rewrite E, <- app_assoc; reflexivity).
    destruct fs as [|y fs].
    + cbn [app] in E'. rewrite (rc_at (pre ++ [x2e]) d post E'). unfold ret. rewrite digit_mem.
      replace (memb d digits) with false by (symmetry; apply memb_false; intros B; apply Hd; apply in_or_app; left; assumption).
      rewrite <- !app_assoc. reflexivity.
    + rewrite (rc_at (pre ++ [x2e]) y (fs ++ d :: post) E'). unfold ret. rewrite digit_mem.
      replace (memb y digits) with true by (symmetry; apply memb_spec; apply Hfs; left; reflexivity).
      rewrite (tk_digits_at fs (fun z H => Hfs z (or_intror H)) fuel y ((acc ++ [c]) ++ [x2e]) true ((pre ++ [x2e]) ++ [y]) d post).
      * rewrite <- !app_assoc. reflexivity.
      * cbn in Hf. lia.
      * assumption.
      * rewrite E', <- !app_assoc. reflexivity.
  - assert (Dx : In x digits) by (apply Hds; left; reflexivity).
    cbn [app] in E. unfold bind. rewrite (rc_at pre x _ E).
    assert (N1 : beq x x2e = false).
    { assert (Ex : forallb (fun x => negb (beq x x2e)) digits = true) by (vm_compute; reflexivity).
      rewrite forallb_forall in Ex. apply negb_true_iff. apply Ex. assumption. }
    rewrite N1. unfold ret. rewrite digit_mem.
    replace (memb x digits) with true by (symmetry; apply memb_spec; assumption).
    rewrite (IH (fun y H => Hds y (or_intror H)) fuel x (acc ++ [c]) fl (pre ++ [x]) d post).
    + rewrite <- !app_assoc. reflexivity.
    + cbn in Hf. lia.
    + assumption.
    + rewrite E, <- app_assoc. reflexivity.
Qed.

(* ------------------------------------------------------------------ *)
(** ** Tokens *)
Lemma not_eof pre c post m : D = pre ++ c :: post -> on_r rd_eof (mkTk (mkR D (len pre)) m) = Ret (false, mkTk (mkR D (len pre)) m).
Proof using HD.
  intros E. unfold on_r. cbn [tk_r tk_mark]. rewrite r_eof_at.
  replace (len D <=? len pre) with false; [reflexivity|].
  symmetry. apply N.leb_gt. rewrite E, len_app, len_cons. lia.
Qed.

(** The beginning of [tk_next]. *)
Lemma next_start f pre c post m : D = pre ++ c :: post ->
  tk_next (S f) (mkTk (mkR D (len pre)) m) =
  (if tk_skip c then tk_next f
   else if beq c x2f then on_r read_char ;; on_r (tk_line f) ;; tk_next f
   else if tk_word_start c then
     let* v := on_r (tk_word_rest f c []) in on_r (rd_seek (-1) CUR) ;; ret (TKeyword, v)
   else if beq c x22 then
     let* c1 := on_r read_char in
     let* x := on_r (tk_string_rest f c1 [] x00) in
     let '(v, prev, last) := x in
     (if beq last x22 then ret tt else on_r (rd_seek (-1) CUR)) ;;
     ret (TString, if beq prev x29 then removelast v else v)
   else if tk_number_start c then
     let* x := on_r (tk_number_rest f c [] false) in
     on_r (rd_seek (-1) CUR) ;;
     ret (if snd x then TFloat else TInteger, fst x)
   else if beq c x7b then ret (TLbrace, [])
   else if beq c x7d then ret (TRbrace, [])
   else if beq c x3a then ret (TColon, [])
   else ret (TNothing, [])) (mkTk (mkR D (len (pre ++ [c]))) (len pre)).
Proof using HD.
  intros E. cbn [tk_next]. unfold bind at 1. rewrite (not_eof pre c post m E).
  unfold bind at 1. unfold on_r at 1. cbn [tk_r tk_mark rd_tell rpos]. unfold bind at 1. unfold set_mark at 1. cbn [tk_r tk_mark].
  unfold bind at 1. unfold on_r at 1. cbn [tk_r tk_mark]. rewrite (rc_at pre c post E). reflexivity.
Qed.

Lemma blank_at b : blank b -> forall fuel pre x m, (length b < fuel)%nat -> D = pre ++ b ++ x ->
  exists fuel' m', (fuel <= fuel' + length b)%nat /\
    tk_next fuel (mkTk (mkR D (len pre)) m) = tk_next fuel' (mkTk (mkR D (len (pre ++ b))) m').
Proof using HD.
  induction 1 as [|c s Hc Hs IH|t s Ht Hs IH]; intros fuel pre x m Hf E.
  - exists fuel, m. rewrite app_nil_r. split; [cbn; lia | reflexivity].
  - destruct fuel as [|fuel]; [cbn in Hf; lia|]. cbn [app] in E.
    assert (E' : D = (pre ++ [c]) ++ s ++ x) by (rewrite E, <- app_assoc; reflexivity).
    destruct (IH fuel (pre ++ [c]) x (len pre) ltac:(cbn in Hf; lia) E') as (f' & m' & Hf' & R).
    exists f', m'. split; [cbn; lia|].
    rewrite (next_start fuel pre c (s ++ x) m E). rewrite skip_mem.
    replace (memb c (spaces ++ lit "();")) with true by (symmetry; apply memb_spec; assumption).
    rewrite R. rewrite <- app_assoc. reflexivity.
  - destruct fuel as [|fuel]; [cbn in Hf; lia|].
    change (lit "//" ++ t ++ x0a :: s) with (x2f :: x2f :: t ++ x0a :: s) in *.
    cbn [app length] in E, Hf. rewrite app_length in Hf. cbn [length] in Hf.
    assert (E1 : D = (pre ++ [x2f]) ++ x2f :: (t ++ x0a :: s) ++ x) by (rewrite E, <- !app_assoc; reflexivity).
    assert (E2 : D = ((pre ++ [x2f]) ++ [x2f]) ++ t ++ x0a :: s ++ x)
      by (rewrite E, <- !app_assoc; reflexivity).
    assert (E3 : D = (((pre ++ [x2f]) ++ [x2f]) ++ t ++ [x0a]) ++ s ++ x)
      by (rewrite E2, <- !app_assoc; reflexivity).
    destruct (IH fuel _ x (len pre) ltac:(lia) E3) as (f' & m' & Hf' & R).
    exists f', m'. split; [cbn [length]; rewrite app_length; cbn [length]; lia|].
    rewrite (next_start fuel pre x2f _ m E). change (tk_skip x2f) with false. change (beq x2f x2f) with true. cbv iota.
    unfold bind at 1. unfold on_r at 1. cbn [tk_r tk_mark]. rewrite (rc_at _ x2f _ E1).
    unfold bind at 1. unfold on_r at 1. cbn [tk_r tk_mark].
    rewrite (tk_line_at t Ht fuel ((pre ++ [x2f]) ++ [x2f]) (s ++ x)) by (assumption || lia).
    rewrite R. rewrite <- !app_assoc. reflexivity.
Qed.

Lemma last_vis_app a b p : last_vis (a ++ b) p = last_vis b (last_vis a p).
Proof using Type. apply fold_left_app. Qed.
Lemma last_vis_ws ws p : (forall c, In c ws -> In c spaces) -> last_vis ws p = p.
Proof using Type.
  induction ws as [|c ws IH]; intros H; [reflexivity|]. cbn [last_vis fold_left].
  replace (MText.is_ws c) with true by (symmetry; rewrite ws_mem; apply memb_spec; apply H; left; reflexivity).
  apply IH. intros x Hx. apply H. right. assumption.
Qed.
Lemma last_vis_paren v : last_vis v x00 = x29 -> exists a ws, v = a ++ x29 :: ws /\ forall c, In c ws -> In c spaces.
Proof using Type.
  induction v as [|c v IH] using rev_ind; [discriminate|]. rewrite last_vis_app. cbn [last_vis fold_left].
  destruct (MText.is_ws c) eqn:Ec; intros H.
  - destruct (IH H) as (a & ws & E & Hw). exists a, (ws ++ [c]). split; [rewrite E, <- app_assoc; reflexivity|].
    intros x Hx. apply in_app_or in Hx. destruct Hx as [Hx|[Hx|[]]]; [apply Hw; assumption|].
    subst. apply memb_spec. rewrite <- ws_mem. assumption.
  - subst c. exists v, []. split; [reflexivity | intros x []].
Qed.
Lemma quotable_vis v : quotable v -> beq (last_vis v x00) x29 = false.
Proof using Type.
  intros (_ & _ & H). apply Bool.not_true_is_false. intros B. apply beq_spec in B. apply H. apply last_vis_paren. assumption.
Qed.

Lemma string_next f pre v d post m : ~ In x22 v -> ~ In x0a v -> d = x22 \/ d = x0a -> (length v < f)%nat -> D = pre ++ x22 :: v ++ d :: post ->
  tk_next (S f) (mkTk (mkR D (len pre)) m) =
  Ret ((TString, if beq (last_vis v x00) x29 then removelast v else v),
       mkTk (mkR D (if beq d x22 then len (pre ++ x22 :: v ++ [d]) else len (pre ++ x22 :: v))) (len pre)).
Proof using HD.
  intros H1 H2 Hd Hf E. rewrite (next_start f pre x22 _ m E).
  change (tk_skip x22) with false. change (beq x22 x2f) with false. change (tk_word_start x22) with false.
  change (beq x22 x22) with true. cbv iota.
  destruct (v ++ [d]) as [|c w] eqn:Ev; [destruct v; discriminate|].
  assert (E1 : D = (pre ++ [x22]) ++ v ++ d :: post) by (rewrite E, <- !app_assoc; reflexivity).
  assert (E2 : D = (pre ++ [x22]) ++ c :: w ++ post).
  { rewrite E1. f_equal. change (v ++ d :: post) with (v ++ [d] ++ post). rewrite app_assoc, Ev. reflexivity. }
  unfold bind at 1. unfold on_r at 1. cbn [tk_r tk_mark]. rewrite (rc_at _ c _ E2).
  unfold bind at 1. unfold on_r at 1. cbn [tk_r tk_mark].
  rewrite (tk_string_rest_at v H1 H2 f [] x00 (pre ++ [x22]) d post Hf Hd E1 c w Ev). cbn [app].
  destruct (beq d x22) eqn:Bd.
  - unfold bind. cbn [ret]. unfold ret. do 4 f_equal. rewrite <- Ev, <- !app_assoc. reflexivity.
  - unfold bind at 1. unfold on_r at 1. cbn [tk_r tk_mark].
    assert (E3 : D = ((pre ++ [x22]) ++ v) ++ d :: post) by (rewrite E1, <- !app_assoc; reflexivity).
    replace ((pre ++ [x22]) ++ v ++ [d]) with (((pre ++ [x22]) ++ v) ++ [d]) by (rewrite <- !app_assoc; reflexivity).
    rewrite (back_at _ d post E3). unfold ret. do 4 f_equal. rewrite <- !app_assoc. reflexivity.
Qed.

Lemma removelast_snoc {A} (v : list A) x : removelast (v ++ [x]) = v.
Proof using Type. rewrite removelast_app by discriminate. cbn. apply app_nil_r. Qed.

Lemma lexeme_next k v t g : lexeme k v t g -> forall f pre m, (length t < f)%nat -> D = pre ++ t ++ g ->
  tk_next (S f) (mkTk (mkR D (len pre)) m) = Ret ((k, v), mkTk (mkR D (len (pre ++ t))) (len pre)).
Proof using HD.
  destruct 1 as [c w rest Hc Hw Hr | neg ds rest Hds Hd Hr | neg ds fs rest Hds Hd Hfs Hr | v rest Hq | v rest Hq Hr | v rest H1 H2 Hr | rest | rest | rest];
    intros f pre m Hf E.
  - cbn [app] in E. rewrite (next_start f pre c _ m E).
    pose proof (word_first c Hc) as Fc. apply andb_prop in Fc. destruct Fc as [F1 F2]. rewrite negb_true_iff in F1, F2.
    rewrite F1, F2. rewrite word_start_mem.
    replace (memb c word_starts) with true by (symmetry; apply memb_spec; assumption).
    destruct rest as [|d post]; [contradiction|].
    assert (E1 : D = (pre ++ [c]) ++ w ++ d :: post) by (rewrite E; apps).
    unfold bind at 1. unfold on_r at 1. cbn [tk_r tk_mark].
    rewrite (tk_word_rest_at w Hw f c [] (pre ++ [c]) d post ltac:(cbn in Hf; lia) Hr E1).
    unfold bind at 1. unfold on_r at 1. cbn [tk_r tk_mark].
    replace ((pre ++ [c]) ++ w ++ [d]) with ((pre ++ c :: w) ++ [d]) by apps.
    rewrite (back_at (pre ++ c :: w) d post) by (rewrite E; apps). reflexivity.
  - destruct rest as [|d post]; [contradiction|]. cbn [stops] in Hr.
    destruct neg; cbn [sign app] in *.
    + rewrite (next_start f pre x2d _ m E). change (tk_skip x2d) with false. change (beq x2d x2f) with false.
      change (tk_word_start x2d) with false. change (beq x2d x22) with false. change (tk_number_start x2d) with true. cbv iota.
      assert (E1 : D = (pre ++ [x2d]) ++ ds ++ d :: post) by (rewrite E; apps).
      unfold bind at 1. unfold on_r at 1. cbn [tk_r tk_mark].
      rewrite (tk_digits_at ds Hd f x2d [] false (pre ++ [x2d]) d post ltac:(cbn in Hf; lia) Hr E1).
      unfold bind at 1. unfold on_r at 1. cbn [tk_r tk_mark].
      replace ((pre ++ [x2d]) ++ ds ++ [d]) with ((pre ++ x2d :: ds) ++ [d]) by apps.
      rewrite (back_at (pre ++ x2d :: ds) d post) by (rewrite E; apps). reflexivity.
    + destruct ds as [|c ds]; [congruence|]. cbn [app] in *.
      destruct (digit_kinds c (Hd c (or_introl eq_refl))) as (F0 & F3 & F4 & F5).
      apply andb_prop in F0. destruct F0 as [F1 F2]. rewrite negb_true_iff in F1, F2.
      rewrite (next_start f pre c _ m E). rewrite F1, F2, F3, F4, F5.
      assert (E1 : D = (pre ++ [c]) ++ ds ++ d :: post) by (rewrite E; apps).
      unfold bind at 1. unfold on_r at 1. cbn [tk_r tk_mark].
      rewrite (tk_digits_at ds (fun x H => Hd x (or_intror H)) f c [] false (pre ++ [c]) d post ltac:(cbn in Hf; lia) Hr E1).
      unfold bind at 1. unfold on_r at 1. cbn [tk_r tk_mark].
      replace ((pre ++ [c]) ++ ds ++ [d]) with ((pre ++ c :: ds) ++ [d]) by apps.
      rewrite (back_at (pre ++ c :: ds) d post) by (rewrite E; apps). reflexivity.
  - destruct rest as [|d post]; [contradiction|]. cbn [stops] in Hr.
    destruct neg; cbn [sign app] in *.
    + rewrite (next_start f pre x2d _ m E). change (tk_skip x2d) with false. change (beq x2d x2f) with false.
      change (tk_word_start x2d) with false. change (beq x2d x22) with false. change (tk_number_start x2d) with true. cbv iota.
      assert (E1 : D = (pre ++ [x2d]) ++ ds ++ x2e :: fs ++ d :: post) by (rewrite E; apps).
      unfold bind at 1. unfold on_r at 1. cbn [tk_r tk_mark].
      rewrite (tk_fraction_at ds fs Hd Hfs f x2d [] false (pre ++ [x2d]) d post
                 ltac:(cbn in Hf; rewrite app_length in Hf; cbn in Hf; lia) Hr E1).
      unfold bind at 1. unfold on_r at 1. cbn [tk_r tk_mark].
      replace ((pre ++ [x2d]) ++ ds ++ x2e :: fs ++ [d]) with ((pre ++ x2d :: ds ++ x2e :: fs) ++ [d])
        by apps.
      rewrite (back_at (pre ++ x2d :: ds ++ x2e :: fs) d post) by (rewrite E; apps). reflexivity.
    + destruct ds as [|c ds]; [congruence|]. cbn [app] in *.
      destruct (digit_kinds c (Hd c (or_introl eq_refl))) as (F0 & F3 & F4 & F5).
      apply andb_prop in F0. destruct F0 as [F1 F2]. rewrite negb_true_iff in F1, F2.
      rewrite (next_start f pre c _ m E). rewrite F1, F2, F3, F4, F5.
      assert (E1 : D = (pre ++ [c]) ++ ds ++ x2e :: fs ++ d :: post) by (rewrite E; apps).
      unfold bind at 1. unfold on_r at 1. cbn [tk_r tk_mark].
      rewrite (tk_fraction_at ds fs (fun x H => Hd x (or_intror H)) Hfs f c [] false (pre ++ [c]) d post
                 ltac:(cbn in Hf; rewrite app_length in Hf; cbn in Hf; lia) Hr E1).
      unfold bind at 1. unfold on_r at 1. cbn [tk_r tk_mark].
      replace ((pre ++ [c]) ++ ds ++ x2e :: fs ++ [d]) with ((pre ++ c :: ds ++ x2e :: fs) ++ [d])
        by apps.
      rewrite (back_at (pre ++ c :: ds ++ x2e :: fs) d post) by (rewrite E; apps). reflexivity.
  - cbn [app] in E. rewrite (string_next f pre v x22 rest m); [| apply Hq | apply Hq | left; reflexivity | |].
    + rewrite (quotable_vis v Hq). change (beq x22 x22) with true. reflexivity.
    + cbn in Hf. rewrite app_length in Hf. lia.
    + rewrite E. apps.
  - destruct rest as [|d post]; [contradiction|]. cbn [newline_next] in Hr. subst d. cbn [app] in E.
    rewrite (string_next f pre v x0a post m); [| apply Hq | apply Hq | right; reflexivity | |].
    + rewrite (quotable_vis v Hq). change (beq x0a x22) with false. reflexivity.
    + cbn in Hf. lia.
    + assumption.
  - destruct rest as [|d post]; [contradiction|]. cbn [newline_next] in Hr. subst d. cbn [app] in E.
    rewrite (string_next f pre (v ++ [x29]) x0a post m).
    + rewrite last_vis_app. cbn [last_vis fold_left]. change (MText.is_ws x29) with false. change (beq x29 x29) with true.
      change (beq x0a x22) with false. rewrite removelast_snoc. reflexivity.
    + intros H. apply in_app_or in H. destruct H as [H|[H|[]]]; [apply H1; assumption | discriminate].
    + intros H. apply in_app_or in H. destruct H as [H|[H|[]]]; [apply H2; assumption | discriminate].
    + right. reflexivity.
    + cbn in Hf. lia.
    + assumption.
  - cbn [app lit] in E. change (lit "{") with [x7b] in *. cbn [app] in E. rewrite (next_start f pre x7b _ m E). reflexivity.
  - change (lit "}") with [x7d] in *. cbn [app] in E. rewrite (next_start f pre x7d _ m E). reflexivity.
  - change (lit ":") with [x3a] in *. cbn [app] in E. rewrite (next_start f pre x3a _ m E). reflexivity.
Qed.
End Read.
