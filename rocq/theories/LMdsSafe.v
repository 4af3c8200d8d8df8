(** Model script sources that end in blank lines: tokenising and parsing end. *)

From Coq Require Import Lia ZifyN ZifyBool ZifyNat.
From Verif Require Import MBase MStream SStream MBoxes SBoxes SFormat MText MVfs SVfs MScript SScript LBase LStream LVfs LText LMds.
Local Open Scope N_scope.
Local Open Scope m_scope.

Section Guard.
Variable D : bytes.
Hypothesis HD : len D < max_size.

(** [D] is [pre], text, a line end and more. *)
Lemma rc1 pre c post : D = pre ++ c :: post -> read_char (mkR D (len pre)) = Ret (c, mkR D (len pre + 1)).
Proof using HD. intros E. rewrite (rc_at D HD pre c post E). rewrite len_app. reflexivity. Qed.

Lemma line_any y : forall fuel pre post, (length y < fuel)%nat -> D = pre ++ y ++ x0a :: post ->
  exists k, tk_line fuel (mkR D (len pre)) = Ret (tt, mkR D (len pre + k)) /\ 1 <= k <= len y + 1.
Proof using HD.
  induction y as [|c y IH]; intros fuel pre post Hf E; (destruct fuel as [|fuel]; [cbn in Hf; lia|]); cbn [tk_line]; unfold bind.
  - rewrite (rc1 pre x0a post E). change (beq x0a x0a) with true. exists 1. split; [reflexivity|]. rewrite len_nil. lia.
  - rewrite (rc1 pre c _ E). destruct (beq c x0a).
    + exists 1. split; [reflexivity|]. rewrite len_cons. lia.
    + assert (E' : D = (pre ++ [c]) ++ y ++ x0a :: post) by (rewrite E, <- app_assoc; reflexivity).
      destruct (IH fuel (pre ++ [c]) post ltac:(cbn in Hf; lia) E') as (k & R & K).
      rewrite len_app in R. change (len [c]) with 1 in R. rewrite R. exists (1 + k). split; [|rewrite len_cons; lia].
      do 3 f_equal. lia.
Qed.
Lemma word_any y : forall fuel c acc pre post, (length y < fuel)%nat -> D = pre ++ y ++ x0a :: post ->
  exists v k, tk_word_rest fuel c acc (mkR D (len pre)) = Ret (v, mkR D (len pre + k)) /\ 1 <= k <= len y + 1.
Proof using HD.
  induction y as [|d y IH]; intros fuel c acc pre post Hf E; (destruct fuel as [|fuel]; [cbn in Hf; lia|]); cbn [tk_word_rest]; unfold bind.
  - rewrite (rc1 pre x0a post E). change (tk_word x0a) with false. eexists. exists 1. split; [reflexivity|]. rewrite len_nil. lia.
  - rewrite (rc1 pre d _ E). destruct (tk_word d).
    + assert (E' : D = (pre ++ [d]) ++ y ++ x0a :: post) by (rewrite E, <- app_assoc; reflexivity).
      destruct (IH fuel d (acc ++ [c]) (pre ++ [d]) post ltac:(cbn in Hf; lia) E') as (v & k & R & K).
      rewrite len_app in R. change (len [d]) with 1 in R. rewrite R. exists v, (1 + k). split; [|rewrite len_cons; lia].
      do 3 f_equal. lia.
    + eexists. exists 1. split; [reflexivity|]. rewrite len_cons. lia.
Qed.
Lemma string_any y : forall fuel c acc prev pre post, (S (length y) < fuel)%nat -> D = pre ++ y ++ x0a :: post ->
  exists v p d k, tk_string_rest fuel c acc prev (mkR D (len pre)) = Ret (v, p, d, mkR D (len pre + k)) /\
    k <= len y + 1 /\ (beq d x22 = true -> k <= len y).
Proof using HD.
  induction y as [|e y IH]; intros fuel c acc prev pre post Hf E; (destruct fuel as [|fuel]; [cbn in Hf; lia|]); cbn [tk_string_rest].
  - destruct (beq c x22 || beq c x0a).
    { exists acc, prev, c, 0. rewrite N.add_0_r. split; [reflexivity|]. lia. }
    unfold bind. rewrite (rc1 pre x0a post E). destruct fuel as [|fuel]; [cbn in Hf; lia|]. cbn [tk_string_rest].
    change (beq x0a x22 || beq x0a x0a) with true. eexists. eexists. exists x0a, 1. split; [reflexivity|]. rewrite len_nil. split; [lia | discriminate].
  - destruct (beq c x22 || beq c x0a).
    { exists acc, prev, c, 0. rewrite N.add_0_r. split; [reflexivity|]. lia. }
    unfold bind. rewrite (rc1 pre e _ E).
    assert (E' : D = (pre ++ [e]) ++ y ++ x0a :: post) by (rewrite E, <- app_assoc; reflexivity).
    destruct (IH fuel e (acc ++ [c]) (if MText.is_ws c then prev else c) (pre ++ [e]) post ltac:(cbn in Hf; lia) E') as (v & p & d & k & R & K1 & K2).
    rewrite len_app in R. change (len [e]) with 1 in R. rewrite R. exists v, p, d, (1 + k). split; [do 3 f_equal; lia|].
    rewrite len_cons. split; [lia|]. intros B. specialize (K2 B). lia.
Qed.
Lemma number_any n : forall y fuel c acc fl pre post, (length y <= n)%nat -> (n < fuel)%nat -> D = pre ++ y ++ x0a :: post ->
  exists x k, tk_number_rest fuel c acc fl (mkR D (len pre)) = Ret (x, mkR D (len pre + k)) /\ 1 <= k <= len y + 1.
Proof using HD.
  induction n as [|n IH]; intros y fuel c acc fl pre post Hy Hf E; (destruct fuel as [|fuel]; [lia|]); cbn [tk_number_rest]; unfold bind.
  - destruct y; [|cbn in Hy; lia]. rewrite (rc1 pre x0a post E). change (beq x0a x2e) with false. unfold ret. change (is_digit x0a) with false.
    eexists. exists 1. split; [reflexivity|]. rewrite len_nil. lia.
  - destruct y as [|d y].
    { rewrite (rc1 pre x0a post E). change (beq x0a x2e) with false. unfold ret. change (is_digit x0a) with false.
      eexists. exists 1. split; [reflexivity|]. rewrite len_nil. lia. }
    rewrite (rc1 pre d _ E).
    assert (E' : D = (pre ++ [d]) ++ y ++ x0a :: post) by (rewrite E, <- app_assoc; reflexivity).
    assert (L1 : len pre + 1 = len (pre ++ [d])) by (rewrite len_app; reflexivity).
    destruct (beq d x2e).
    + destruct y as [|d2 y].
      * rewrite L1. rewrite (rc1 (pre ++ [d]) x0a post E'). unfold ret. change (is_digit x0a) with false.
        eexists. exists 2. split; [do 3 f_equal; rewrite <- L1; lia|]. rewrite len_cons, len_nil. lia.
      * rewrite L1. rewrite (rc1 (pre ++ [d]) d2 _ E'). unfold ret. destruct (is_digit d2).
        -- assert (E2 : D = ((pre ++ [d]) ++ [d2]) ++ y ++ x0a :: post) by (rewrite E', <- !app_assoc; reflexivity).
           destruct (IH y fuel d2 ((acc ++ [c]) ++ [d]) true ((pre ++ [d]) ++ [d2]) post ltac:(cbn in Hy; lia) ltac:(cbn in Hf; lia) E2) as (x & k & R & K).
           rewrite len_app in R. change (len [d2]) with 1 in R. rewrite R. exists x, (2 + k). split; [|rewrite !len_cons; lia].
           do 3 f_equal. rewrite <- L1. lia.
        -- eexists. exists 2. split; [do 3 f_equal; rewrite <- L1; lia|]. rewrite !len_cons. lia.
    + unfold ret. destruct (is_digit d).
      * rewrite L1. destruct (IH y fuel d (acc ++ [c]) fl (pre ++ [d]) post ltac:(cbn in Hy; lia) ltac:(cbn in Hf; lia) E') as (x & k & R & K).
        rewrite R. exists x, (1 + k). split; [|rewrite !len_cons; lia]. do 3 f_equal. rewrite <- L1. lia.
      * eexists. exists 1. split; [reflexivity|]. rewrite len_cons. lia.
Qed.

Lemma seek1 p : 1 <= p -> p <= len D -> rd_seek (-1) CUR (mkR D p) = Ret (tt, mkR D (p - 1)).
Proof using HD. intros H1 H2. apply rd_seek_back; assumption. Qed.

(** The rest of a text that ends in two line ends *)
Definition tailed (w : bytes) : Prop := w = [] \/ w = [x0a] \/ exists y, w = y ++ [x0a; x0a].
Lemma tailed_cons c w : tailed (c :: w) -> tailed w.
Proof using Type.
  intros [H|[H|(y & H)]]; [discriminate | injection H as -> ->; left; reflexivity|].
  destruct y as [|d y]; cbn [app] in H; injection H as -> ->; [right; left; reflexivity | right; right; exists y; reflexivity].
Qed.
Lemma tailed_skip n w : tailed w -> tailed (skipn n w).
Proof using Type.
  revert w. induction n as [|n IH]; intros w H; [exact H|]. destruct w as [|c w]; [exact H|]. cbn [skipn]. apply IH, (tailed_cons c), H.
Qed.

Lemma next_any n : forall w F pre h m, (length w <= n)%nat -> (n < F)%nat -> tailed w -> D = pre ++ w ++ h ->
  let t := mkTk (mkR D (len pre)) m in
  (exists k v p' m', tk_next F t = Ret ((k, v), mkTk (mkR D p') m') /\ k <> TEof /\
     len pre <= m' /\ m' < p' /\ p' + 2 <= len pre + len w) \/
   (exists F' m', (F <= F' + n)%nat /\ tk_next F t = tk_next F' (mkTk (mkR D (len pre + len w)) m') /\
     (w = [] -> m' = m) /\ (w <> [] -> len pre <= m' /\ m' < len pre + len w)).
Proof using HD.
  induction n as [|n IH]; intros w F pre h m Hw Hf Ht E t; idtac.
  { destruct w; [|cbn in Hw; lia]. right. exists F, m. unfold t. rewrite len_nil, N.add_0_r.
    split; [lia|]. split; [reflexivity|]. split; [reflexivity | congruence]. }
  destruct F as [|f]; [lia|].
  destruct w as [|c w].
  { right. exists (S f), m. unfold t. rewrite len_nil, N.add_0_r. split; [lia|]. split; [reflexivity|]. split; [reflexivity | congruence]. }
  pose proof (tailed_cons c w Ht) as Ht'. cbn [app] in E. cbn [length] in Hw.
  unfold t. rewrite (next_start D HD f pre c (w ++ h) m E).
  assert (E' : D = (pre ++ [c]) ++ w ++ h) by (rewrite E, <- app_assoc; reflexivity).
  assert (L1 : len (pre ++ [c]) = len pre + 1) by (rewrite len_app; reflexivity).
  assert (LD : len pre + 1 + len w + len h = len D) by (rewrite E at 1; rewrite !len_app, len_cons, len_app; lia).
  (* going on after [j] more bytes *)
  assert (On : forall j, j <= len w -> forall q, q = len pre + 1 + j ->
    (exists k v p' m', tk_next f (mkTk (mkR D q) (len pre)) = Ret ((k, v), mkTk (mkR D p') m') /\ k <> TEof /\
       len pre <= m' /\ m' < p' /\ p' + 2 <= len pre + len (c :: w)) \/
    (exists F' m', (S f <= F' + S n)%nat /\ tk_next f (mkTk (mkR D q) (len pre)) = tk_next F' (mkTk (mkR D (len pre + len (c :: w))) m') /\
       (c :: w = [] -> m' = m) /\ (c :: w <> [] -> len pre <= m' /\ m' < len pre + len (c :: w)))).
  { intros j Hj q ->.
    set (w1 := firstn (N.to_nat j) w). set (w2 := skipn (N.to_nat j) w).
    assert (Ew : w = w1 ++ w2) by (symmetry; apply firstn_skipn).
    assert (Lw1 : len w1 = j) by (unfold w1, len in *; rewrite firstn_length; lia).
    assert (E2 : D = ((pre ++ [c]) ++ w1) ++ w2 ++ h) by (rewrite E'; rewrite Ew at 1; rewrite <- !app_assoc; reflexivity).
    assert (Lw2 : len w = j + len w2) by (rewrite Ew at 1; rewrite len_app, Lw1; reflexivity).
    destruct (IH w2 f ((pre ++ [c]) ++ w1) h (len pre)) as [(k & v & p' & m' & R & K1 & K2 & K3 & K4)|(F' & m' & K1 & R & K2 & K3)].
    - unfold w2. rewrite skipn_length. lia.
    - lia.
    - apply tailed_skip, Ht'.
    - exact E2.
    - left. rewrite len_app, L1, Lw1 in R, K2, K4. exists k, v, p', m'. split; [exact R|]. split; [exact K1|]. rewrite len_cons. lia.
    - right. exists F', m'. split; [lia|]. rewrite len_app, L1, Lw1 in R, K3.
      rewrite len_cons. replace (len pre + (1 + len w)) with (len pre + 1 + j + len w2) by lia. split; [exact R|]. split; [discriminate|].
      intros _. destruct w2 as [|d w2]; [specialize (K2 eq_refl); subst m'; rewrite len_nil; lia | specialize (K3 ltac:(discriminate)); lia]. }
  destruct (tk_skip c) eqn:Sk.
  { apply (On 0); [lia|]. rewrite L1. lia. }
  (* a character that is no blank: two line ends follow *)
  assert (Y : exists y, w = y ++ [x0a; x0a]).
  { destruct Ht as [H|[H|(y & H)]]; [discriminate | injection H as -> ->; discriminate|].
    destruct y as [|d y]; cbn [app] in H; injection H as -> ->; [discriminate | exists y; reflexivity]. }
  destruct Y as (y & Ey).
  assert (Lw : len w = len y + 2) by (rewrite Ey, len_app; reflexivity).
  assert (Ln : length w = (length y + 2)%nat) by (rewrite Ey, app_length; reflexivity).
  assert (EY : D = (pre ++ [c]) ++ y ++ x0a :: x0a :: h) by (rewrite E', Ey, <- !app_assoc; reflexivity).
  assert (Tok : forall k (v : bytes) q, k <> TEof -> len pre + 1 <= q -> q <= len pre + 1 + len y ->
    exists k0 v0 p' m', Ret ((k, v), mkTk (mkR D q) (len pre)) = Ret ((k0, v0), mkTk (mkR D p') m') /\ k0 <> TEof /\
       len pre <= m' /\ m' < p' /\ p' + 2 <= len pre + len (c :: w)).
  { intros k v q K1 K2 K3. exists k, v, q, (len pre). split; [reflexivity|]. split; [exact K1|]. rewrite len_cons. lia. }
  destruct (beq c x2f) eqn:Sl.
  { (* a comment *)
    assert (C : exists j, j <= len w /\ (on_r read_char ;; on_r (tk_line f) ;; tk_next f) (mkTk (mkR D (len (pre ++ [c]))) (len pre)) =
                 tk_next f (mkTk (mkR D (len pre + 1 + j)) (len pre))).
    { destruct y as [|d y].
      - cbn [app] in EY. unfold bind at 1. unfold on_r at 1. cbn [tk_r tk_mark]. rewrite (rc1 _ _ _ EY).
        assert (E2 : D = ((pre ++ [c]) ++ [x0a]) ++ [] ++ x0a :: h) by (rewrite EY, <- !app_assoc; reflexivity).
        destruct (line_any [] f _ _ ltac:(cbn [length] in *; lia) E2) as (k & R & K). rewrite len_nil in K.
        unfold bind at 1. unfold on_r at 1. cbn [tk_r tk_mark].
        replace (len (pre ++ [c]) + 1) with (len ((pre ++ [c]) ++ [x0a])) by (rewrite len_app; reflexivity). rewrite R.
        exists (1 + k). split; [lia|]. rewrite len_app, L1. change (len [x0a]) with 1. do 3 f_equal. lia.
      - cbn [app] in EY. unfold bind at 1. unfold on_r at 1. cbn [tk_r tk_mark]. rewrite (rc1 _ _ _ EY).
        assert (E2 : D = ((pre ++ [c]) ++ [d]) ++ y ++ x0a :: x0a :: h) by (rewrite EY, <- !app_assoc; reflexivity).
        destruct (line_any y f _ _ ltac:(cbn [length] in *; lia) E2) as (k & R & K).
        unfold bind at 1. unfold on_r at 1. cbn [tk_r tk_mark].
        replace (len (pre ++ [c]) + 1) with (len ((pre ++ [c]) ++ [d])) by (rewrite len_app; reflexivity). rewrite R.
        rewrite len_cons in Lw. exists (1 + k). split; [lia|]. rewrite len_app, L1. change (len [d]) with 1. do 3 f_equal. lia. }
    destruct C as (j & Hj & C). rewrite C. apply (On j Hj). reflexivity. }
  left.
  destruct (tk_word_start c).
  { destruct (word_any y f c [] _ _ ltac:(lia) EY) as (v & k & R & K).
    unfold bind at 1. unfold on_r at 1. cbn [tk_r tk_mark]. rewrite R.
    unfold bind at 1. unfold on_r at 1. cbn [tk_r tk_mark]. rewrite L1. rewrite seek1 by lia. apply Tok; [discriminate | lia | lia]. }
  destruct (beq c x22).
  { destruct y as [|d y].
    - cbn [app] in EY. unfold bind at 1. unfold on_r at 1. cbn [tk_r tk_mark]. rewrite (rc1 _ _ _ EY).
      unfold bind at 1. unfold on_r at 1. cbn [tk_r tk_mark]. destruct f as [|f]; [cbn in *; lia|]. cbn [tk_string_rest].
      change (beq x0a x22 || beq x0a x0a) with true. cbv iota. unfold ret at 1. cbv beta iota. change (beq x0a x22) with false. cbv iota.
      unfold bind at 1. unfold on_r at 1. cbn [tk_r tk_mark]. rewrite L1. rewrite seek1 by (rewrite ?len_nil in *; lia). apply Tok; [discriminate | lia | rewrite len_nil; lia].
    - cbn [app] in EY. unfold bind at 1. unfold on_r at 1. cbn [tk_r tk_mark]. rewrite (rc1 _ _ _ EY).
      assert (E2 : D = ((pre ++ [c]) ++ [d]) ++ y ++ x0a :: x0a :: h) by (rewrite EY, <- !app_assoc; reflexivity).
      destruct (string_any y f d [] x00 _ _ ltac:(cbn [length] in *; lia) E2) as (v & p & e & k & R & K1 & K2).
      unfold bind at 1. unfold on_r at 1. cbn [tk_r tk_mark].
      replace (len (pre ++ [c]) + 1) with (len ((pre ++ [c]) ++ [d])) by (rewrite len_app; reflexivity). rewrite R. cbv beta iota.
      rewrite len_cons in Lw, Tok. rewrite len_app, L1. change (len [d]) with 1.
      destruct (beq e x22).
      + specialize (K2 eq_refl). unfold bind, ret. apply Tok; [discriminate | lia | lia].
      + unfold bind at 1. unfold on_r at 1. cbn [tk_r tk_mark]. rewrite seek1 by lia. apply Tok; [discriminate | lia | lia]. }
  destruct (tk_number_start c).
  { destruct (number_any (length y) y f c [] false _ _ ltac:(lia) ltac:(lia) EY) as (x & k & R & K).
    unfold bind at 1. unfold on_r at 1. cbn [tk_r tk_mark]. rewrite R.
    unfold bind at 1. unfold on_r at 1. cbn [tk_r tk_mark]. rewrite L1. rewrite seek1 by lia. apply Tok; [destruct (snd x); discriminate | lia | lia]. }
  rewrite L1.
  destruct (beq c x7b); [unfold ret; apply Tok; [discriminate | lia | lia]|].
  destruct (beq c x7d); [unfold ret; apply Tok; [discriminate | lia | lia]|].
  destruct (beq c x3a); unfold ret; apply Tok; try discriminate; lia.
Qed.
End Guard.

(* ------------------------------------------------------------------ *)
(** ** Tokens *)
Section Tokens.
Variable g : bytes.
Let D := g ++ [x0a; x0a].
Hypothesis HD : len D < max_size.

Lemma tailed_rest pre w : D = pre ++ w -> tailed w.
Proof using Type.
  intros E. unfold D in E. assert (X : forall p q r, p ++ [x0a; x0a] = q ++ r -> tailed r); [|exact (X _ _ _ E)].
  clear. induction p as [|c p IH]; intros q r E.
  - destruct q as [|a q]; cbn [app] in E; [subst; right; right; exists []; reflexivity|]. injection E as _ E.
    destruct q as [|b q]; cbn [app] in E; [subst; right; left; reflexivity|]. injection E as _ E.
    destruct q; [|discriminate]. left. symmetry. exact E.
  - destruct q as [|a q]; cbn [app] in E; [subst; right; right; exists (c :: p); reflexivity|]. injection E as _ E. apply (IH q r E).
Qed.
Lemma split_at p : p <= len D -> exists pre w, D = pre ++ w /\ len pre = p.
Proof using Type.
  clear. intros H. exists (firstn (N.to_nat p) D), (skipn (N.to_nat p) D). split; [symmetry; apply firstn_skipn|].
  unfold len in *. rewrite firstn_length. lia.
Qed.

Lemma next_ends F t : rdata (tk_r t) = D -> rpos (tk_r t) <= len D -> (length D < F)%nat ->
  exists k v t', tk_next F t = Ret ((k, v), t') /\ rdata (tk_r t') = D /\ rpos (tk_r t') <= len D /\
    (k = TEof -> rpos (tk_r t') = len D) /\ (k <> TEof -> rpos (tk_r t) < rpos (tk_r t')).
Proof using HD.
  destruct t as [[D' p] m]. cbn [tk_r rdata rpos]. intros -> Hp HF.
  destruct (split_at p Hp) as (pre & w & E & Lp).
  assert (LD : len D = p + len w) by (rewrite E at 1; rewrite len_app; lia).
  assert (E' : D = pre ++ w ++ []) by (rewrite app_nil_r; exact E).
  destruct (next_any D HD (length w) w F pre [] m) as [(k & v & p' & m' & R & K1 & K2 & K3 & K4)|(F' & m' & K1 & R & K2 & K3)].
  - lia.
  - unfold len in *. lia.
  - apply (tailed_rest pre w E).
  - exact E'.
  - rewrite Lp in R. rewrite R. exists k, v. eexists. split; [reflexivity|]. cbn [tk_r rdata rpos]. split; [reflexivity|]. split; [lia|]. split; [congruence | lia].
  - rewrite Lp in R. rewrite R. rewrite <- LD. exists TEof, []. destruct F' as [|F']; [unfold len in *; lia|]. cbn [tk_next].
    unfold bind at 1. unfold on_r at 1. cbn [tk_r tk_mark]. rewrite r_eof_at. rewrite N.leb_refl.
    eexists. split; [reflexivity|]. cbn [tk_r rdata rpos]. split; [reflexivity|]. split; [lia|]. split; [reflexivity | congruence].
Qed.
End Tokens.

(* ------------------------------------------------------------------ *)
(** ** Scripts that end in a brace of its own *)
Lemma drop_while_le (p : byte -> bool) s : (length (drop_while p s) <= length s)%nat.
Proof. destruct (drop_while_split p s) as (a & E & _). rewrite E at 2. rewrite app_length. lia. Qed.
Lemma frames_end n : forall st v, (length (is_rest st) < n)%nat \/ is_eof st || is_fail st = true ->
  exists l, frame_list n true st v = Ret l.
Proof.
  induction n as [|n IH]; intros st v H; cbn [frame_list andb].
  - destruct H as [H|H]; [lia|]. rewrite H. eexists. reflexivity.
  - destruct (is_eof st || is_fail st) eqn:S; [eexists; reflexivity|]. destruct H as [H|H]; [|discriminate].
    destruct (is_int st v) as [v' st'] eqn:E.
    assert (X : (length (is_rest st') < n)%nat \/ is_eof st' || is_fail st' = true).
    { unfold is_int in E. rewrite S in E. pose proof (drop_while_le MText.is_ws (is_rest st)) as L1.
      destruct (drop_while MText.is_ws (is_rest st)) as [|c s1]; [injection E as <- <-; right; reflexivity|].
      destruct (scan_sign (c :: s1)) as [neg s2] eqn:Es.
      assert (L2 : (length s2 <= length (c :: s1))%nat).
      { clear - Es. unfold scan_sign in Es. destruct (beq c x2d); [injection Es as <- <-; cbn; lia|]. destruct (beq c x2b); injection Es as <- <-; cbn; lia. }
      destruct (take_while is_digit s2) as [|d ds] eqn:Et; [injection E as <- <-; right; cbn; apply Bool.orb_true_r|].
      assert (L3 : (length (drop_while is_digit s2) < length s2)%nat).
      { clear - Et. destruct s2 as [|x s2]; [discriminate|]. cbn [take_while drop_while] in *. destruct (is_digit x); [|discriminate].
        pose proof (drop_while_le is_digit s2). cbn [length]. lia. }
      destruct (_ <? _)%Z in E; [injection E as <- <-; right; cbn; apply Bool.orb_true_r|].
      destruct (_ <=? _)%Z in E; [injection E as <- <-; right; cbn; apply Bool.orb_true_r|].
      injection E as <- <-. left. cbn [is_rest]. lia. }
    destruct (IH st' v' X) as (l & R). rewrite R. cbn [obind]. eexists. reflexivity.
Qed.
Lemma tag_calm fr ty a b at_ : match make_event_tag fr ty a b at_ with Undef | Fuel => False | _ => True end.
Proof.
  unfold make_event_tag.
  destruct (frames_end (S (length (opt_text a))) (is_of (opt_text a)) 0%Z ltac:(left; cbn; lia)) as (l & E).
  destruct (event_type ty); try exact I; rewrite E; exact I.
Qed.

Section Closed.
Variable g : bytes.
Let D := g ++ [x0a; x0a; x7d; x0a; x0a].
Hypothesis HD : len D < max_size.
Variable F : nat.
Hypothesis HF : (length D < F)%nat.

Definition inside (t : tks) : Prop := rdata (tk_r t) = D /\ rpos (tk_r t) < len D.
Definition wp {A} (m : M tks A) (t : tks) (P : A -> tks -> Prop) : Prop :=
  match m t with Ret (a, t') => P a t' | Throw _ => True | _ => False end.
Lemma wp_bind {A B} (m : M tks A) (k : A -> M tks B) t P : wp m t (fun a t' => wp (k a) t' P) -> wp (bind m k) t P.
Proof using HD HF. unfold wp, bind. destruct (m t) as [[a t']|?| |]; trivial. Qed.
Lemma wp_ret {A} (a : A) t (P : A -> tks -> Prop) : P a t -> wp (ret a) t P.
Proof using HD HF. intros H. exact H. Qed.
Lemma wp_throw {A} e t (P : A -> tks -> Prop) : wp (throw e) t P.
Proof using HD HF. exact I. Qed.
Lemma wp_mono {A} (m : M tks A) t (P Q : A -> tks -> Prop) : wp m t P -> (forall a t', P a t' -> Q a t') -> wp m t Q.
Proof using HD HF. unfold wp. destruct (m t) as [[a t']|?| |]; trivial. intros H K. apply K, H. Qed.
Lemma wp_uncaught {A} (o : outcome A) t (P : A -> tks -> Prop) : match o with Undef | Fuel => False | _ => True end ->
  (forall a, P a t) -> wp (uncaught o) t P.
Proof using HD HF. unfold wp, uncaught. destruct o as [a|[]| |]; intros H K; trivial. Qed.

Let pos (t : tks) := rpos (tk_r t).
Lemma len_D : len D = len g + 5.
Proof using HD HF. unfold D. rewrite len_app. reflexivity. Qed.

Lemma wp_next t (P : token * bytes -> tks -> Prop) : inside t ->
  (forall k v t', rdata (tk_r t') = D -> pos t <= tk_mark t' -> tk_mark t' < pos t' -> tk_mark t' < len D ->
     match k with
     | TEof => pos t' = len D /\ len D < pos t + 3
     | TRbrace => pos t < pos t' /\ pos t' + 2 <= len D
     | _ => pos t < pos t' /\ pos t' + 5 <= len D
     end -> P (k, v) t') -> wp (tk_next F) t P.
Proof using HD HF.
  unfold pos. destruct t as [[D' p] m]. unfold inside. cbn [tk_r rdata rpos]. intros [-> Hp] K. pose proof len_D as L5.
  assert (Hle : p <= len D) by lia.
  destruct (split_at (g ++ [x0a; x0a; x7d]) p) as (pre & w & E & Lp); [change ((g ++ [x0a; x0a; x7d]) ++ [x0a; x0a]) with ((g ++ [x0a; x0a; x7d]) ++ [x0a; x0a]); rewrite <- app_assoc; exact Hle|].
  assert (ED : D = pre ++ w) by (rewrite <- E, <- app_assoc; reflexivity).
  assert (LD : len D = p + len w) by (rewrite ED at 1; rewrite len_app; lia).
  destruct (N.le_gt_cases (p + 3) (len D)) as [H3|H3].
  - (* before the brace *)
    assert (W : exists y, w = y ++ [x7d; x0a; x0a] /\ tailed y).
    { destruct (split_at g p) as (pre2 & y & E2 & Lp2); [rewrite len_app; change (len [x0a; x0a]) with 2; lia|].
      exists y. assert (E3 : D = pre2 ++ y ++ [x7d; x0a; x0a]) by (rewrite app_assoc, <- E2, <- app_assoc; reflexivity).
      split; [|apply (tailed_rest g pre2 y E2)]. rewrite ED in E3. clear - E3 Lp Lp2. 
      revert pre2 E3 Lp2. subst p. induction pre as [|c pre IH]; intros pre2 E3 L; destruct pre2 as [|c2 pre2]; try (rewrite ?len_nil, ?len_cons in L; lia).
      - exact E3.
      - cbn [app] in E3. injection E3 as -> E3. apply (IH pre2 E3). rewrite !len_cons in L. lia. }
    destruct W as (y & -> & Ty). rewrite len_app in LD. change (len [x7d; x0a; x0a]) with 3 in LD.
    destruct (next_any D HD (length y) y F pre [x7d; x0a; x0a] m) as [(k & v & p' & m' & R & K1 & K2 & K3 & K4)|(F' & m' & K1 & R & K2 & K3)].
    + lia.
    + unfold len in *. lia.
    + exact Ty.
    + exact ED.
    + rewrite Lp in R. unfold wp. rewrite R. apply K; cbn [tk_r tk_mark rdata rpos]; try lia; [reflexivity|].
      destruct k; try lia. congruence.
    + rewrite Lp in R. unfold wp. rewrite R. destruct F' as [|F']; [unfold len in *; lia|].
      assert (E4 : D = (pre ++ y) ++ x7d :: [x0a; x0a]) by (rewrite ED, <- app_assoc; reflexivity).
      replace (p + len y) with (len (pre ++ y)) by (rewrite len_app; lia).
      rewrite (next_start D HD F' (pre ++ y) x7d [x0a; x0a] m' E4).
      change (tk_skip x7d) with false. change (beq x7d x2f) with false. change (tk_word_start x7d) with false.
      change (beq x7d x22) with false. change (tk_number_start x7d) with false. change (beq x7d x7b) with false. change (beq x7d x7d) with true. cbv iota.
      unfold ret. assert (L1 : len ((pre ++ y) ++ [x7d]) = p + len y + 1) by (rewrite !len_app; change (len [x7d]) with 1; lia).
      assert (L2 : len (pre ++ y) = p + len y) by (rewrite len_app; lia).
      apply K; cbn [tk_r tk_mark rdata rpos]; rewrite ?L1, ?L2; try lia; reflexivity.
  - assert (Tw : tailed w) by (apply (tailed_rest (g ++ [x0a; x0a; x7d]) pre w E)).
    destruct (next_any D HD (length w) w F pre [] m) as [(k & v & p' & m' & R & K1 & K2 & K3 & K4)|(F' & m' & K1 & R & K2 & K3)].
    + lia.
    + unfold len in *. lia.
    + exact Tw.
    + rewrite app_nil_r. exact ED.
    + lia.
    + rewrite Lp in R. unfold wp. rewrite R. rewrite <- LD. destruct F' as [|F']; [unfold len in *; lia|]. cbn [tk_next].
      unfold bind at 1. unfold on_r at 1. cbn [tk_r tk_mark]. rewrite r_eof_at. rewrite N.leb_refl. unfold ret.
      assert (NE : w <> []) by (intros ->; rewrite len_nil in LD; lia). specialize (K3 NE).
      apply K; cbn [tk_r tk_mark rdata rpos]; try lia. reflexivity.
Qed.

Definition from (t t' : tks) : Prop := rdata (tk_r t') = D /\ pos t <= pos t' /\ pos t' < len D.
Lemma from_inside t t' : from t t' -> inside t'.
Proof using HD HF. intros (H1 & H2 & H3). split; assumption. Qed.
Lemma from_refl t : inside t -> from t t.
Proof using HD HF. intros [H1 H2]. repeat split; [exact H1 | reflexivity | exact H2]. Qed.
Lemma from_trans t1 t2 t3 : from t1 t2 -> from t2 t3 -> from t1 t3.
Proof using HD HF. intros (A1 & A2 & A3) (B1 & B2 & B3). split; [exact B1|]. split; [lia | exact B3]. Qed.

Lemma wp_back t (P : unit -> tks -> Prop) : rdata (tk_r t) = D -> tk_mark t < len D ->
  P tt (mkTk (mkR D (tk_mark t)) (tk_mark t)) -> wp tk_backtrack t P.
Proof using HD HF.
  destruct t as [[D' p] m]. cbn [tk_r tk_mark rdata]. intros -> Hm K. unfold wp, tk_backtrack, on_r. cbn [tk_r tk_mark].
  rewrite rd_seek_beg by lia. exact K.
Qed.

(** What [p_maybe] leaves: on a hit the mark is where the token began. *)
Lemma wp_maybe k t (P : option bytes -> tks -> Prop) : inside t -> k <> TEof ->
  (forall v t', from t t' -> pos t < pos t' -> (k <> TRbrace -> pos t' + 5 <= len D) -> pos t <= tk_mark t' -> tk_mark t' < len D -> P (Some v) t') ->
  (forall t', from t t' -> P None t') -> wp (p_maybe F k) t P.
Proof using HD HF.
  intros Hi Hk K1 K2. unfold p_maybe. apply wp_bind. apply wp_next; [exact Hi|]. intros k' v t' Hd M1 M2 M3 Hp. cbn [fst snd].
  destruct (token_eqb k' k) eqn:Ek.
  - assert (k' = k) as -> by (destruct k', k; try discriminate Ek; reflexivity). apply wp_ret.
    apply K1; try assumption; [split; [exact Hd|]; pose proof len_D; destruct k; try lia; congruence | destruct k; try lia; congruence |].
    intros Hr. destruct k; try lia; congruence.
  - apply wp_bind. apply wp_back; [exact Hd | exact M3|]. apply wp_ret. apply K2. split; [reflexivity|]. cbn. split; [exact M1 | exact M3].
Qed.

Definition calm {A} (m : M tks A) : Prop := forall t, inside t -> wp m t (fun _ t' => from t t').
Lemma calm_bind {A B} (m : M tks A) (k : A -> M tks B) : calm m -> (forall a, calm (k a)) -> calm (bind m k).
Proof using HD HF.
  intros Hm Hk t Ht. apply wp_bind. eapply wp_mono; [apply Hm, Ht|]. intros a t' Ft. cbv beta.
  eapply wp_mono; [apply Hk, (from_inside t), Ft|]. intros b t'' Ft'. exact (from_trans _ _ _ Ft Ft').
Qed.
Lemma calm_ret {A} (a : A) : calm (ret a).
Proof using HD HF. intros t Ht. apply wp_ret, from_refl, Ht. Qed.
Lemma calm_throw {A} e : calm (@throw tks A e).
Proof using HD HF. intros t Ht. exact I. Qed.
Lemma calm_uncaught {A} (o : outcome A) : match o with Undef | Fuel => False | _ => True end -> calm (uncaught o).
Proof using HD HF. intros H t Ht. apply wp_uncaught; [exact H|]. intros a. apply from_refl, Ht. Qed.
Lemma stoi_calm v : match stoi v with Undef | Fuel => False | _ => True end.
Proof using HD HF. unfold stoi. destruct (scan_int v) as [[z r]|]; [|exact I]. destruct (_ && _); exact I. Qed.
Lemma stof_calm v : match stof v with Undef | Fuel => False | _ => True end.
Proof using HD HF.
  unfold stof. destruct (scan_float v) as [[[[a b] c] d]|]; [|exact I]. destruct (round_q b c) as [x y]. destruct (_ || _); exact I.
Qed.

Lemma maybe_calm k : k <> TEof -> calm (p_maybe F k).
Proof using HD HF. intros Hk t Ht. apply wp_maybe; try assumption; intros; assumption. Qed.
Lemma expect_calm k : k <> TEof -> calm (p_expect F k).
Proof using HD HF.
  intros Hk. unfold p_expect. apply calm_bind; [apply maybe_calm, Hk|]. intros [v|]; [apply calm_ret | apply calm_throw].
Qed.
Lemma maybe_word_calm w : calm (p_maybe_word F w).
Proof using HD HF.
  intros t Ht. unfold p_maybe_word. apply wp_bind. apply wp_maybe; [exact Ht | discriminate | |].
  - intros v t' Ft P1 P2 M1 M2. destruct (iequals v w); [apply wp_ret, Ft|].
    apply wp_bind. apply wp_back; [apply Ft | exact M2|]. apply wp_ret. split; [reflexivity|]. split; [exact M1 | exact M2].
  - intros t' Ft. apply wp_ret, Ft.
Qed.
Lemma maybe_number_calm : calm (p_maybe_number F).
Proof using HD HF.
  intros t Ht. unfold p_maybe_number. apply wp_bind. apply wp_next; [exact Ht|]. intros k v t' Hd M1 M2 M3 Hp. cbn [fst snd]. pose proof len_D.
  assert (B : wp (tk_backtrack ;; ret (@None N)) t' (fun _ t0 => from t t0)).
  { apply wp_bind. apply wp_back; [exact Hd | exact M3|]. apply wp_ret. split; [reflexivity|]. split; [exact M1 | exact M3]. }
  destruct k; try exact B; apply wp_bind; (apply wp_uncaught; [apply stof_calm|]); intros a; apply wp_ret; (split; [exact Hd | lia]).
Qed.
Lemma maybe_flags_calm : calm (p_maybe_flags F).
Proof using HD HF.
  intros t Ht. unfold p_maybe_flags. apply wp_bind. apply wp_maybe; [exact Ht | discriminate | |].
  - intros v t' Ft P1 P2 M1 M2. destruct (contains (lit "ani") v || contains (lit "model") v).
    + apply wp_back; [apply Ft | exact M2|]. split; [reflexivity|]. split; [exact M1 | exact M2].
    + apply wp_bind. eapply wp_mono; [apply (maybe_calm TColon ltac:(discriminate)), (from_inside t), Ft|].
      intros a t2 F2. apply wp_ret. exact (from_trans _ _ _ Ft F2).
  - intros t' Ft. apply wp_ret, Ft.
Qed.

Ltac calm1 :=
  first
    [ match goal with |- calm (bind _ _) => apply calm_bind; [|intros ?] | |- calm (ret _) => apply calm_ret | |- calm (throw _) => apply calm_throw end | apply maybe_calm; discriminate | apply expect_calm; discriminate
    | apply maybe_word_calm | apply maybe_number_calm | apply maybe_flags_calm | apply calm_uncaught; first [apply stoi_calm | apply stof_calm]
    | match goal with |- calm (if ?b then _ else _) => destruct b end
    | match goal with |- calm (match ?o with Some _ => _ | None => _ end) => destruct o end ].
Ltac calms := repeat calm1.

Lemma expect_int_calm : calm (p_expect_int F).
Proof using HD HF. unfold p_expect_int. calms. Qed.
Lemma maybe_int_calm : calm (p_maybe_int F).
Proof using HD HF. unfold p_maybe_int. calms. Qed.
Lemma expect_number_calm : calm (p_expect_number F).
Proof using HD HF. unfold p_expect_number. calms. Qed.
Lemma maybe_named_calm w : calm (p_maybe_named F w).
Proof using HD HF. unfold p_maybe_named. calms; try apply expect_number_calm; calms. Qed.
Lemma expect_flags_calm : calm (p_expect_flags F).
Proof using HD HF. unfold p_expect_flags. calms. Qed.
Ltac calm2 := first [calm1 | apply expect_int_calm | apply maybe_int_calm | apply expect_number_calm | apply maybe_named_calm | apply expect_flags_calm].
Ltac calms2 := repeat calm2.

Lemma event_calm kw p : p_event F kw = Some p -> calm p.
Proof using HD HF.
  unfold p_event. intros H.
  repeat match goal with H : (if ?b then _ else _) = Some p |- _ => destruct b; [injection H as <-|] | H : None = Some p |- _ => discriminate end.
  - unfold p_eventTag. calms2. apply calm_uncaught, tag_calm.
  - unfold p_eventSFX. calms2.
  - unfold p_eventSFXGrnd. calms2.
  - unfold p_eventPFX. calms2.
  - unfold p_eventPFXStop. calms2.
  - unfold p_eventMMStartAni. calms2.
  - unfold p_eventCamTremor. calms2.
Qed.

(** Loops *)
Lemma eof_inside t : inside t -> on_r rd_eof t = Ret (false, t).
Proof using HD HF.
  destruct t as [[D' p] m]. unfold inside. cbn [tk_r rdata rpos]. intros [-> H]. unfold on_r. cbn [tk_r tk_mark]. rewrite r_eof_at.
  destruct (N.leb_spec (len D) p); [lia | reflexivity].
Qed.
Lemma eof_end t : rdata (tk_r t) = D -> pos t <= len D -> ~ inside t -> on_r rd_eof t = Ret (true, t).
Proof using HD HF.
  destruct t as [[D' p] m]. unfold inside, pos. cbn [tk_r rdata rpos]. intros -> H1 H2. unfold on_r. cbn [tk_r tk_mark]. rewrite r_eof_at.
  destruct (N.leb_spec (len D) p); [reflexivity | exfalso; apply H2; split; [reflexivity | assumption]].
Qed.
Definition upto (t t' : tks) : Prop := rdata (tk_r t') = D /\ pos t <= pos t' /\ pos t' <= len D.
Lemma from_upto t t' : from t t' -> upto t t'.
Proof using HD HF. intros (A1 & A2 & A3). split; [exact A1|]. lia. Qed.
Lemma upto_trans t1 t2 t3 : from t1 t2 -> upto t2 t3 -> upto t1 t3.
Proof using HD HF. intros (A1 & A2 & A3) (B1 & B2 & B3). split; [exact B1|]. lia. Qed.

Lemma block_end_wp t (P : bool -> tks -> Prop) : inside t ->
  (forall t', upto t t' -> P true t') -> (forall t', from t t' -> P false t') -> wp (p_block_end F) t P.
Proof using HD HF.
  intros Hi K1 K2. unfold p_block_end. apply wp_bind. apply wp_maybe; [exact Hi | discriminate | |].
  - intros v t' Ft _ _ _ _. apply wp_ret, K1, from_upto, Ft.
  - intros t' Ft. apply wp_bind. unfold p_maybe. apply wp_bind. apply wp_next; [apply (from_inside t), Ft|].
    intros k v t2 Hd M1 M2 M3 Hp. cbn [fst snd]. destruct Ft as (F1 & F2 & F3).
    assert (B : wp (tk_backtrack ;; ret (@None bytes)) t2 (fun a t' => wp (ret (match a with Some _ => true | None => false end)) t' P)).
    { apply wp_bind. apply wp_back; [exact Hd | exact M3|]. apply wp_ret, wp_ret, K2. split; [reflexivity|]. cbn. unfold pos in *. cbn. split; [lia | exact M3]. }
    destruct k; try exact B. cbn [token_eqb]. apply wp_ret, wp_ret, K1. split; [exact Hd|]. lia.
Qed.
Lemma expect_wp k t (P : bytes -> tks -> Prop) : inside t -> k <> TEof ->
  (forall v t', from t t' -> pos t < pos t' -> (k <> TRbrace -> pos t' + 5 <= len D) -> pos t <= tk_mark t' -> tk_mark t' < len D -> P v t') ->
  wp (p_expect F k) t P.
Proof using HD HF.
  intros Hi Hk K. unfold p_expect. apply wp_bind. apply wp_maybe; [exact Hi | exact Hk | |].
  - intros v t' A1 A2 A3 A4 A5. apply wp_ret, K; assumption.
  - intros t' _. exact I.
Qed.
Lemma ignore_wp n : forall t, inside t -> pos t + 3 <= len D -> len D - pos t < N.of_nat n -> wp (p_ignore_block F n) t (fun _ t' => from t t').
Proof using HD HF.
  induction n as [|n IH]; intros t Hi H3 Hn; [lia|]. cbn [p_ignore_block]. apply wp_bind. apply wp_next; [exact Hi|].
  intros k v t' Hd M1 M2 M3 Hp. cbn [fst snd]. pose proof len_D.
  assert (B : k <> TEof -> k <> TRbrace -> wp (p_ignore_block F n) t' (fun _ t' => from t t')).
  { intros K1 K2. assert (X : pos t < pos t' /\ pos t' + 5 <= len D) by (destruct k; try assumption; congruence).
    eapply wp_mono; [apply IH; [split; [exact Hd | fold (pos t'); lia] | lia | lia]|].
    intros a t2 (F1 & F2 & F3). split; [exact F1|]. lia. }
  destruct k; try (apply B; discriminate).
  - apply wp_ret. split; [exact Hd | lia].
  - lia.
Qed.
Lemma block_calm : calm (let* b := p_maybe F TLbrace in match b with Some _ => p_ignore_block F F | None => ret tt end).
Proof using HD HF.
  intros t Ht. apply wp_bind. apply wp_maybe; [exact Ht | discriminate | |].
  - intros v t' Ft P1 P2 _ _. specialize (P2 ltac:(discriminate)).
    eapply wp_mono; [apply ignore_wp; [apply (from_inside t), Ft | lia | unfold len in *; lia]|].
    intros a t2 F2. exact (from_trans _ _ _ Ft F2).
  - intros t' Ft. apply wp_ret, Ft.
Qed.
Lemma block_then {A} (k : M tks A) : calm k ->
  calm (let* b := p_maybe F TLbrace in (match b with Some _ => p_ignore_block F F | None => ret tt end) ;; k).
Proof using HD HF.
  intros Hk t Ht. pose proof (calm_bind _ (fun _ => k) block_calm (fun _ => Hk) t Ht) as W. revert W. unfold wp, bind.
  destruct (p_maybe F TLbrace t) as [[b t0]|?| |]; trivial.
Qed.
Ltac calm3 := first [apply block_then | calm2].
Ltac calms3 := repeat calm3.
Lemma comb_calm : calm (p_aniComb F).
Proof using HD HF. unfold p_aniComb. calms3. Qed.
Lemma alias_calm : calm (p_aniAlias F).
Proof using HD HF. unfold p_aniAlias. calms3. Qed.
Lemma blend_calm : calm (p_aniBlend F).
Proof using HD HF. unfold p_aniBlend. calms3. Qed.
Lemma modelTag_calm : calm (p_modelTag F).
Proof using HD HF. unfold p_modelTag. calms3. Qed.
Lemma meshAndTree_calm : calm (p_meshAndTree F).
Proof using HD HF. unfold p_meshAndTree. calms3. Qed.

Lemma events_wp n : forall a t, inside t -> len D - pos t < N.of_nat n -> wp (p_events F n a) t (fun _ t' => upto t t').
Proof using HD HF.
  induction n as [|n IH]; intros a t Hi Hn; [lia|]. cbn [p_events]. apply wp_bind. unfold wp at 1. rewrite (eof_inside t Hi).
  apply wp_bind. apply block_end_wp; [exact Hi | intros t' Ut; apply wp_ret, Ut|].
  intros t1 F1. apply wp_bind. apply expect_wp; [apply (from_inside t), F1 | discriminate|].
  intros kw t2 F2 P2 _ M1 M2. pose proof (from_trans _ _ _ F1 F2) as F12. destruct (p_event F kw) as [p|] eqn:Ep.
  - apply wp_bind. eapply wp_mono; [apply (event_calm kw p Ep), (from_inside t1), F2|]. intros ev t3 F3. cbv beta.
    eapply wp_mono; [apply IH; [apply (from_inside t2), F3|]|].
    + destruct F1 as (_ & ? & _), F3 as (_ & ? & ?), Hi as [_ ?]. unfold pos in *. lia.
    + intros b t4 U4. exact (upto_trans _ _ _ (from_trans _ _ _ F12 F3) U4).
  - apply wp_bind. apply wp_back; [apply F2 | exact M2|]. apply wp_ret. destruct F1 as (_ & ? & _). split; [reflexivity|]. unfold pos in *. cbn. lia.
Qed.
Lemma ani_wp t : inside t -> wp (p_ani F) t (fun _ t' => upto t t').
Proof using HD HF.
  intros Ht. unfold p_ani.
  repeat match goal with
  | |- wp (bind (p_events _ _ _) _) _ _ => fail 1
  | |- wp (bind ?m ?k) ?t0 _ =>
      apply wp_bind; eapply wp_mono; [apply (ltac:(calms2) : calm m); first [assumption | eapply from_inside; eassumption]|]; intros ? ? ?; cbv beta in *
  end.
  eapply wp_mono; [apply events_wp; [eapply from_inside; eassumption|]|].
  - match goal with H : from _ ?t |- _ < _ => assert (pos t < len D) by apply H end. unfold len in *. lia.
  - intros aa tt' U. eapply upto_trans; [|exact U]. repeat match goal with H1 : from ?x ?y, H2 : from ?y ?z |- _ => pose proof (from_trans _ _ _ H1 H2); clear H1 H2 end. assumption.
Qed.

Lemma line_wp t : inside t -> pos t + 5 <= len D -> wp (on_r (tk_line F)) t (fun _ t' => upto t t').
Proof using HD HF.
  destruct t as [[D' p] m]. unfold inside, pos. cbn [tk_r rdata rpos]. intros [-> Hp] H5.
  assert (X : exists pre y, D = pre ++ y ++ x0a :: [] /\ len pre = p).
  { exists (firstn (N.to_nat p) (g ++ [x0a; x0a; x7d; x0a])), (skipn (N.to_nat p) (g ++ [x0a; x0a; x7d; x0a])). split.
    - rewrite app_assoc, firstn_skipn. unfold D. rewrite <- app_assoc. reflexivity.
    - pose proof len_D. unfold len in *. rewrite firstn_length, app_length. cbn [length]. lia. }
  destruct X as (pre & y & E & Lp).
  assert (LD : len D = p + len y + 1) by (rewrite E at 1; rewrite !len_app; change (len [x0a]) with 1; lia).
  destruct (line_any D HD y F pre [] ltac:(unfold len in *; lia) E) as (k & R & K). rewrite Lp in R.
  unfold wp, on_r. cbn [tk_r tk_mark]. rewrite R. split; [reflexivity|]. unfold pos. cbn. lia.
Qed.
Lemma enum_command_wp s kw t : inside t -> pos t + 5 <= len D -> wp (p_enum_command F s kw) t (fun _ t' => upto t t').
Proof using HD HF.
  intros Ht H5. unfold p_enum_command.
  assert (C : forall A (m : M tks A) (k : A -> mscript), calm m -> wp (let* a := m in ret (k a)) t (fun _ t' => upto t t')).
  { intros A m k Hm. apply wp_bind. eapply wp_mono; [apply Hm, Ht|]. intros a t' Ft. apply wp_ret, from_upto, Ft. }
  repeat match goal with |- wp (if ?b then _ else _) _ _ => destruct b end.
  - apply wp_bind. eapply wp_mono; [apply ani_wp, Ht|]. intros a t' Ut. apply wp_ret, Ut.
  - apply C, blend_calm.
  - apply C, alias_calm.
  - apply C, comb_calm.
  - apply C, expect_calm. discriminate.
  - apply C, modelTag_calm.
  - apply wp_bind. eapply wp_mono; [apply line_wp; assumption|]. intros a t' Ut. apply wp_ret, Ut.
Qed.
Lemma inside_dec t : rdata (tk_r t) = D -> inside t \/ ~ inside t.
Proof using HD HF. intros E. unfold inside. destruct (N.lt_ge_cases (rpos (tk_r t)) (len D)); [left; split; assumption | right; intros [_ H']; lia]. Qed.
Lemma enum_wp n : forall s t, rdata (tk_r t) = D -> pos t <= len D -> len D - pos t < N.of_nat n -> wp (p_enum F n s) t (fun _ t' => upto t t').
Proof using HD HF.
  induction n as [|n IH]; intros s t Hd Hp Hn; [lia|]. cbn [p_enum]. apply wp_bind.
  destruct (inside_dec t Hd) as [Hi|Hi].
  2:{ unfold wp at 1. rewrite (eof_end t Hd Hp Hi). apply wp_ret. split; [exact Hd|]. lia. }
  unfold wp at 1. rewrite (eof_inside t Hi).
  apply wp_bind. apply block_end_wp; [exact Hi | intros t' Ut; apply wp_ret, Ut|].
  intros t1 F1. apply wp_bind. apply expect_wp; [apply (from_inside t), F1 | discriminate|].
  intros kw t2 F2 P2 P3 _ _. specialize (P3 ltac:(discriminate)). pose proof (from_trans _ _ _ F1 F2) as F12.
  apply wp_bind. eapply wp_mono; [apply enum_command_wp; [apply (from_inside t1), F2 | exact P3]|]. intros s' t3 (U1 & U2 & U3). cbv beta.
  eapply wp_mono; [apply IH; [exact U1 | exact U3|]|].
  - destruct F1 as (_ & ? & _). lia.
  - intros b t4 (V1 & V2 & V3). destruct F12 as (_ & ? & _). split; [exact V1|]. lia.
Qed.
Lemma commands_wp n : forall s t, rdata (tk_r t) = D -> pos t <= len D -> len D - pos t < N.of_nat n -> wp (p_commands F n s) t (fun _ t' => upto t t').
Proof using HD HF.
  induction n as [|n IH]; intros s t Hd Hp Hn; [lia|]. cbn [p_commands]. apply wp_bind.
  destruct (inside_dec t Hd) as [Hi|Hi].
  2:{ unfold wp at 1. rewrite (eof_end t Hd Hp Hi). apply wp_ret. split; [exact Hd|]. lia. }
  unfold wp at 1. rewrite (eof_inside t Hi).
  apply wp_bind. apply block_end_wp; [exact Hi | intros t' Ut; apply wp_ret, Ut|].
  intros t1 F1. apply wp_bind. apply expect_wp; [apply (from_inside t), F1 | discriminate|].
  intros kw t2 F2 P2 P3 _ _. specialize (P3 ltac:(discriminate)). pose proof (from_trans _ _ _ F1 F2) as F12.
  assert (Q : forall s' t3, upto t2 t3 -> wp (p_commands F n s') t3 (fun _ t' => upto t t')).
  { intros s' t3 (U1 & U2 & U3). destruct F1 as (_ & ? & _). eapply wp_mono; [apply IH; [exact U1 | exact U3 | lia]|].
    intros b t4 (V1 & V2 & V3). split; [exact V1|]. lia. }
  destruct (iequals kw (lit "meshAndTree")).
  { apply wp_bind. eapply wp_mono; [apply meshAndTree_calm, (from_inside t1), F2|]. intros a t3 F3. apply Q, from_upto, F3. }
  destruct (iequals kw (lit "registerMesh")).
  { apply wp_bind. eapply wp_mono; [apply (expect_calm TString ltac:(discriminate)), (from_inside t1), F2|]. intros a t3 F3. apply Q, from_upto, F3. }
  destruct (iequals kw (lit "aniEnum")).
  { apply wp_bind. unfold p_aniEnum. apply wp_bind. eapply wp_mono; [apply (expect_calm TLbrace ltac:(discriminate)), (from_inside t1), F2|].
    intros a t3 (F3 & F4 & F5). eapply wp_mono; [apply enum_wp; [exact F3 | lia | unfold len in *; lia]|].
    intros s' t4 (U1 & U2 & U3). apply Q. split; [exact U1|]. lia. }
  apply wp_ret. apply from_upto, F12.
Qed.
Lemma script_wp s t : inside t -> wp (p_script F s) t (fun _ _ => True).
Proof using HD HF.
  intros Ht. unfold p_script, p_expect_word.
  apply wp_bind. eapply wp_mono; [apply (ltac:(calms2) : calm (let* v := p_expect F TKeyword in if iequals v (lit "Model") then ret tt else throw ScriptSyntaxError)), Ht|].
  intros a t1 F1. cbv beta. apply wp_bind. eapply wp_mono; [apply (expect_calm TString ltac:(discriminate)), (from_inside t), F1|].
  intros b t2 F2. cbv beta. apply wp_bind. eapply wp_mono; [apply (expect_calm TLbrace ltac:(discriminate)), (from_inside t1), F2|].
  intros c t3 (F3 & F4 & F5). cbv beta. eapply wp_mono; [apply commands_wp; [exact F3 | lia | unfold len in *; lia]|]. trivial.
Qed.
End Closed.
