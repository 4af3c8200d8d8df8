(** How loading a text archive ends. *)

From Coq Require Import Lia.
From Verif Require Import MBase MStream SStream LBase LStream MZipped MBoxes MText MClasses MArchive SArchive SFormat LFormat LText.
From Verif Require Import MVob MVobs MNpc MCutscene MMaterial MWorld MLib SArchEnd LArchEnd.
Local Open Scope N_scope.
Local Open Scope m_scope.

Lemma eol_len : forall n s a s', r_ok s -> read_until_eol n s = Ret (a, s') -> len (fst a) <= len (rdata s) - rpos s.
Proof.
  induction n as [|n IH]; intros s a s' Hs; cbn [read_until_eol]; [discriminate|]. unfold bind at 1.
  destruct (read_char_cases s Hs) as [(c & E & Hlt) | (E & He)]; rewrite E.
  - destruct (beq c x00 || beq c x0d || beq c x0a); [unfold ret; intros [= <- _]; cbn [fst]; rewrite len_nil; lia|].
    unfold bind at 1. destruct (read_until_eol n _) as [[a1 s1]| | |] eqn:E2; try discriminate. unfold ret. intros [= <- _]. cbn [fst].
    apply IH in E2; [|destruct Hs; split; cbn [rdata rpos]; lia]. cbn [rdata rpos] in E2. rewrite len_cons. lia.
  - change (beq x00 x00) with true. cbn [orb]. unfold ret. intros [= <- _]. cbn [fst]. rewrite len_nil. lia.
Qed.
Lemma eol_moves n s a s' : r_ok s -> rpos s < len (rdata s) -> (N.to_nat (len (rdata s) - rpos s) < n)%nat ->
  read_until_eol n s = Ret (a, s') -> rpos s < rpos s'.
Proof.
  intros Hs Hlt Hn H. destruct n as [|n]; [lia|]. cbn [read_until_eol] in H. unfold bind at 1 in H.
  destruct (read_char_cases s Hs) as [(c & E & _) | (E & He)]; [|lia]. rewrite E in H.
  destruct (beq c x00 || beq c x0d || beq c x0a); [injection H as _ <-; cbn [rpos]; lia|].
  destruct (read_until_eol_fw n (mkR (rdata s) (rpos s + 1))) as (l & c' & p & E2 & Hp).
  { destruct Hs. split; cbn [rdata rpos]; lia. } { cbn [rdata rpos]. lia. }
  unfold bind at 1 in H. rewrite E2 in H. injection H as _ <-. cbn [rdata rpos] in *. lia.
Qed.

Section Text.
Variable D : bytes.
Hypothesis HD : len D < 2 ^ 62.
Let HM : len D < max_size.
Proof using HD. pows. lia. Qed.

Lemma line_at p : p <= len D ->
  exists l q, read_line true (mkR D p) = Ret (l, mkR D q) /\ p <= q <= len D /\ (p < len D -> p < q) /\ (p = len D -> l = []) /\ len l <= len D.
Proof using HD HM.
  intros Hp. assert (Hs : r_ok (mkR D p)) by (split; cbn [rdata rpos]; [lia | exact HM]).
  unfold read_line, read_line_then_ignore. cbn [rdata rpos]. set (fuel := S (N.to_nat (len D - p))).
  destruct (read_until_eol_fw fuel (mkR D p) Hs) as (l & c & x & E & Hx); [cbn [rdata rpos]; unfold fuel; lia|]. cbn [rdata rpos] in *.
  unfold bind at 1. rewrite E.
  assert (L : len l <= len D). { apply eol_len in E; [|exact Hs]. cbn [fst rdata rpos] in E. lia. }
  assert (L0 : p = len D -> l = []).
  { intros ->. apply eol_len in E; [|exact Hs]. cbn [fst rdata rpos] in E. destruct l; [reflexivity|]. rewrite len_cons in E. lia. }
  assert (M : p < len D -> p < x).
  { intros Hlt. apply eol_moves in E; [exact E|exact Hs|exact Hlt|]. cbn [rdata rpos]. unfold fuel. lia. }
  unfold bind at 1. rewrite r_eof_at. cbn [fst snd].
  destruct (N.leb_spec (len D) x) as [He|He].
  - rewrite orb_true_r. exists l, x. repeat split; try assumption; lia.
  - rewrite orb_false_r. destruct ((match ws_chars with [] => true | _ => false end) || beq c x00).
    { exists l, x. repeat split; try assumption; lia. }
    unfold bind at 1.
    destruct (skip_run_fw fuel ws_chars (mkR D x)) as (c2 & q & E2 & Hq).
    { split; cbn [rdata rpos]; lia. } { cbn [rdata rpos]. unfold fuel. lia. }
    cbn [rdata rpos] in *. rewrite E2. unfold bind at 1. rewrite r_eof_at.
    destruct Hq as [Hq | (-> & ->)].
    + destruct ((len D <=? q) && beq c2 x00); [exists l, q; repeat split; try assumption; lia|].
      unfold bind. rewrite rd_seek_back by lia. exists l, (q - 1). repeat split; try assumption; lia.
    + replace (len D <=? len D) with true by (symmetry; apply N.leb_le; lia).
      change (beq x00 x00) with true. cbn [andb]. exists l, (len D). repeat split; try assumption; lia.
Qed.

(** ** Lines *)
Lemma lines_fuel : forall n m p, p <= len D -> (N.to_nat (len D - p) < n)%nat -> (N.to_nat (len D - p) < m)%nat ->
  lines_from n (mkR D p) = lines_from m (mkR D p).
Proof using HD HM.
  induction n as [|n IH]; intros m p Hp Hn Hm; [lia|]. destruct m as [|m]; [lia|]. cbn [lines_from rdata rpos].
  destruct (N.leb_spec (len D) p) as [He|He]; [reflexivity|].
  destruct (line_at p Hp) as (l & q & -> & Hq & Hlt & _). specialize (Hlt He). f_equal. apply IH; lia.
Qed.
Lemma lines_step p l q : p < len D -> read_line true (mkR D p) = Ret (l, mkR D q) -> lines D p = l :: lines D q.
Proof using HD HM.
  intros Hp E. unfold lines. remember (S (length D)) as m eqn:Em. rewrite Em at 1. cbn [lines_from rdata rpos].
  destruct (N.leb_spec (len D) p) as [He|He]; [lia|]. rewrite E. f_equal. subst m.
  destruct (line_at p) as (l' & q' & E' & Hq & Hlt & _); [lia|]. rewrite E in E'. injection E' as <- <-. specialize (Hlt Hp).
  apply lines_fuel; unfold len in *; lia.
Qed.
Lemma lines_end : lines D (len D) = [].
Proof using HD HM. unfold lines. cbn [lines_from rdata rpos]. replace (len D <=? len D) with true by (symmetry; apply N.leb_le; lia). reflexivity. Qed.

Definition weigh (l : bytes) : Z := ((if end_line l then 1 else 0) - (if begin_line l then 1 else 0))%Z.
Definition net (p : N) : Z := fold_right (fun l z => weigh l + z)%Z 0%Z (lines D p).
Definition fine (p : N) : Prop := Forall well_formed_line (lines D p).
Lemma net_count ls : fold_right (fun l z => weigh l + z)%Z 0%Z ls = (Z.of_N (len (filter end_line ls)) - Z.of_N (len (filter begin_line ls)))%Z.
Proof using HD HM.
  induction ls as [|l ls IH]; [reflexivity|]. cbn [fold_right filter]. rewrite IH. unfold weigh.
  destruct (end_line l), (begin_line l); rewrite ?len_cons; lia.
Qed.
Lemma closed_net p : closed (lines D p) -> (0 <= net p)%Z.
Proof using HD HM. intros H. specialize (H 0). rewrite drop_0 in H. unfold net. rewrite net_count. lia. Qed.
Lemma closed_tail l ls : closed (l :: ls) -> closed ls.
Proof using HD HM. intros H i. specialize (H (i + 1)). rewrite <- drop_drop in H. replace (drop 1 (l :: ls)) with ls in H by (rewrite drop_skipn; reflexivity). exact H. Qed.

(** From [p] to [q], with at most [k] more ends than beginnings. *)
Definition tadv (k : Z) (p q : N) : Prop :=
  p <= q <= len D /\ (net p - k <= net q)%Z /\ (closed (lines D p) -> closed (lines D q)) /\ (fine p -> fine q).
Lemma tadv_refl p : p <= len D -> tadv 0 p p.
Proof using HD HM. intros H. repeat split; try lia; auto. Qed.
Lemma tadv_trans j k p q r : tadv j p q -> tadv k q r -> tadv (j + k) p r.
Proof using HD HM. intros (A1 & A2 & A3 & A4) (B1 & B2 & B3 & B4). repeat split; try lia; auto. Qed.
Lemma tadv_weak j k p q : (j <= k)%Z -> tadv j p q -> tadv k p q.
Proof using HD HM. intros H (A1 & A2 & A3 & A4). repeat split; try lia; auto. Qed.
Lemma tadv_line p l q : p <= len D -> read_line true (mkR D p) = Ret (l, mkR D q) -> tadv (weigh l) p q.
Proof using HD HM.
  intros Hp E. destruct (line_at p Hp) as (l' & q' & E' & Hq & Hlt & H0 & _). rewrite E in E'. injection E' as <- <-.
  destruct (N.eq_dec p (len D)) as [Ep|Ep].
  - rewrite (H0 Ep). change (weigh []) with 0%Z. replace q with p by lia. apply tadv_refl, Hp.
  - pose proof (lines_step p l q ltac:(lia) E) as L. split; [lia|]. unfold net, fine. rewrite L. cbn [fold_right]. split; [lia|]. split.
    + apply closed_tail.
    + intros F. inversion F; assumption.
Qed.
Lemma begins_weigh l : begin_line l = true -> weigh l = (-1)%Z.
Proof using HD HM.
  intros H. unfold weigh. rewrite H. destruct l as [|a [|b [|c l]]]; try discriminate. unfold end_line.
  replace (bytes_eqb (a :: b :: c :: l) (lit "[]")) with false; [reflexivity|].
  symmetry. apply not_true_is_false. intros E. apply bytes_eqb_spec in E. discriminate.
Qed.
Lemma weigh_le l : (weigh l <= 1)%Z.
Proof using HD HM. unfold weigh. destruct (end_line l), (begin_line l); lia. Qed.
Lemma weigh_no_end l : end_line l = false -> (weigh l <= 0)%Z.
Proof using HD HM. intros H. unfold weigh. rewrite H. destruct (begin_line l); lia. Qed.

(** ** Readers *)
Variable u : bool.
Definition tout (k : Z) (p : N) {A} (ok : A -> Prop) (r : outcome (A * rstate)) : Prop :=
  match r with
  | Ret (a, s) => ok a /\ exists q, s = mkR D q /\ tadv k p q
  | Throw _ => True
  | Undef => fine p -> u = true
  | Fuel => False
  end.
Lemma tout_bind p {A B} (P : A -> Prop) (ok : B -> Prop) (r : rd A) (k : A -> rd B) :
  tout 0 p P (r (mkR D p)) -> (forall a q, P a -> tadv 0 p q -> tout 0 q ok (k a (mkR D q))) ->
  tout 0 p ok (bind r k (mkR D p)).
Proof using HD HM.
  intros H Hk. unfold bind. destruct (r (mkR D p)) as [[a s]| | |]; try exact H. destruct H as (Ha & q & -> & Hq).
  specialize (Hk a q Ha Hq). destruct (k a (mkR D q)) as [[b s]| | |]; try exact Hk.
  - destruct Hk as (Hb & x & -> & Hx). split; [exact Hb|]. exists x. split; [reflexivity|]. exact (tadv_trans 0 0 _ _ _ Hq Hx).
  - intros F. apply Hk. apply Hq, F.
Qed.
Lemma tout_ret p {A} (ok : A -> Prop) a : p <= len D -> ok a -> tout 0 p ok (ret a (mkR D p)).
Proof using HD HM. intros Hp H. split; [exact H|]. exists p. split; [reflexivity | apply tadv_refl, Hp]. Qed.
Lemma tout_lift p {A} (o : outcome A) : p <= len D -> o <> Undef -> o <> Fuel -> tout 0 p any (lift o (mkR D p)).
Proof using HD HM.
  intros Hp H1 H2. unfold lift. destruct o; [|exact I|congruence|congruence]. split; [exact I|]. exists p. split; [reflexivity | apply tadv_refl, Hp].
Qed.
Lemma after_short c s : len (after c s) <= len s.
Proof using HD HM.
  unfold after. assert (G : forall s r, after_opt c s = Some r -> len r <= len s).
  { clear s. induction s as [|x s IH]; intros r; cbn [after_opt]; [discriminate|]. rewrite len_cons. destruct (beq x c); [intros [= <-]; lia|].
    intros H. apply IH in H. lia. }
  destruct (after_opt c s) eqn:E; [apply G, E | lia].
Qed.
(** What is known of the text of an entry. *)
Definition text_ok (type t : bytes) (p : N) : Prop := len t < 2 ^ 62 /\
  (fine p -> type = lit "color" \/ type = lit "raw" -> exists l, well_formed_line l /\ entry_type l = type /\ entry_text l = t).
Lemma entry_at type p : p <= len D -> type <> lit "[]" -> type <> [] -> tout 0 p (fun t => text_ok type t p) (as_entry type (mkR D p)).
Proof using HD HM.
  intros Hp Ht Hne. unfold as_entry. destruct (line_at p Hp) as (l & q & E & Hq & Hlt & H0 & HL).
  unfold bind at 1. rewrite E. cbv zeta. destruct (bytes_eqb (before x3a (after x3d l)) type) eqn:Et; [|exact I].
  apply bytes_eqb_spec in Et.
  assert (He : end_line l = false).
  { unfold end_line. apply not_true_is_false. intros X. apply bytes_eqb_spec in X. subst l. apply Ht. rewrite <- Et. reflexivity. }
  split.
  - split.
    + pose proof (after_short x3a (after x3d l)). pose proof (after_short x3d l). lia.
    + intros F _. exists l. split; [|split; [exact Et | reflexivity]].
      assert (Hlt' : p < len D). { destruct (N.eq_dec p (len D)) as [X|X]; [|lia]. exfalso. apply Hne. rewrite <- Et, (H0 X). reflexivity. }
      unfold fine in F. rewrite (lines_step p l q Hlt' E) in F. inversion F; assumption.
  - exists q. split; [reflexivity|]. eapply tadv_weak; [apply weigh_no_end, He|]. apply tadv_line; assumption.
Qed.
Lemma hex_read_short : forall n s, (length s <= n)%nat -> len (hex_read s) <= len s.
Proof using HD HM.
  induction n as [|n IH]; intros [|a [|b s]] H; cbn [hex_read]; rewrite ?len_nil; cbn [length] in H; try lia; rewrite !len_cons; specialize (IH s); lia.
Qed.
Lemma hex_strict_ok : forall k s, Forall (fun c => (48 <= b2n c <= 57 \/ 65 <= b2n c <= 70 \/ 97 <= b2n c <= 102)%N) s ->
  2 * N.of_nat k <= len s -> exists b, hex_strict k s = Ret b.
Proof using HD HM.
  induction k as [|k IH]; intros s F L; [eexists; reflexivity|]. destruct F as [|a s Ha F]; [rewrite len_nil in L; lia|].
  destruct F as [|b s Hb F]; [rewrite len_cons, len_nil in L; lia|]. rewrite !len_cons in L. cbn [hex_strict]. unfold hex_byte.
  assert (V : forall c, (48 <= b2n c <= 57 \/ 65 <= b2n c <= 70 \/ 97 <= b2n c <= 102) -> exists n, hex_val c = Some n).
  { intros c Hc. unfold hex_val. destruct ((48 <=? b2n c) && (b2n c <=? 57)) eqn:E1; [eauto|]. destruct ((97 <=? b2n c) && (b2n c <=? 102)) eqn:E2; [eauto|].
    destruct ((65 <=? b2n c) && (b2n c <=? 70)) eqn:E3; [eauto|]. exfalso.
    apply andb_false_iff in E1, E2, E3. rewrite !N.leb_gt in E1, E2, E3. lia. }
  destruct (V a Ha) as [x ->]. destruct (V b Hb) as [y ->]. destruct (IH s F) as [r ->]; [lia|]. cbn [obind]. eauto.
Qed.
Ltac nofuel := unfold stoi, stoul, stof; repeat match goal with |- match ?x with _ => _ end <> _ => destruct x | |- (if ?x then _ else _) <> _ => destruct x end; discriminate.
Lemma stof_total s : stof s <> Undef /\ stof s <> Fuel.
Proof using HD HM. unfold stof. repeat match goal with |- context [match ?x with _ => _ end] => destruct x end; split; discriminate. Qed.
Lemma text_entry k p : p <= len D -> kind_fit k -> tout 0 p (val_fit k) (as_read k (mkR D p)).
Proof using HD HM.
  intros Hp Hk.
  assert (G : forall type, type <> lit "[]" -> type <> [] -> forall {A} (ok : A -> Prop) (f : bytes -> rd A),
    (forall t q, text_ok type t p -> tadv 0 p q -> tout 0 q ok (f t (mkR D q))) -> tout 0 p ok (bind (as_entry type) f (mkR D p))).
  { intros type H1 H2 A ok f Hf. apply (tout_bind p (fun t => text_ok type t p)); [apply entry_at; assumption|]. exact Hf. }
  assert (Lm : forall {A B} q (o : outcome A) (g : A -> B) (ok : B -> Prop), q <= len D -> o <> Undef -> o <> Fuel -> (forall a, ok (g a)) ->
    tout 0 q ok (bind (lift o) (fun n => ret (g n)) (mkR D q))).
  { intros A B q o g ok Hq H1 H2 Hg. apply (tout_bind q any); [apply tout_lift; assumption|]. intros a x _ Hx. apply tout_ret; [apply Hx | apply Hg]. }
  pose proof (fun s => stof_total s) as SF.
  assert (SI : forall s, stoi s <> Undef /\ stoi s <> Fuel) by (intros s; unfold stoi; destruct (scan_int s) as [[z r]|]; [destruct ((_ <=? z)%Z && _)%bool|]; split; discriminate).
  assert (SU : forall s, stoul s <> Undef /\ stoul s <> Fuel) by (intros s; unfold stoul; destruct (scan_int s) as [[z r]|]; [destruct (_ <? _)%Z|]; split; discriminate).
  destruct k; cbn [as_read val_fit].
  - pose proof (entry_at (lit "string") p Hp ltac:(discriminate) ltac:(discriminate)) as H.
    destruct (as_entry (lit "string") (mkR D p)) as [[t s]| | |]; try exact H. destruct H as [_ H]. split; [exact I | exact H].
  - apply G; [discriminate|discriminate|]. intros t q _ Hq. apply tout_lift; [apply Hq | apply SI | apply SI].
  - apply G; [discriminate|discriminate|]. intros t q _ Hq. apply tout_lift; [apply Hq | apply SF | apply SF].
  - apply G; [discriminate|discriminate|]. intros t q _ Hq. apply (Lm _ _ q (stoul t) (fun n => n mod 2 ^ 8)); [apply Hq | apply SU | apply SU | intros; exact I].
  - apply G; [discriminate|discriminate|]. intros t q _ Hq. apply (Lm _ _ q (stoul t) (fun n => n mod 2 ^ 16)); [apply Hq | apply SU | apply SU |].
    intros a. apply N.mod_lt. discriminate.
  - apply G; [discriminate|discriminate|]. intros t q _ Hq. apply (Lm _ _ q (stoul t) (fun n => n mod 2 ^ 32)); [apply Hq | apply SU | apply SU | intros; exact I].
  - apply G; [discriminate|discriminate|]. intros t q _ Hq. apply (Lm _ _ q (stoul t) (fun n => negb (n =? 0))); [apply Hq | apply SU | apply SU | intros; exact I].
  - unfold tout, bind. pose proof (entry_at (lit "color") p Hp ltac:(discriminate) ltac:(discriminate)) as H.
    destruct (as_entry (lit "color") (mkR D p)) as [[t s]| | |]; try exact H. destruct H as ([_ H] & q & -> & Hq).
    assert (R : forall c : color, any c /\ exists x, mkR D q = mkR D x /\ tadv 0 p x) by (intros c; split; [exact I | eauto]).
    destruct (stream_u16 t) as [[r t1]|] eqn:E1; [destruct (stream_u16 t1) as [[g t2]|] eqn:E2; [destruct (stream_u16 t2) as [[b t3]|] eqn:E3; [destruct (stream_u16 t3) as [[a t4]|] eqn:E4; [apply R|]|]|]|].
    all: unfold undef; intros F; destruct (H F (or_introl eq_refl)) as (l & [W _] & Ety & Etx); specialize (W Ety); rewrite Etx in W;
      destruct W as (r' & g' & b' & a' & (B1 & B2 & B3 & B4) & ->); exfalso;
      rewrite stream_u16_dec in E1 by (exact B1 || reflexivity); try discriminate E1; injection E1 as <- <-;
      cbn [app] in E2; rewrite stream_u16_ws, stream_u16_dec in E2 by (exact B2 || reflexivity); try discriminate E2; injection E2 as <- <-;
      cbn [app] in E3; rewrite stream_u16_ws, stream_u16_dec in E3 by (exact B3 || reflexivity); try discriminate E3; injection E3 as <- <-;
      rewrite <- (app_nil_r (dec a')) in E4; cbn [app] in E4; rewrite stream_u16_ws, stream_u16_dec in E4 by (exact B4 || exact I); discriminate E4.
  - apply G; [discriminate|discriminate|]. intros t q _ Hq. apply tout_ret; [apply Hq | exact I].
  - apply G; [discriminate|discriminate|]. intros t q _ Hq. apply tout_ret; [apply Hq | exact I].
  - apply G; [discriminate|discriminate|]. intros t q _ Hq. apply tout_ret; [apply Hq | exact I].
  - unfold tout, bind. pose proof (entry_at (lit "raw") p Hp ltac:(discriminate) ltac:(discriminate)) as H.
    destruct (as_entry (lit "raw") (mkR D p)) as [[t s]| | |]; try exact H. destruct H as ([_ H] & q & -> & Hq).
    destruct (N.ltb_spec (len t) 72) as [L|L]; [exact I|]. unfold lift.
    assert (NF : forall k x, hex_strict k x <> Fuel /\ forall e, hex_strict k x <> Throw e).
    { clear. induction k as [|k IH]; intros x; cbn [hex_strict]; [split; [|intros e]; discriminate|].
      destruct x as [|a [|b x]]; try (split; [|intros e]; discriminate). destruct (hex_byte a b); [|split; [|intros e]; discriminate].
      destruct (IH x) as [I1 I2]. destruct (hex_strict k x); cbn [obind]; (split; [|intros e0]); try discriminate; try congruence; apply I2. }
    destruct (hex_strict 36 t) as [b| | |] eqn:E.
    + split; [exact I | eauto].
    + exact I.
    + intros F. destruct (H F (or_intror eq_refl)) as (l & [_ W] & Ety & Etx). specialize (W Ety). rewrite Etx in W.
      destruct (hex_strict_ok 36 t (W L)) as [b Eb]; [lia|]. congruence.
    + exfalso. destruct (NF 36%nat t) as [X _]. contradiction.
  - apply G; [discriminate|discriminate|]. intros t q [Ht _] Hq. destruct (len t / 2 <? n); [exact I|]. apply tout_ret; [apply Hq|].
    eapply N.le_lt_trans; [|exact Ht]. apply (hex_read_short (length t)). lia.
Qed.

(** ** Beginnings and ends *)
Lemma head_is_begin l h : (len l <=? 2) = false -> as_head l = Some h -> begin_line l = true.
Proof using HD HM.
  intros L H. apply N.leb_gt in L. destruct l as [|a [|b [|c l]]]; try (rewrite ?len_cons, len_nil in L; lia).
  unfold as_head, cstr in H. cbn [take_while] in H. destruct (negb (beq a x00)) eqn:E; [|discriminate].
  cbn [begin_line]. destruct (beq a x5b); [reflexivity | discriminate].
Qed.
Lemma back_to p q : p <= len D -> r_back p (mkR D q) = Ret (tt, mkR D p).
Proof using HD HM.
  intros Hp. rewrite (back_at D HD) by (clear -HD Hp; pows; lia). destruct (N.ltb_spec (len D) p); [lia | reflexivity].
Qed.
Lemma text_begin p : p <= len D ->
  match as_begin (mkR D p) with
  | Ret (None, s) => s = mkR D p
  | Ret (Some _, s) => exists q, s = mkR D q /\ p < q /\ tadv (-1) p q
  | Throw _ => True
  | Undef | Fuel => False
  end.
Proof using HD HM.
  intros Hp. unfold as_begin, bind at 1. rewrite eof_at by exact HD. destruct (N.leb_spec (len D) p) as [He|He]; [reflexivity|].
  unfold bind at 1. rewrite tell_at by exact HD. destruct (line_at p Hp) as (l & q & E & Hq & Hlt & _). unfold bind at 1. rewrite E.
  destruct (len l <=? 2) eqn:L; [unfold bind; rewrite back_to by exact Hp; reflexivity|].
  destruct (as_head l) as [h|] eqn:H; [|unfold bind; rewrite back_to by exact Hp; reflexivity].
  exists q. split; [reflexivity|]. split; [auto|]. rewrite <- (begins_weigh l) by (eapply head_is_begin; eassumption). apply tadv_line; assumption.
Qed.
Lemma text_end p : p <= len D ->
  match as_end (mkR D p) with
  | Ret (true, s) => exists q, s = mkR D q /\ p < q /\ tadv 1 p q
  | Ret (false, s) => s = mkR D p /\ (p < len D -> forall l s', read_line true (mkR D p) = Ret (l, s') -> end_line l = false)
  | Throw _ => True
  | Undef | Fuel => False
  end.
Proof using HD HM.
  intros Hp. unfold as_end, bind at 1. rewrite eof_at by exact HD. destruct (N.leb_spec (len D) p) as [He|He]; [split; [reflexivity | lia]|].
  unfold bind at 1. rewrite tell_at by exact HD. destruct (line_at p Hp) as (l & q & E & Hq & Hlt & _). unfold bind at 1. rewrite E.
  destruct (bytes_eqb (drop_while MText.is_ws l) (lit "[]")) eqn:B.
  - exists q. split; [reflexivity|]. split; [auto|]. apply (tadv_weak (weigh l)); [apply weigh_le|]. apply tadv_line; assumption.
  - unfold bind. rewrite back_to by exact Hp. split; [reflexivity|]. intros _ l' s' [= <- _]. unfold end_line. apply not_true_is_false.
    intros X. apply bytes_eqb_spec in X. subst l. discriminate B.
Qed.
Lemma text_skip E : forall n p L, p <= len D -> (0 < L)%Z -> (N.to_nat (len D - p) < n)%nat ->
  match skip_loop n AAscii L (st D p E) with
  | Ret (_, s) => exists q, s = st D q E /\ tadv L p q
  | Throw _ => True
  | Undef => False
  | Fuel => (net p < L)%Z
  end.
Proof using HD HM.
  induction n as [|n IH]; intros p L Hp HL Hn; [lia|]. cbn [skip_loop]. unfold bind at 1. cbn [ar_begin]. unfold rdl at 1, st at 1. cbn [ra_r ra_ends].
  (* after one turn *)
  assert (G : forall q L', p < q -> (0 <= L')%Z -> tadv (L - L') p q ->
    match (if (0 <? L')%Z then skip_loop n AAscii L' else ret tt) (st D q E) with
    | Ret (_, s) => exists q, s = st D q E /\ tadv L p q
    | Throw _ => True
    | Undef => False
    | Fuel => (net p < L)%Z
    end).
  { intros q L' Hq HL' Ha. destruct (Z.ltb_spec 0 L') as [H0|H0].
    - assert (Hq2 : q <= len D) by apply Ha. specialize (IH q L' Hq2 H0 ltac:(lia)).
      destruct (skip_loop n AAscii L' (st D q E)) as [[x s]| | |]; try exact IH.
      + destruct IH as (y & -> & Hy). exists y. split; [reflexivity|]. replace L with ((L - L') + L')%Z by lia. eapply tadv_trans; eassumption.
      + destruct Ha as (_ & Ha & _). lia.
    - exists q. split; [reflexivity|]. eapply tadv_weak; [|exact Ha]. lia. }
  (* at the end of the data *)
  assert (Z0 : p = len D -> net p = 0%Z) by (intros ->; unfold net; rewrite lines_end; reflexivity).
  pose proof (text_begin p Hp) as B. destruct (as_begin (mkR D p)) as [[[h|] s]| | |]; [| |exact I|contradiction|contradiction].
  - destruct B as (q & -> & Hq & Ha). unfold bind at 1. unfold ret at 1. apply (G q (L + 1)%Z Hq); [lia|].
    eapply tadv_weak; [|exact Ha]. lia.
  - subst s. unfold bind at 1. unfold bind at 1. cbn [ar_end]. unfold rdl. cbn [ra_r ra_ends].
    pose proof (text_end p Hp) as T. destruct (as_end (mkR D p)) as [[[|] s]| | |]; [| |exact I|contradiction|contradiction].
    + destruct T as (q & -> & Hq & Ha). unfold ret at 1. apply (G q (L - 1)%Z Hq); [lia|]. eapply tadv_weak; [|exact Ha]. lia.
    + destruct T as (-> & T). unfold bind at 1. cbn [ar_skip_entry]. unfold rdl, as_skip_entry. cbn [ra_r ra_ends].
      destruct (line_at p Hp) as (l & q & El & Hq & Hlt & _). unfold bind. rewrite El. unfold ret at 1. unfold ret at 1. cbv iota beta. cbn [ra_r ra_ends].
      fold (st D q E).
      destruct (N.eq_dec p (len D)) as [Ep|Ep].
      * replace q with p by lia. destruct (Z.ltb_spec 0 L) as [_|X]; [|lia].
        destruct n as [|n]; [cbn [skip_loop]; unfold fuelout; rewrite (Z0 Ep); lia|].
        specialize (IH p L Hp HL ltac:(lia)). exact IH.
      * apply (G q L); [apply Hlt; lia|lia|]. replace (L - L)%Z with 0%Z by lia. eapply tadv_weak; [|apply (tadv_line p l q Hp El)].
        apply weigh_no_end. eapply T; [lia | exact El].
Qed.

(** ** Objects *)
Context {Ob : Type} (load : otype -> option (prog oid Ob)) (flags_of : Ob -> Z).
Fixpoint quiet {A} (p : prog oid A) : Prop :=
  match p with
  | PSkip _ _ => False
  | PRead k c => forall v, quiet (c v)
  | PObj c => forall o, quiet (c o)
  | PBegin c => forall o, quiet (c o)
  | PEnd c => forall o, quiet (c o)
  | _ => True
  end.
Hypothesis Hload : forall t p, load t = Some p -> plain u p /\ quiet p.
Definition tg (p : N) {A} (r : outcome (A * @rg rar Ob)) : Prop :=
  match r with
  | Ret (_, g) => exists q E c h, g = mkRg (st D q E) c h /\ tadv 0 p q
  | Throw _ => True
  | Undef => fine p -> u = true
  | Fuel => ~ closed (lines D p)
  end.
Lemma tg_trans p q {A} (r : outcome (A * @rg rar Ob)) : tadv 0 p q -> tg q r -> tg p r.
Proof using HD HM.
  intros H. destruct r as [[a g]| | |]; cbn [tg]; auto.
  - intros (x & G & c & h & -> & Hx). exists x, G, c, h. split; [reflexivity|]. exact (tadv_trans 0 0 _ _ _ H Hx).
  - intros G F. apply G. apply H, F.
  - intros G F. apply G. apply H, F.
Qed.
Lemma text_runs rec A (pr : prog oid A) : plain u pr -> quiet pr -> forall n,
  (forall p E c h, p <= len D -> len D - p <= n -> tg p (rec (mkRg (st D p E) c h))) ->
  forall p E c h, p <= len D -> len D - p <= n -> tg p (runp (fmt_prims AAscii) flags_of rec pr (mkRg (st D p E) c h)).
Proof using HD HM.
  induction 1 as [a|e|Hun|k c Hk Hc IH|c Hc IH|pr Hp IH]; intros Hq n Hrec p E cc h Hp' Hn; cbn [runp quiet] in *.
  - exists p, E, cc, h. split; [reflexivity | apply tadv_refl, Hp'].
  - exact I.
  - intros _. exact Hun.
  - unfold bind, rgl. cbn [rg_s rg_cache rg_heap fmt_prims p_read ar_read]. unfold rdl, st. cbn [ra_r ra_ends].
    pose proof (text_entry k p Hp' Hk) as T. destruct (as_read k (mkR D p)) as [[v s]| | |]; [|exact I|exact T|contradiction].
    destruct T as (Hv & q & -> & Ha). eapply tg_trans; [exact Ha|]. apply (IH v Hv (Hq v) n Hrec); destruct Ha as [Ha _]; lia.
  - unfold bind at 1. specialize (Hrec p E cc h Hp' Hn) as R. destruct (rec (mkRg (st D p E) cc h)) as [[r g]| | |]; [|exact I|exact R|exact R].
    destruct R as (q & F & c2 & h2 & -> & Ha). eapply tg_trans; [exact Ha|]. apply (IH _ (Hq _) n Hrec); destruct Ha as [Ha _]; lia.
  - contradiction.
Qed.
Lemma text_object : forall n p E c h, p <= len D -> (N.to_nat (len D - p) < n)%nat ->
  tg p (read_obj (fmt_prims AAscii) load flags_of n (mkRg (st D p E) c h)).
Proof using HD HM Hload.
  induction n as [|n IH]; intros p E c h Hp Hn; [lia|].
  cbn [read_obj]. unfold bind at 1. unfold rgl at 1. cbn [rg_s rg_cache rg_heap]. cbn [fmt_prims p_begin ar_begin]. unfold rdl at 1, st at 1. cbn [ra_r ra_ends].
  pose proof (text_begin p Hp) as B. destruct (as_begin (mkR D p)) as [[[o|] s]| | |]; [| |exact I|contradiction|contradiction].
  2:{ subst s. exists p, E, c, h. split; [reflexivity | apply tadv_refl, Hp]. }
  destruct B as (q & -> & Hpq & Ho). fold (st D q E).
  (* leaving the object: skipping its rest *)
  assert (K : forall {A} x G cc hh (k : @M (@rg rar Ob) A), tadv (-1) p x ->
     (forall y, tadv 0 p y -> tg p (k (mkRg (st D y G) cc hh))) ->
     tg p ((rgl (p_skip (fmt_prims AAscii) true) ;; k) (mkRg (st D x G) cc hh))).
  { intros A x G cc hh k Hx Hk. unfold bind, rgl. cbn [rg_s rg_cache rg_heap fmt_prims p_skip ar_skip st ra_r rdata rpos].
    pose proof (text_skip G (S (S (N.to_nat (len D - x)))) x 1 ltac:(apply Hx) ltac:(lia) ltac:(lia)) as T. unfold st in T.
    destruct (skip_loop _ AAscii 1 _) as [[[] s]| | |]; [|exact I|contradiction|].
    - destruct T as (y & -> & Hy). apply (Hk y). exact (tadv_trans (-1) 1 _ _ _ Hx Hy).
    - intros C. apply closed_net in C. destruct Hx as (_ & Hx & _). lia. }
  assert (L : forall {A} x G cc hh (k : @M (@rg rar Ob) A), tadv (-1) p x ->
     (forall y, tadv 0 p y -> tg p (k (mkRg (st D y G) cc hh))) ->
     tg p ((let* e := rgl (p_end (fmt_prims AAscii)) in
            (if e then ret tt else rgl (p_skip (fmt_prims AAscii) true)) ;; k) (mkRg (st D x G) cc hh))).
  { intros A x G cc hh k Hx Hk. unfold bind at 1, rgl at 1. cbn [rg_s rg_cache rg_heap fmt_prims p_end ar_end]. unfold rdl at 1, st at 1. cbn [ra_r ra_ends].
    pose proof (text_end x ltac:(apply Hx)) as T. destruct (as_end (mkR D x)) as [[[|] s]| | |]; [| |exact I|contradiction|contradiction].
    - destruct T as (y & -> & _ & Hy). unfold bind, ret. apply (Hk y). exact (tadv_trans (-1) 1 _ _ _ Hx Hy).
    - destruct T as (-> & _). apply (K A x G cc hh k Hx Hk). }
  destruct (bytes_eqb (oh_class o) [xa7]).
  { apply (L _ q E c h); [exact Ho|]. intros y Hy. exists y, E, c, h. split; [reflexivity | exact Hy]. }
  destruct (bytes_eqb (oh_class o) (lit "%")).
  { apply (K _ q E c h); [exact Ho|]. intros y Hy. exists y, E, c, h. split; [reflexivity | exact Hy]. }
  unfold bind at 1. destruct (load (type_of_class (oh_class o))) as [pr|] eqn:El.
  2:{ unfold ret at 1. apply (L _ q E c h); [exact Ho|]. intros y Hy. exists y, E, c, h. split; [reflexivity | exact Hy]. }
  cbn [rg_s rg_cache rg_heap]. unfold bind at 1.
  destruct (Hload _ _ El) as [Pp Pq].
  pose proof (text_runs (read_obj (fmt_prims AAscii) load flags_of n) Ob pr Pp Pq (len D - q)) as R.
  assert (Hq2 : q <= len D) by apply Ho.
  specialize (R (fun p' E' c' h' Hp' Hn' => IH p' E' c' h' Hp' ltac:(lia))).
  specialize (R q E ((oh_idx o, len h) :: c) (h ++ [mkHobj (type_of_class (oh_class o)) (oh_idx o) None]) Hq2 ltac:(lia)).
  destruct (runp (fmt_prims AAscii) flags_of (read_obj (fmt_prims AAscii) load flags_of n) pr _) as [[v g]| | |].
  - destruct R as (x & G & cc & hh & -> & Hx). cbn [rg_s rg_cache rg_heap].
    apply (L _ x G cc); [exact (tadv_trans (-1) 0 _ _ _ Ho Hx)|]. intros y Hy.
    do 4 eexists. split; [reflexivity | exact Hy].
  - exact I.
  - intros F. apply R. apply Ho, F.
  - intros F. apply R. apply Ho, F.
Qed.
End Text.

(** ** The classes *)
Lemma quiet_bind {A B} (p : prog oid A) (k : A -> prog oid B) : quiet p -> (forall a, quiet (k a)) -> quiet (pbind p k).
Proof.
  intros H Hk. induction p as [a|e| | |kd c IH|c IH|c IH|c IH|b p IH]; cbn [pbind quiet] in *; auto.
Qed.
Lemma quiet_rep {A} n (p : prog oid A) : quiet p -> quiet (p_rep n p).
Proof.
  intros H. induction n as [|n IH]; cbn [p_rep]; [exact I|].
  apply quiet_bind; [exact H|]. intros a. apply quiet_bind; [exact IH|]. intros l. exact I.
Qed.
Lemma quiet_lift {A} (o : outcome A) : quiet (p_lift o).
Proof. destruct o; exact I. Qed.
Lemma quiet_raw {A} n (m : rd A) : quiet (p_raw n m).
Proof. unfold p_raw, p_rd. cbn [pbind quiet]. intros v. apply quiet_lift. Qed.
Ltac qhead t := lazymatch t with ?f _ => qhead f | _ => t end.
Ltac qstep :=
  lazymatch goal with
  | |- True => exact I
  | |- quiet (PRet _) => exact I
  | |- quiet (PThrow _) => exact I
  | |- quiet PUndef => exact I
  | |- quiet PFuel => exact I
  | |- quiet (PRead _ _) => cbn [quiet]; intros
  | |- quiet (PObj _) => cbn [quiet]; intros
  | |- quiet (p_lift _) => apply quiet_lift
  | |- quiet (p_raw _ _) => apply quiet_raw
  | |- quiet (p_rep _ _) => apply quiet_rep
  | |- quiet (pbind _ _) => apply quiet_bind; [|intros]
  | |- quiet (match ?x with _ => _ end) => destruct x
  | |- quiet ?p => let h := qhead p in unfold h
  end.
Ltac quiets := repeat qstep.
Lemma quiet_classes c t p : refusing (skipping c) c t = Some p -> quiet p.
Proof.
  unfold refusing. destruct (skipping c t) eqn:W; [intros [= <-]; exact I|].
  destruct t; cbn [object_load]; try discriminate; intros [= <-]; try (exfalso; discriminate W); unfold p_map; try solve [quiets].
  unfold load_codemaster. cbn [skipping is_world otype_eqb] in W. replace (cf_save c && g2 c) with false by (symmetry; exact W). quiets.
Qed.
Lemma refusing_fewer (f g : otype -> bool) c t p : (forall t, f t = true -> g t = true) -> refusing g c t = Some p ->
  refusing f c t = Some p \/ p = PThrow ParserError.
Proof.
  intros H. unfold refusing. specialize (H t). destruct (g t); [intros [= <-]; right; reflexivity|].
  destruct (f t); [specialize (H eq_refl); discriminate|]. intros E. left. exact E.
Qed.
Lemma text_classes c t p : refusing (skipping c) c t = Some p -> plain true p /\ quiet p.
Proof.
  intros H. split; [|exact (quiet_classes c t p H)]. apply (refusing_fewer is_world) in H.
  - destruct H as [H| ->]; [exact (classes_plain c t p H) | constructor].
  - intros t' E. unfold skipping. rewrite E. reflexivity.
Qed.
Lemma safe_text_classes c t p : refusing (trusting_or_skipping c) c t = Some p -> plain false p /\ quiet p.
Proof.
  intros H. split.
  - apply (refusing_fewer trusting) in H; [destruct H as [H| ->]; [exact (safe_classes_plain c t p H) | constructor]|].
    intros t' E. unfold trusting_or_skipping. rewrite E. reflexivity.
  - apply (refusing_fewer (skipping c)) in H; [destruct H as [H| ->]; [exact (quiet_classes c t p H) | exact I]|].
    intros t' E. unfold trusting_or_skipping. rewrite E. apply orb_true_r.
Qed.
Lemma text_loading_ends c n D h r : len D < 2 ^ 62 -> (length D < n)%nat -> ar_open (mkR D 0) = Ret (h, r) -> ah_format h = AAscii ->
  closed (lines D (rpos r)) -> load_archive (refusing (skipping c) c) (c_flags (library c)) n D <> Fuel.
Proof.
  intros HD Hn Eo Hf Hc. unfold load_archive. pose proof (opens D HD) as O. rewrite Eo in O |- *. destruct O as (p & -> & Hp). rewrite Hf.
  pose proof (text_object D HD true (refusing (skipping c) c) (c_flags (library c)) (text_classes c) n p [] [] [] Hp) as R.
  unfold st in R. cbn [c_ob library rpos] in *. destruct (read_obj _ _ _ n _) as [[a g]| | |]; try discriminate.
  exfalso. apply R; [unfold len in *; lia | exact Hc].
Qed.
Lemma text_loading_answers c n D h r : len D < 2 ^ 62 -> (length D < n)%nat -> ar_open (mkR D 0) = Ret (h, r) -> ah_format h = AAscii ->
  closed (lines D (rpos r)) -> Forall well_formed_line (lines D (rpos r)) ->
  answers (load_archive (refusing (trusting_or_skipping c) c) (c_flags (library c)) n D).
Proof.
  intros HD Hn Eo Hf Hc Hw. unfold load_archive. pose proof (opens D HD) as O. rewrite Eo in O |- *. destruct O as (p & -> & Hp). rewrite Hf.
  pose proof (text_object D HD false (refusing (trusting_or_skipping c) c) (c_flags (library c)) (safe_text_classes c) n p [] [] [] Hp) as R.
  unfold st in R. cbn [c_ob library rpos] in *. destruct (read_obj _ _ _ n _) as [[a g]|e| |].
  - left. eauto.
  - right. eauto.
  - exfalso. assert (X : false = true) by (apply R; [unfold len in *; lia | exact Hw]). discriminate X.
  - exfalso. apply R; [unfold len in *; lia | exact Hc].
Qed.

(** ** Deciding the conditions (for the examples) *)
Fixpoint closedb (ls : list bytes) : bool :=
  (len (filter begin_line ls) <=? len (filter end_line ls)) && match ls with [] => true | _ :: ls' => closedb ls' end.
Lemma closedb_closed : forall ls, closedb ls = true -> closed ls.
Proof.
  induction ls as [|l ls IH]; intros H i.
  - rewrite drop_nil. cbn. lia.
  - cbn [closedb] in H. apply andb_true_iff in H. destruct H as [H1 H2]. destruct (N.eq_dec i 0) as [->|Hi].
    + rewrite drop_0. apply N.leb_le, H1.
    + replace (drop i (l :: ls)) with (drop (i - 1) ls); [apply IH, H2|].
      rewrite !drop_skipn. replace (N.to_nat i) with (S (N.to_nat (i - 1))) by lia. reflexivity.
Qed.
Definition hexb (c : byte) : bool :=
  ((48 <=? b2n c) && (b2n c <=? 57)) || ((65 <=? b2n c) && (b2n c <=? 70)) || ((97 <=? b2n c) && (b2n c <=? 102)).
Definition well_formedb (l : bytes) : bool :=
  negb (bytes_eqb (entry_type l) (lit "color")) && (negb (bytes_eqb (entry_type l) (lit "raw")) || forallb hexb (entry_text l)).
Lemma well_formedb_line l : well_formedb l = true -> well_formed_line l.
Proof.
  unfold well_formedb. intros H. apply andb_true_iff in H. destruct H as [H1 H2]. split.
  - intros E. apply bytes_eqb_spec in E. rewrite E in H1. discriminate.
  - intros E _. apply bytes_eqb_spec in E. rewrite E in H2. cbn [negb orb] in H2. apply Forall_forall. intros c Hc.
    rewrite forallb_forall in H2. specialize (H2 c Hc). unfold hexb in H2. rewrite !orb_true_iff, !andb_true_iff, !N.leb_le in H2. lia.
Qed.
Lemma well_formedb_lines ls : forallb well_formedb ls = true -> Forall well_formed_line ls.
Proof. intros H. apply Forall_forall. intros l Hl. rewrite forallb_forall in H. apply well_formedb_line, H, Hl. Qed.
