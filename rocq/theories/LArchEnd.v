(** How loading an archive ends. *)

From Coq Require Import Lia.
From Verif Require Import MBase MStream SStream LBase LStream MZipped MBoxes MText MClasses MArchive SArchive SFormat LFormat.
From Verif Require Import MVob MVobs MNpc MCutscene MMaterial MWorld MLib SArchEnd.
Local Open Scope N_scope.
Local Open Scope m_scope.

Section Data.
Variable D : bytes.
Hypothesis HD : len D < 2 ^ 62.
Let HM : len D < max_size.
Proof using HD. pows. lia. Qed.

(** ** Readers of streams *)
(** From every position at or after [m] the reader stops at or after [m] with a value that is
    [ok]; or it throws; or, if [u], its behaviour is undefined. *)
Definition fwd (u : bool) (m : N) {A} (ok : A -> Prop) (r : rd A) : Prop :=
  forall p, m <= p <= len D ->
    match r (mkR D p) with
    | Ret (a, s) => ok a /\ exists q, s = mkR D q /\ m <= q <= len D
    | Throw _ => True
    | Undef => u = true
    | Fuel => False
    end.
Definition any {A} (_ : A) : Prop := True.

Lemma fwd_of u m {A} (r : rd A) : forward r -> fwd u m any r.
Proof using HD HM.
  intros H p Hp. specialize (H (mkR D p)). assert (Hs : r_ok (mkR D p)) by (split; cbn [rdata rpos]; [lia | exact HM]).
  specialize (H Hs). destruct (r (mkR D p)) as [[a [d q]]| | |]; try tauto.
  destruct H as (E & [Q _] & G). cbn [rdata rpos] in *. subst d. split; [exact I|]. exists q. split; [reflexivity | lia].
Qed.
Lemma fwd_ret u m {A} (ok : A -> Prop) a : ok a -> fwd u m ok (ret a).
Proof using HD HM. intros H p Hp. cbn. split; [exact H|]. exists p. split; [reflexivity | exact Hp]. Qed.
Lemma fwd_throw u m {A} (ok : A -> Prop) e : fwd u m ok (throw e).
Proof using HD HM. intros s Hs. exact I. Qed.
Lemma fwd_undef m {A} (ok : A -> Prop) : fwd true m ok undef.
Proof using HD HM. intros s Hs. reflexivity. Qed.
Lemma fwd_bind u m {A B} (p : A -> Prop) (q : B -> Prop) (r : rd A) (k : A -> rd B) :
  fwd u m p r -> (forall a, p a -> fwd u m q (k a)) -> fwd u m q (bind r k).
Proof using HD HM.
  intros Hm Hk x Hx. unfold bind. specialize (Hm x Hx). destruct (r (mkR D x)) as [[a s1]| | |]; try exact Hm.
  destruct Hm as (Ha & y & -> & Hy). exact (Hk a Ha y Hy).
Qed.
Lemma fwd_seq u m {A B} (q : B -> Prop) (r : rd A) (k : A -> rd B) :
  fwd u m any r -> (forall a, fwd u m q (k a)) -> fwd u m q (bind r k).
Proof using HD HM. intros H Hk. apply (fwd_bind u m any); [exact H|]. intros a _. apply Hk. Qed.
Lemma fwd_if u m {A} (p : A -> Prop) (b : bool) r k : fwd u m p r -> fwd u m p k -> fwd u m p (if b then r else k).
Proof using HD HM. destruct b; auto. Qed.
Lemma fwd_weak u m {A} (p q : A -> Prop) r : (forall a, p a -> q a) -> fwd u m p r -> fwd u m q r.
Proof using HD HM.
  intros H Hm x Hx. specialize (Hm x Hx). destruct (r (mkR D x)) as [[a s1]| | |]; try exact Hm.
  destruct Hm as (Ha & Hm). split; [apply H, Ha | exact Hm].
Qed.
Lemma fwd_lift u m {A} (o : outcome A) : (o = Undef -> u = true) -> o <> Fuel -> fwd u m any (lift o).
Proof using HD HM.
  intros H1 H2 p Hp. unfold lift. destruct o as [a|e| |]; [|exact I| |].
  - split; [exact I|]. exists p. split; [reflexivity | exact Hp].
  - apply H1. reflexivity.
  - congruence.
Qed.
(** Fixed-size values. *)
Lemma fixed_at n p : n < 2 ^ 62 -> p <= len D ->
  exists b, rd_fixed n (mkR D p) = Ret (b, mkR D (p + N.min n (len D - p))) /\ len b = n.
Proof using HD HM.
  intros Hn Hp. unfold rd_fixed, bind. rewrite rd_read_spec; [|split; cbn [rdata rpos]; [lia|exact HM]|pows; lia].
  cbn [rdata rpos]. eexists. split; [reflexivity|]. unfold pad_to. rewrite len_app, len_zeros, len_take, len_drop. lia.
Qed.
Lemma fwd_fixed u m n : n < 2 ^ 62 -> fwd u m (fun b => len b = n) (rd_fixed n).
Proof using HD HM.
  intros Hn p Hp. destruct (fixed_at n p Hn) as (b & -> & Hb); [lia|]. split; [exact Hb|]. eexists. split; [reflexivity | lia].
Qed.
Lemma le_dec_lt k b : len b = k -> le_dec b < 256 ^ k.
Proof using HD HM. intros <-. apply le_dec_bound. Qed.
Lemma fwd_dec u m k : k < 2 ^ 62 -> fwd u m (fun n => n < 256 ^ k) (let* b := rd_fixed k in ret (le_dec b)).
Proof using HD HM.
  intros Hk. eapply fwd_bind; [apply fwd_fixed, Hk|]. intros b Hb. apply fwd_ret, le_dec_lt, Hb.
Qed.
Lemma fwd_ubyte u m : fwd u m (fun n => n < 2 ^ 8) read_ubyte.
Proof using HD HM. apply (fwd_dec u m 1). pows. lia. Qed.
Lemma fwd_ushort u m : fwd u m (fun n => n < 2 ^ 16) read_ushort.
Proof using HD HM. apply (fwd_dec u m 2). pows. lia. Qed.
Lemma fwd_uint u m : fwd u m (fun n => n < 2 ^ 32) read_uint.
Proof using HD HM. apply (fwd_dec u m 4). pows. lia. Qed.
Lemma fwd_string u m n : n < 2 ^ 62 -> fwd u m any (read_string n).
Proof using HD HM. intros Hn. apply fwd_of, fw_string. pows. lia. Qed.
(** Moving ahead. *)
Lemma fwd_seek u m k : k < 2 ^ 62 -> fwd u m any (rd_seek (Z.of_N k) CUR).
Proof using HD HM.
  intros Hk p Hp. unfold rd_seek, seek_internal. cbn [rdata rpos].
  rewrite sint_small by (clear -Hp HD; pows; lia). rewrite ssize_add_ok by (clear -HD Hp Hk; pows; lia). cbn [obind].
  rewrite uint_small by (clear -HD Hp Hk; pows; lia). rewrite <- N2Z.inj_add, N2Z.id.
  destruct (N.ltb_spec (len D) (p + k)); cbn [rdata rpos]; (split; [exact I|]); eexists; (split; [reflexivity|]); lia.
Qed.
Lemma back_at q p : q < 2 ^ 63 ->
  r_back q (mkR D p) = Ret (tt, mkR D (if len D <? q then p else q)).
Proof using HD HM.
  intros Hq. unfold r_back, rd_seek, seek_internal. cbn [rdata rpos obind].
  rewrite sint_small by (clear -Hq; pows; lia). rewrite uint_small by (clear -Hq; pows; lia). rewrite N2Z.id.
  destruct (len D <? q); reflexivity.
Qed.
Lemma fwd_back u m q : m <= q -> q < 2 ^ 63 -> fwd u m any (r_back q).
Proof using HD HM.
  intros Hm Hq p Hp. rewrite (back_at q p Hq). split; [exact I|]. eexists. split; [reflexivity|].
  destruct (N.ltb_spec (len D) q); lia.
Qed.

Lemma fwd_ignore u m {A B} (q : B -> Prop) (p : A -> Prop) (r : rd A) (k : A -> rd B) :
  fwd u m p r -> (forall a, fwd u m q (k a)) -> fwd u m q (bind r k).
Proof using HD HM. intros H Hk. apply (fwd_bind u m p); [exact H|]. intros a _. apply Hk. Qed.

(** ** Entries *)
(** Which amounts are asked for, and what is known of values. *)
Definition kind_fit (k : kind) : Prop := match k with KRaw n => n < 2 ^ 32 | _ => True end.
Definition val_fit (k : kind) : kval k -> Prop :=
  match k with
  | KWord => fun n => n < 2 ^ 16
  | KRaw _ => fun b => len b < 2 ^ 62
  | _ => any
  end.
Lemma bin_entry u m k : kind_fit k -> fwd u m (val_fit k) (bin_read k).
Proof using HD HM.
  intros Hk. destruct k; cbn [bin_read val_fit]; try (apply fwd_of; solve [fsteps]).
  - apply fwd_ushort.
  - apply (fwd_weak u m (fun b => len b = n)); [|apply fwd_fixed; unfold kind_fit in Hk; pows; lia].
    intros b ->. unfold kind_fit in Hk. pows. lia.
Qed.
Lemma fwd_meta u m tp : fwd u m any (bs_meta tp).
Proof using HD HM.
  unfold bs_meta. eapply fwd_ignore; [apply fwd_ubyte|]. intros t. apply fwd_if; [apply fwd_throw|].
  apply fwd_seq; [apply (fwd_seek u m 4); pows; lia|]. intros _.
  eapply fwd_ignore; [apply fwd_ubyte|]. intros t'. apply fwd_if; [apply fwd_ret; exact I | apply fwd_throw].
Qed.
Lemma fwd_meta_len u m tp : fwd u m (fun n => n < 2 ^ 16) (bs_meta_len tp).
Proof using HD HM. unfold bs_meta_len. apply fwd_seq; [apply fwd_meta|]. intros _. apply fwd_ushort. Qed.
Lemma fwd_sized u m {A} tp need (r : rd A) : forward r -> fwd u m any (bs_sized tp need r).
Proof using HD HM.
  intros H. unfold bs_sized. eapply fwd_bind; [apply fwd_meta_len|]. intros l Hl. cbv beta in Hl. apply fwd_if; [apply fwd_throw|].
  apply fwd_seq; [apply fwd_of, H|]. intros v. apply fwd_seq; [apply fwd_seek; clear -Hl; pows; lia|].
  intros _. apply fwd_ret. exact I.
Qed.
Lemma bs_entry_fwd u m k : kind_fit k -> fwd u m (val_fit k) (bs_read k).
Proof using HD HM.
  intros Hk. destruct k; cbn [bs_read val_fit];
    try (apply fwd_seq; [apply fwd_meta|]; intros _; first [apply fwd_ushort | apply fwd_of; solve [fsteps]]).
  - eapply fwd_bind; [apply fwd_meta_len|]. intros l Hl. cbv beta in Hl. apply fwd_string. pows. lia.
  - apply fwd_sized. fsteps.
  - apply fwd_sized. fsteps.
  - apply fwd_sized. fsteps.
  - eapply fwd_bind; [apply fwd_meta_len|]. intros l Hl. cbv beta in Hl. apply fwd_if; [apply fwd_throw|].
    apply (fwd_weak u m (fun b => len b = l)); [intros b ->; pows; lia | apply fwd_fixed; pows; lia].
Qed.

(** ** Safe binary objects *)
Lemma atoi_no_fuel s : atoi s <> Fuel.
Proof using HD HM. unfold atoi. destruct (scan_int s) as [[z r]|]; [destruct ((_ <=? z)%Z && _)%bool|]; discriminate. Qed.
(** Numbers of fewer than ten digits are in range. *)
Lemma first_app k : forall a b, digits_first k a = true -> digits_first k (a ++ b) = true.
Proof using HD HM.
  induction k as [|k IH]; intros a b H; [reflexivity|]. destruct a as [|c a]; [discriminate|]. cbn [digits_first app] in H |- *.
  apply andb_true_iff in H. destruct H as [-> H]. rewrite (IH _ _ H). reflexivity.
Qed.
Lemma long_app_l b : forall a, long_number a = true -> long_number (a ++ b) = true.
Proof using HD HM.
  induction a as [|c a IH]; intros H; [discriminate|]. cbn [app long_number] in H |- *. apply orb_true_iff in H. apply orb_true_iff.
  destruct H as [H|H]; [left; exact (first_app 10 (c :: a) b H) | right; apply IH, H].
Qed.
Lemma long_app_r b : forall a, long_number b = true -> long_number (a ++ b) = true.
Proof using HD HM.
  induction a as [|c a IH]; intros H; [exact H|]. cbn [app long_number]. rewrite (IH H). apply orb_true_r.
Qed.
Lemma long_within x a y b : b = x ++ a ++ y -> long_number b = false -> long_number a = false.
Proof using HD HM.
  intros -> H. destruct (long_number a) eqn:E; [|reflexivity]. rewrite (long_app_r (a ++ y) x) in H; [discriminate|]. apply long_app_l, E.
Qed.
Lemma first_zeros k n : forall a, digits_first k (a ++ zeros n) = digits_first k a.
Proof using HD HM.
  induction k as [|k IH]; intros a; [reflexivity|]. destruct a as [|c a]; cbn [digits_first app]; [|rewrite IH; reflexivity].
  unfold zeros. destruct (N.to_nat n); reflexivity.
Qed.
Lemma long_zeros n : forall a, long_number (a ++ zeros n) = long_number a.
Proof using HD HM.
  induction a as [|c a IH].
  - cbn [app long_number]. unfold zeros. induction (N.to_nat n) as [|k IHk]; [reflexivity|]. cbn [repeat long_number]. rewrite IHk. reflexivity.
  - cbn [app long_number]. rewrite IH. f_equal. exact (first_zeros 10 n (c :: a)).
Qed.
Lemma first_all : forall k ds, Forall (fun c => is_digit c = true) ds -> (k <= length ds)%nat -> digits_first k ds = true.
Proof using HD HM.
  induction k as [|k IH]; intros ds F L; [reflexivity|]. destruct F as [|c ds Hc F]; [cbn in L; lia|]. cbn [digits_first]. unfold is_digit in Hc. rewrite Hc.
  apply IH; [exact F | cbn in L; lia].
Qed.
Lemma long_all ds : Forall (fun c => is_digit c = true) ds -> long_number ds = false -> (length ds < 10)%nat.
Proof using HD HM.
  intros F H. destruct (Nat.lt_ge_cases (length ds) 10) as [L|L]; [exact L|]. destruct ds as [|c ds]; [cbn in L; lia|].
  cbn [long_number] in H. rewrite (first_all 10 _ F L) in H. discriminate.
Qed.
Lemma drop_while_within q : forall s, exists x, s = x ++ drop_while q s.
Proof using HD HM.
  induction s as [|c s [x IH]]; [exists []; reflexivity|]. cbn [drop_while]. destruct (q c); [|exists []; reflexivity].
  exists (c :: x). cbn [app]. f_equal. exact IH.
Qed.
Lemma take_while_within q : forall s, exists y, s = take_while q s ++ y /\ Forall (fun c => q c = true) (take_while q s).
Proof using HD HM.
  induction s as [|c s (y & IH & F)]; [exists []; split; [reflexivity | constructor]|]. cbn [take_while]. destruct (q c) eqn:E; [|exists (c :: s); split; [reflexivity | constructor]].
  exists y. split; [cbn [app]; f_equal; exact IH | constructor; assumption].
Qed.
Lemma digits_small : forall ds, Forall (fun c => is_digit c = true) ds -> forall a n, a < 10 ^ n ->
  fold_left (fun a c => 10 * a + digit_val c) ds a < 10 ^ (n + len ds).
Proof using HD HM.
  induction 1 as [|c ds Hc F IH]; intros a n Ha; cbn [fold_left]; [rewrite len_nil, N.add_0_r; exact Ha|].
  rewrite len_cons. replace (n + (1 + len ds)) with ((n + 1) + len ds) by lia. apply IH.
  unfold is_digit in Hc. apply andb_true_iff in Hc. destruct Hc as [H1 H2]. apply N.leb_le in H1, H2. unfold digit_val.
  rewrite N.pow_add_r. change (10 ^ 1) with 10. clear -Ha H1 H2. nia.
Qed.
Lemma atoi_short s : long_number s = false -> atoi s <> Undef.
Proof using HD HM.
  intros H. unfold atoi, scan_int. destruct (drop_while_within MText.is_ws s) as [x E]. set (s0 := drop_while MText.is_ws s) in *.
  assert (W : exists x', s0 = x' ++ snd (scan_sign s0)).
  { unfold scan_sign. destruct s0 as [|c s0']; [exists []; reflexivity|]. destruct (beq c x2d); [exists [c]; reflexivity|].
    destruct (beq c x2b); [exists [c]; reflexivity | exists []; reflexivity]. }
  destruct W as [x' W]. destruct (scan_sign s0) as [neg s1]. cbn [snd] in W.
  destruct (take_while_within is_digit s1) as (y & T & F). set (ds := take_while is_digit s1) in *.
  assert (L : (length ds < 10)%nat).
  { apply long_all; [exact F|]. apply (long_within (x ++ x') ds y s); [|exact H]. rewrite E, W, T, <- !app_assoc. reflexivity. }
  destruct ds as [|c ds']; [discriminate|]. pose proof (digits_small _ F 0 0 ltac:(reflexivity)) as V. fold (digits_val (c :: ds')) in V.
  set (v := digits_val (c :: ds')) in *. assert (V9 : v < 1000000000).
  { eapply N.lt_le_trans; [exact V|]. change 1000000000 with (10 ^ 9). apply N.pow_le_mono_r; [lia|]. unfold len. lia. }
  clear -V9. replace ((- 2 ^ 31 <=? (if neg then - Z.of_N v else Z.of_N v)) && ((if neg then - Z.of_N v else Z.of_N v) <? 2 ^ 31))%Z with true; [discriminate|].
  symmetry. apply andb_true_iff. change (2 ^ 31)%Z with 2147483648%Z. destruct neg; split; (apply Z.leb_le || apply Z.ltb_lt); lia.
Qed.
Lemma tokens_within delim : forall s cur t, In t (tokens delim s cur) -> exists x y, rev cur ++ s = x ++ t ++ y.
Proof using HD HM.
  induction s as [|c s IH]; intros cur t H; cbn [tokens] in H.
  - destruct cur as [|a cur]; [destruct H|]. destruct H as [<-|[]]. exists [], []. reflexivity.
  - destruct (beq c x00).
    { destruct cur as [|a cur]; [destruct H|]. destruct H as [<-|[]]. exists [], (c :: s). reflexivity. }
    destruct (delim c).
    + destruct cur as [|a cur].
      * destruct (IH [] t H) as (x & y & E). exists (c :: x), y. cbn [rev app] in E |- *. f_equal. exact E.
      * destruct H as [<-|H]; [exists [], (c :: s); reflexivity|]. destruct (IH [] t H) as (x & y & E).
        exists (rev (a :: cur) ++ c :: x), y. cbn [rev app] in E. rewrite E, <- !app_assoc. reflexivity.
    + destruct (IH (c :: cur) t H) as (x & y & E). exists x, y. rewrite <- E. cbn [rev]. rewrite <- app_assoc. reflexivity.
Qed.
Lemma bs_head_short l : long_number l = false -> bs_head l <> Undef.
Proof using HD HM.
  intros H. unfold bs_head. destruct l as [|c it]; [discriminate|]. destruct (negb (beq c x5b)); [discriminate|].
  assert (T : forall t, In t (tokens bs_delim it []) -> atoi t <> Undef).
  { intros t Ht. destruct (tokens_within _ _ _ _ Ht) as (x & y & E). cbn [rev app] in E. apply atoi_short.
    apply (long_within (c :: x) t y (c :: it)); [cbn [app]; f_equal; exact E | exact H]. }
  destruct (tokens bs_delim it []) as [|a [|b [|v [|i t]]]]; try discriminate.
  pose proof (T v ltac:(cbn; tauto)) as Tv. pose proof (T i ltac:(cbn; tauto)) as Ti.
  destruct (atoi v); cbn [obind]; try discriminate; [|congruence]. destruct (atoi i); cbn [obind]; try discriminate. congruence.
Qed.
Lemma bs_head_no_fuel l : bs_head l <> Fuel.
Proof using HD HM.
  unfold bs_head. destruct l as [|c it]; [discriminate|]. destruct (negb (beq c x5b)); [discriminate|].
  destruct (tokens bs_delim it []) as [|a [|b [|v [|i t]]]]; try discriminate.
  destruct (atoi v) eqn:E1; cbn [obind]; try discriminate; [|exfalso; exact (atoi_no_fuel _ E1)].
  destruct (atoi i) eqn:E2; cbn [obind]; try discriminate. exfalso; exact (atoi_no_fuel _ E2).
Qed.
Lemma eof_at p : rd_eof (mkR D p) = Ret (len D <=? p, mkR D p).
Proof using HD HM. reflexivity. Qed.
Lemma tell_at p : rd_tell (mkR D p) = Ret (p, mkR D p).
Proof using HD HM. reflexivity. Qed.
Lemma ubyte_at p : p < len D -> exists n, read_ubyte (mkR D p) = Ret (n, mkR D (p + 1)).
Proof using HD HM.
  intros Hp. unfold read_ubyte, bind. destruct (fixed_at 1 p) as (b & -> & _); [pows; lia | lia|].
  exists (le_dec b). replace (N.min 1 (len D - p)) with 1 by lia. reflexivity.
Qed.
Lemma fwd_run u m {A} (ok : A -> Prop) (r : rd A) p : fwd u m ok r -> m <= p <= len D ->
  (exists a q, r (mkR D p) = Ret (a, mkR D q) /\ ok a /\ m <= q <= len D) \/ (exists e, r (mkR D p) = Throw e) \/
  (r (mkR D p) = Undef /\ u = true).
Proof using HD HM.
  intros H Hp. specialize (H p Hp). destruct (r (mkR D p)) as [[a s]|e| |]; [|right; left; eauto|auto|tauto].
  left. destruct H as (Ha & q & -> & Hq). eauto 6.
Qed.

Lemma end_fixed n : n < 2 ^ 62 -> rd_fixed n (mkR D (len D)) = Ret (zeros n, mkR D (len D)).
Proof using HD HM.
  intros Hn. unfold rd_fixed, bind. rewrite rd_read_spec; [|split; cbn [rdata rpos]; [lia|exact HM]|pows; lia].
  cbn [rdata rpos]. replace (N.min n (len D - len D)) with 0 by lia. rewrite N.add_0_r. unfold pad_to.
  rewrite take_0. cbn [app]. rewrite len_nil, N.sub_0_r. reflexivity.
Qed.

Lemma ushort_at p : p <= len D ->
  exists n, read_ushort (mkR D p) = Ret (n, mkR D (p + N.min 2 (len D - p))) /\ n < 2 ^ 16 /\ (p = len D -> n = 0).
Proof using HD HM.
  intros Hp. unfold read_ushort, bind. destruct (fixed_at 2 p) as (b & E & Hb); [pows; lia | exact Hp|]. rewrite E.
  exists (le_dec b). split; [reflexivity|]. split; [exact (le_dec_lt 2 b Hb)|].
  intros ->. rewrite (end_fixed 2) in E by (pows; lia). injection E as E _. rewrite <- E. reflexivity.
Qed.
Lemma string_at n p : p <= len D -> n < 2 ^ 62 ->
  exists b, read_string n (mkR D p) = Ret (b, mkR D (p + N.min n (len D - p))) /\ len b = n /\ (long_number D = false -> long_number b = false).
Proof using HD HM.
  intros Hp Hn. unfold read_string. replace (n <? max_size) with true by (symmetry; apply N.ltb_lt; pows; lia).
  unfold rd_fixed, bind. rewrite rd_read_spec; [|split; cbn [rdata rpos]; [lia|exact HM]|pows; lia].
  cbn [rdata rpos]. eexists. split; [reflexivity|]. unfold pad_to. split; [rewrite len_app, len_zeros, len_take, len_drop; lia|].
  intros H. rewrite long_zeros. set (k := N.min n (len D - p)).
  apply (long_within (take p D) (take k (drop p D)) (drop k (drop p D)) D); [|exact H]. rewrite take_drop, take_drop. reflexivity.
Qed.
(** Beginnings and ends of the safe binary format: an object beginning takes at least a byte. *)
Lemma bs_begin_at p : p <= len D ->
  match bs_begin (mkR D p) with
  | Ret (None, s) => s = mkR D p
  | Ret (Some _, s) => exists q, s = mkR D q /\ p + 2 <= q <= len D
  | Throw _ => True
  | Undef => long_number D = true
  | Fuel => False
  end.
Proof using HD HM.
  intros Hp. unfold bs_begin, bind at 1. rewrite eof_at.
  destruct (N.leb_spec (len D) p) as [He|He]; [reflexivity|].
  unfold bind at 1. rewrite tell_at. unfold bind at 1. destruct (ubyte_at p He) as (t & ->).
  assert (Hb : forall q, (r_back p;; ret None) (mkR D q) = Ret (@None ohead, mkR D p)).
  { intros q. unfold bind. rewrite back_at by (clear -HM Hp; pows; lia).
    destruct (N.ltb_spec (len D) p); [lia | reflexivity]. }
  destruct (negb (t =? T_STRING)); [rewrite Hb; reflexivity|].
  unfold bind at 1. destruct (ushort_at (p + 1)) as (l & -> & Hl & H0); [lia|].
  set (p1 := p + 1 + N.min 2 (len D - (p + 1))).
  unfold bind at 1. destruct (string_at l p1) as (line & -> & Hline & Hshort); [unfold p1; lia | pows; lia|].
  set (p2 := p1 + N.min l (len D - p1)).
  destruct (N.leb_spec (len line) 2) as [L2|L2].
  { rewrite Hb. reflexivity. }
  unfold bind at 1, lift at 1.
  pose proof (bs_head_no_fuel line) as NF. pose proof (bs_head_short line) as NS.
  destruct (bs_head line) as [[h|]|e| |]; [| | | |congruence].
  - exists p2. split; [reflexivity|].
    destruct (N.eq_dec (p + 1) (len D)) as [Ee|Ee]; [specialize (H0 Ee); lia|].
    unfold p2, p1. lia.
  - rewrite Hb. reflexivity.
  - exact I.
  - destruct (long_number D); [reflexivity|]. exfalso. apply NS; [apply Hshort; reflexivity | reflexivity].
Qed.
(** An end takes at least a byte too, unless the data are over. *)
Lemma bs_end_at p : p <= len D ->
  match bs_end (mkR D p) with
  | Ret (false, s) => s = mkR D p /\ p < len D
  | Ret (true, s) => exists q, s = mkR D q /\ q <= len D /\ (p < q \/ p = len D /\ q = len D)
  | Throw _ => True
  | Undef | Fuel => False
  end.
Proof using HD HM.
  intros Hp. unfold bs_end, bind at 1. rewrite eof_at.
  destruct (N.leb_spec (len D) p) as [He|He]; [exists p; repeat split; lia|].
  unfold bind at 1. rewrite tell_at. unfold bind at 1. destruct (ubyte_at p He) as (t & ->).
  assert (Hb : forall q, (r_back p;; ret false) (mkR D q) = Ret (false, mkR D p)).
  { intros q. unfold bind. rewrite back_at by (clear -HM Hp; pows; lia).
    destruct (N.ltb_spec (len D) p); [lia | reflexivity]. }
  destruct (negb (t =? T_STRING)); [rewrite Hb; split; [reflexivity | exact He]|].
  unfold bind at 1. destruct (ushort_at (p + 1)) as (l & -> & Hl & _); [lia|].
  set (p1 := p + 1 + N.min 2 (len D - (p + 1))).
  destruct (negb (l =? 2)); [rewrite Hb; split; [reflexivity | exact He]|].
  unfold bind at 1. destruct (string_at 2 p1) as (s & -> & _); [unfold p1; lia | pows; lia|].
  set (p2 := p1 + N.min 2 (len D - p1)).
  destruct (bytes_eqb s (lit "[]")); [|rewrite Hb; split; [reflexivity | exact He]].
  exists p2. split; [reflexivity|]. unfold p2, p1. lia.
Qed.
Lemma bs_skip_entry_at p : p < len D ->
  match bs_skip_entry (mkR D p) with
  | Ret (_, s) => exists q, s = mkR D q /\ p < q <= len D
  | Throw _ => True
  | Undef | Fuel => False
  end.
Proof using HD HM.
  intros Hp. unfold bs_skip_entry, bind at 1. destruct (ubyte_at p Hp) as (t & ->).
  match goal with |- match ?r _ with _ => _ end => assert (G : fwd false (p + 1) any r) end.
  { apply fwd_if.
    { eapply fwd_bind; [apply fwd_ushort|]. intros l Hl. cbv beta in Hl. apply fwd_seek. pows. lia. }
    apply fwd_of. fsteps. }
  destruct (fwd_run _ _ _ _ (p + 1) G) as [(a & q & -> & _ & Hq) | [(e & ->) | [_ X]]]; [lia| |exact I|discriminate].
  exists q. split; [reflexivity | lia].
Qed.

(** ** States of the archive *)
Definition st (p : N) (E : list N) : rar := mkRar (mkR D p) E.
(** From [p] with the open objects [E] to [q] with [F]. *)
Definition adv (p : N) (E : list N) (q : N) (F : list N) : Prop :=
  p <= q <= len D /\ (F = E \/ q = len D /\ exists X, F = X ++ E).
Definition moves (u : bool) (p : N) (E : list N) {A} (ok : A -> Prop) (r : outcome (A * rar)) : Prop :=
  match r with
  | Ret (a, s) => ok a /\ exists q F, s = st q F /\ adv p E q F
  | Throw _ => True
  | Undef => u = true
  | Fuel => False
  end.
Lemma adv_refl p E : p <= len D -> adv p E p E.
Proof using HD HM. intros H. split; [lia | left; reflexivity]. Qed.
Lemma adv_trans p E q F r G : adv p E q F -> adv q F r G -> adv p E r G.
Proof using HD HM.
  intros [H1 [->|(Q1 & X1 & ->)]] [H2 [->|(Q2 & X2 & ->)]]; (split; [lia|]).
  - left; reflexivity.
  - right. split; [exact Q2|]. eauto.
  - right. split; [lia|]. eauto.
  - right. split; [exact Q2|]. exists (X2 ++ X1). rewrite app_assoc. reflexivity.
Qed.
Lemma moves_rdl u p E {A} (ok : A -> Prop) (r : rd A) : p <= len D -> fwd u p ok r -> moves u p E ok (rdl r (st p E)).
Proof using HD HM.
  intros Hp H. unfold rdl, st. cbn [ra_r ra_ends]. specialize (H p). destruct (r (mkR D p)) as [[a s]| | |]; try (apply H; lia).
  destruct H as (Ha & q & -> & Hq); [lia|]. split; [exact Ha|]. exists q, E. split; [reflexivity|]. split; [lia | left; reflexivity].
Qed.

(** *** Entries *)
Definition und (f : fmt) : bool := match f with ABinary => false | _ => long_number D end.
Lemma moves_read u f p E k : f <> AAscii -> p <= len D -> kind_fit k -> moves u p E (val_fit k) (ar_read f k (st p E)).
Proof using HD HM.
  intros Hf Hp Hk. destruct f; [| |congruence]; apply moves_rdl; try exact Hp; [apply bin_entry | apply bs_entry_fwd]; exact Hk.
Qed.
(** *** Beginnings *)
Definition opened (f : fmt) (p : N) (E : list N) (q : N) (F : list N) : Prop :=
  p < q <= len D /\
  match f with ABinary => exists e, F = e :: E /\ p <= e < 2 ^ 63 | _ => F = E end.
Lemma begins f p E : f <> AAscii -> p <= len D ->
  match ar_begin f (st p E) with
  | Ret (None, s) => s = st p E
  | Ret (Some _, s) => exists q F, s = st q F /\ opened f p E q F
  | Throw _ => True
  | Undef => und f = true
  | Fuel => False
  end.
Proof using HD HM.
  intros Hf Hp. destruct f; [| |congruence]; cbn [ar_begin].
  - unfold bin_begin, bind at 1, rdl at 1, st. cbn [ra_r ra_ends]. rewrite eof_at.
    destruct (N.leb_spec (len D) p) as [He|He]; [reflexivity|].
    unfold bind at 1, rdl at 1. cbn [ra_r ra_ends]. rewrite tell_at.
    unfold bind at 1, rdl at 1. cbn [ra_r ra_ends].
    unfold read_uint at 1, bind at 1. destruct (fixed_at 4 p) as (b & -> & Hb); [pows; lia | lia|].
    change (ret (le_dec b) ?s) with (Ret (le_dec b, s)). cbv iota beta. cbn [ra_r ra_ends].
    pose proof (le_dec_lt 4 b Hb) as Hs. change (256 ^ 4) with (2 ^ 32) in Hs.
    assert (Hw : u64 (p + le_dec b) = p + le_dec b) by (unfold u64; apply N.mod_small; clear -Hs Hp HD; pows; lia).
    rewrite Hw. set (q0 := p + N.min 4 (len D - p)).
    unfold bind at 1. cbn [ra_r ra_ends].
    match goal with |- match ?r _ with _ => _ end =>
      assert (G : forall q F, q0 <= q <= len D ->
        match r (mkRar (mkR D q) F) with
        | Ret (None, _) => False
        | Ret (Some _, s) => exists q', s = st q' F /\ q0 <= q' <= len D
        | Throw _ => True
        | Undef | Fuel => False
        end) end.
    { intros q F Hq.
      assert (S : forall {A} (r : rd A) {B} (k : A -> ard B) q, forward r -> q0 <= q <= len D ->
                (exists a q', bind (rdl r) k (mkRar (mkR D q) F) = k a (mkRar (mkR D q') F) /\ q0 <= q' <= len D) \/
                (exists e, bind (rdl r) k (mkRar (mkR D q) F) = Throw e)).
      { intros A r B k x Hr Hx. unfold bind, rdl. cbn [ra_r ra_ends].
        destruct (fwd_run false q0 any r x (fwd_of false q0 r Hr) Hx) as [(a & y & -> & _ & Hy) | [(e & ->) | [_ X]]]; [left; eauto|right; eauto|discriminate]. }
      destruct (S _ read_ushort _ (fun ver => let* idx := rdl read_uint in let* name := rdl (read_line false) in
         let* cls := rdl (read_line false) in ret (Some (mkH name cls ver idx))) q fw_ushort Hq) as [(ver & q1 & -> & H1) | (e & ->)]; [|exact I].
      destruct (S _ read_uint _ (fun idx => let* name := rdl (read_line false) in
         let* cls := rdl (read_line false) in ret (Some (mkH name cls ver idx))) q1 fw_uint H1) as [(idx & q2 & -> & H2) | (e & ->)]; [|exact I].
      destruct (S _ (read_line false) _ (fun name => let* cls := rdl (read_line false) in ret (Some (mkH name cls ver idx))) q2 (fw_line _) H2)
        as [(name & q3 & -> & H3) | (e & ->)]; [|exact I].
      destruct (S _ (read_line false) _ (fun cls => ret (Some (mkH name cls ver idx))) q3 (fw_line _) H3)
        as [(cls & q4 & -> & H4) | (e & ->)]; [|exact I].
      exists q4. split; [reflexivity | exact H4]. }
    specialize (G q0 (p + le_dec b :: E)).
    match goal with |- match ?r ?s with _ => _ end => destruct (r s) as [[[h|] s']| | |] end;
      try (apply G; unfold q0; lia); [|exfalso; apply G; unfold q0; lia|exfalso; apply G; unfold q0; lia].
    destruct G as (q' & -> & Hq'); [unfold q0; lia|]. exists q', (p + le_dec b :: E). split; [reflexivity|].
    split; [unfold q0 in Hq'; lia|]. eexists. split; [reflexivity|]. clear -Hs Hp HD. pows. lia.
  - unfold rdl, st. cbn [ra_r ra_ends]. pose proof (bs_begin_at p Hp) as H.
    destruct (bs_begin (mkR D p)) as [[[h|] s]| | |]; try exact H; try reflexivity.
    + destruct H as (q & -> & Hq). exists q, E. split; [reflexivity|]. split; [lia | reflexivity].
    + rewrite H. reflexivity.
Qed.

(** *** Skipping *)
Lemma bs_skip_loop u : (long_number D = true -> u = true) -> forall n p E L, p <= len D -> (Z.of_N (len D - p) + Z.max L 0 < Z.of_nat n)%Z ->
  moves u p E any (skip_loop n ABinsafe L (st p E)).
Proof using HD HM.
  intros Hu. induction n as [|n IH]; intros p E L Hp Hn; [lia|].
  cbn [skip_loop]. unfold bind at 1. pose proof (begins ABinsafe p E) as B.
  assert (G : forall q L', p <= q <= len D ->
    ((0 < L')%Z -> (Z.of_N (len D - q) + L' < Z.of_nat n)%Z) ->
    moves u p E any ((if (0 <? L')%Z then skip_loop n ABinsafe L' else ret tt) (st q E))).
  { intros q L' Hq HL. destruct (Z.ltb_spec 0 L') as [H0|H0].
    - specialize (IH q E L'). destruct (skip_loop n ABinsafe L' (st q E)) as [[[] s]| | |]; try (apply IH; lia).
      destruct IH as (_ & x & F & -> & Hx); [lia|lia|]. split; [exact I|]. exists x, F. split; [reflexivity|].
      eapply adv_trans; [|exact Hx]. split; [lia | left; reflexivity].
    - split; [exact I|]. exists q, E. split; [reflexivity|]. split; [lia | left; reflexivity]. }
  cbn [ar_begin] in B |- *. unfold rdl in B |- *. unfold st in B at 1. unfold st at 1. cbn [ra_r ra_ends] in B |- *.
  pose proof (bs_begin_at p Hp) as B2.
  destruct (bs_begin (mkR D p)) as [[[h|] s]| | |]; [| |exact I|exact (Hu B2)|exact B2].
  - destruct B2 as (q & -> & Hq). unfold bind at 1. unfold ret at 1. apply (G q); lia.
  - subst s. unfold bind at 1. unfold bind at 1. cbn [ar_end]. unfold rdl. cbn [ra_r ra_ends].
    pose proof (bs_end_at p Hp) as H. destruct (bs_end (mkR D p)) as [[[|] s]| | |]; [| |exact I|contradiction|contradiction].
    + destruct H as (q & -> & Hq & Hpq). unfold ret at 1. apply (G q); lia.
    + destruct H as (-> & Hlt). unfold bind at 1. cbn [ar_skip_entry]. unfold rdl. cbn [ra_r ra_ends].
      pose proof (bs_skip_entry_at p Hlt) as H. destruct (bs_skip_entry (mkR D p)) as [[x s]| | |]; [|exact I|contradiction|contradiction].
      destruct H as (q & -> & Hq). unfold ret at 1. apply (G q); lia.
Qed.
Lemma moves_next u f p E : f <> AAscii -> (und f = true -> u = true) -> p <= len D -> moves u p E any (ar_skip f false (st p E)).
Proof using HD HM.
  intros Hf Hu Hp. destruct f; [| |congruence]; cbn [ar_skip].
  - cbn [bin_skip]. unfold bind. unfold rdl at 1, st. cbn [ra_r ra_ends].
    destruct (fwd_run u p _ _ p (fwd_uint u p)) as [(n & q & -> & _ & Hq) | [(e & ->) | [-> X]]]; [lia| |exact I|exact X].
    assert (Hn : u32 (n + (2 ^ 32 - 4)) < 2 ^ 62).
    { assert (u32 (n + (2 ^ 32 - 4)) < 2 ^ 32) by (unfold u32; apply N.mod_lt; discriminate). pows. lia. }
    pose proof (fwd_seek u p _ Hn q Hq) as H. unfold rdl. cbn [ra_r ra_ends].
    destruct (rd_seek (Z.of_N (u32 (n + (2 ^ 32 - 4)))) CUR (mkR D q)) as [[a s]| | |]; try exact H.
    destruct H as (_ & y & -> & Hy). split; [exact I|]. exists y, E. split; [reflexivity|]. split; [lia | left; reflexivity].
  - cbn [st ra_r rdata rpos]. apply bs_skip_loop; [exact Hu | exact Hp | lia].
Qed.
(** *** Closing an object *)
Definition closing (f : fmt) : ard unit :=
  let* e := ar_end f in if e then ret tt else ar_skip f true.
Lemma closes u f p E q F x G : f <> AAscii -> (und f = true -> u = true) -> p <= len D ->
  opened f p E q F -> adv q F x G -> moves u p E any (closing f (st x G)).
Proof using HD HM.
  intros Hf Hu Hp [Hq Ho] [Hx HG]. unfold closing. destruct f; [| |congruence].
  - destruct Ho as (e & -> & He). cbn [ar_end]. unfold bin_end, bind, rdl, st, top_end, pop_end. cbn [ra_r ra_ends]. rewrite tell_at. cbn [ra_r ra_ends].
    assert (EG : exists X, G = X ++ e :: E /\ (X = [] \/ x = len D)).
    { destruct HG as [->|(-> & X & ->)]; [exists []|exists X]; auto. }
    destruct EG as (X & -> & HX).
    assert (Top : exists e' Y, X ++ e :: E = e' :: Y ++ E /\ (x <> len D -> e' = e /\ Y = [])).
    { destruct X as [|e' X]; [exists e, []; auto|]. exists e', (X ++ [e]). rewrite <- app_assoc. split; [reflexivity|].
      intros N. exfalso. destruct HX as [HX|HX]; [discriminate | contradiction]. }
    destruct Top as (e' & Y & -> & HY). cbn [ra_r ra_ends].
    assert (Done : forall Z, (x <> len D -> Z = []) -> moves u p E any (Ret (tt, mkRar (mkR D x) (Z ++ E)))).
    { intros Z HZ. split; [exact I|]. exists x, (Z ++ E). split; [reflexivity|]. split; [lia|].
      destruct (N.eq_dec x (len D)) as [Ex|Ex]; [right; split; [exact Ex | eauto] | left; rewrite HZ; auto]. }
    destruct (N.eqb_spec x e') as [Ee|Ee].
    + cbn [ret ra_r ra_ends]. apply Done. intros N. apply HY, N.
    + cbv beta iota. cbn [ra_r ra_ends]. rewrite eof_at. cbn [ra_r ra_ends]. destruct (N.leb_spec (len D) x) as [El|El].
      * cbn. apply (Done (e' :: Y)). intros N. exfalso. apply N. lia.
      * destruct HY as [-> ->]; [lia|]. cbn [ar_skip bin_skip]. unfold bind, top_end, rdl, pop_end. cbn [ra_r ra_ends app].
        rewrite back_at by (clear -He; lia). cbn [ra_r ra_ends].
        split; [exact I|]. eexists. exists E. split; [reflexivity|]. split; [|left; reflexivity].
        destruct (N.ltb_spec (len D) e); lia.
  - subst F. cbn [ar_end]. unfold bind, rdl, st. cbn [ra_r ra_ends].
    assert (Hx2 : x <= len D) by lia.
    pose proof (bs_end_at x Hx2) as H. destruct (bs_end (mkR D x)) as [[[|] s]| | |]; [| |exact I|contradiction|contradiction].
    + destruct H as (y & -> & Hy & Hxy). split; [exact I|]. exists y, G. split; [reflexivity|]. split; [lia|].
      destruct HG as [HG|[Ex HG]]; [left; exact HG | right; split; [lia | exact HG]].
    + destruct H as (-> & Hlt). cbn [ar_skip st ra_r rdata rpos].
      pose proof (bs_skip_loop u Hu (S (S (N.to_nat (len D - x)))) x G 1 Hx2) as H.
      unfold st in H. destruct (skip_loop _ ABinsafe 1 (mkRar (mkR D x) G)) as [[[] s]| | |]; try (apply H; lia).
      destruct H as (_ & y & G' & -> & Hy); [lia|]. split; [exact I|]. exists y, G'. split; [reflexivity|].
      eapply adv_trans; [|exact Hy]. split; [lia|]. destruct HG as [HG|[Ex HG]]; [left; exact HG | right; split; [lia | exact HG]].
Qed.
Lemma skips_open u f p E q F : f <> AAscii -> (und f = true -> u = true) -> p <= len D ->
  opened f p E q F -> moves u p E any (ar_skip f true (st q F)).
Proof using HD HM.
  intros Hf Hu Hp [Hq Ho]. destruct f; [| |congruence]; cbn [ar_skip].
  - destruct Ho as (e & -> & He). cbn [bin_skip]. unfold bind, top_end, rdl, pop_end, st. cbn [ra_r ra_ends].
    rewrite back_at by (clear -He; lia). cbn [ra_r ra_ends].
    split; [exact I|]. eexists. exists E. split; [reflexivity|]. split; [|left; reflexivity].
    destruct (N.ltb_spec (len D) e); lia.
  - subst F. cbn [st ra_r rdata rpos].
    assert (Hq2 : q <= len D) by lia.
    pose proof (bs_skip_loop u Hu (S (S (N.to_nat (len D - q)))) q E 1 Hq2) as H.
    unfold st in H. fold (st q E). unfold st. destruct (skip_loop _ ABinsafe 1 (mkRar (mkR D q) E)) as [[[] s]| | |]; try (apply H; lia).
    destruct H as (_ & y & G' & -> & Hy); [lia|]. split; [exact I|]. exists y, G'. split; [reflexivity|].
    eapply adv_trans; [|exact Hy]. split; [lia | left; reflexivity].
Qed.

(** ** Load functions *)
(** The load functions that only read entries and objects and skip objects. *)
Inductive plain (u : bool) {A} : prog oid A -> Prop :=
| plain_ret a : plain u (PRet a)
| plain_throw e : plain u (PThrow e)
| plain_undef : u = true -> plain u PUndef
| plain_read k c : kind_fit k -> (forall v, val_fit k v -> plain u (c v)) -> plain u (PRead k c)
| plain_obj c : (forall o, plain u (c o)) -> plain u (PObj c)
| plain_skip p : plain u p -> plain u (PSkip false p).

Section Objects.
Variable f : fmt.
Hypothesis Hf : f <> AAscii.
Variable u : bool.
Hypothesis Hu : und f = true -> u = true.
Context {Ob : Type} (load : otype -> option (prog oid Ob)) (flags_of : Ob -> Z).
Hypothesis Hload : forall t p, load t = Some p -> plain u p.

Definition gmoves (p : N) (E : list N) {A} (r : outcome (A * @rg rar Ob)) : Prop :=
  match r with
  | Ret (_, g) => exists q F c h, g = mkRg (st q F) c h /\ adv p E q F
  | Throw _ => True
  | Undef => u = true
  | Fuel => False
  end.
Lemma gmoves_trans p E q F {A} (r : outcome (A * @rg rar Ob)) : adv p E q F -> gmoves q F r -> gmoves p E r.
Proof using HD HM.
  intros H. destruct r as [[a g]| | |]; cbn [gmoves]; auto. intros (x & G & c & h & -> & Hx).
  exists x, G, c, h. split; [reflexivity|]. eapply adv_trans; eassumption.
Qed.
(** One step of the archive and what follows. *)
Lemma gmoves_rgl p E {A B} (ok : A -> Prop) (m : ard A) (k : A -> M rg B) c h :
  moves u p E ok (m (st p E)) ->
  (forall a q F, ok a -> adv p E q F -> gmoves q F (k a (mkRg (st q F) c h))) ->
  gmoves p E (bind (rgl m) k (mkRg (st p E) c h)).
Proof using HD HM.
  intros Hm Hk. unfold bind, rgl. cbn [rg_s rg_cache rg_heap]. destruct (m (st p E)) as [[a s]| | |]; [|exact I|exact Hm|contradiction].
  destruct Hm as (Ha & q & F & -> & Hq). eapply gmoves_trans; [exact Hq|]. apply Hk; assumption.
Qed.
Lemma runs_plain rec A (pr : prog oid A) : plain u pr -> forall n, 
  (forall p E c h, p <= len D -> len D - p <= n -> gmoves p E (rec (mkRg (st p E) c h))) ->
  forall p E c h, p <= len D -> len D - p <= n -> gmoves p E (runp (fmt_prims f) flags_of rec pr (mkRg (st p E) c h)).
Proof using HD HM Hf Hu.
  induction 1 as [a|e|Hun|k c Hk Hc IH|c Hc IH|pr Hp IH]; intros n Hrec p E cc h Hp' Hn; cbn [runp].
  - exists p, E, cc, h. split; [reflexivity | apply adv_refl, Hp'].
  - exact I.
  - exact Hun.
  - apply (gmoves_rgl p E (val_fit k)); [apply moves_read; assumption|]. intros v q F Hv Hq. destruct Hq as [Hq _].
    apply (IH v Hv n Hrec); lia.
  - unfold bind at 1. specialize (Hrec p E cc h Hp' Hn) as R. destruct (rec (mkRg (st p E) cc h)) as [[r g]| | |]; [|exact I|exact R|contradiction].
    destruct R as (q & F & c2 & h2 & -> & Hq). eapply gmoves_trans; [exact Hq|]. destruct Hq as [Hq _].
    apply (IH _ n Hrec); lia.
  - apply (gmoves_rgl p E any); [cbn [p_skip fmt_prims]; apply moves_next; assumption|]. intros v q F Hv Hq. destruct Hq as [Hq _].
    apply (IH n Hrec); lia.
Qed.
Lemma reads_object : forall n p E c h, p <= len D -> (N.to_nat (len D - p) < n)%nat ->
  gmoves p E (read_obj (fmt_prims f) load flags_of n (mkRg (st p E) c h)).
Proof using HD HM Hf Hu Hload.
  induction n as [|n IH]; intros p E c h Hp Hn; [lia|].
  cbn [read_obj]. unfold bind at 1. unfold rgl at 1. cbn [rg_s rg_cache rg_heap]. cbn [fmt_prims p_begin].
  pose proof (begins f p E Hf Hp) as B. destruct (ar_begin f (st p E)) as [[[o|] s]| | |]; [| |exact I|apply Hu, B|contradiction].
  2:{ subst s. exists p, E, c, h. split; [reflexivity | apply adv_refl, Hp]. }
  destruct B as (q & F & -> & Ho).
  (* leaving the object *)
  assert (L : forall {A} x G cc hh (k : @M (@rg rar Ob) A), adv q F x G ->
     (forall y H cc' hh', adv p E y H -> gmoves p E (k (mkRg (st y H) cc' hh'))) ->
     gmoves p E ((let* e := rgl (p_end (fmt_prims f)) in
                  (if e then ret tt else rgl (p_skip (fmt_prims f) true)) ;; k) (mkRg (st x G) cc hh))).
  { intros A x G cc hh k Hx Hk. pose proof (closes u f p E q F x G Hf Hu Hp Ho Hx) as C.
    unfold closing, bind in C. unfold bind. unfold rgl at 1. cbn [rg_s rg_cache rg_heap fmt_prims p_end p_skip].
    destruct (ar_end f (st x G)) as [[[|] s]| | |]; try exact C.
    - cbn in C. destruct C as (_ & y & H & -> & Hy). unfold ret. apply Hk, Hy.
    - unfold rgl. cbn [rg_s rg_cache rg_heap]. destruct (ar_skip f true s) as [[[] s']| | |]; try exact C.
      destruct C as (_ & y & H & -> & Hy). apply Hk, Hy. }
  destruct (bytes_eqb (oh_class o) [xa7]).
  { apply (L _ q F c h); [apply adv_refl; destruct Ho; lia|]. intros y H cc' hh' Hy.
    exists y, H, cc', hh'. split; [reflexivity | exact Hy]. }
  destruct (bytes_eqb (oh_class o) (lit "%")).
  { unfold bind, rgl. cbn [rg_s rg_cache rg_heap fmt_prims p_skip].
    pose proof (skips_open u f p E q F Hf Hu Hp Ho) as C. destruct (ar_skip f true (st q F)) as [[[] s']| | |]; try exact C.
    destruct C as (_ & y & H & -> & Hy). exists y, H, c, h. split; [reflexivity | exact Hy]. }
  unfold bind at 1. destruct (load (type_of_class (oh_class o))) as [pr|] eqn:El.
  2:{ unfold ret at 1. apply (L _ q F c h); [apply adv_refl; destruct Ho; lia|]. intros y H cc' hh' Hy.
      exists y, H, cc', hh'. split; [reflexivity | exact Hy]. }
  cbn [rg_s rg_cache rg_heap]. unfold bind at 1.
  assert (Ho' := Ho). destruct Ho' as [Hq _].
  pose proof (runs_plain (read_obj (fmt_prims f) load flags_of n) Ob pr (Hload _ _ El) (len D - q)) as R.
  specialize (R (fun p' E' c' h' Hp' Hn' => IH p' E' c' h' Hp' ltac:(lia))).
  specialize (R q F ((oh_idx o, len h) :: c) (h ++ [mkHobj (type_of_class (oh_class o)) (oh_idx o) None])).
  destruct (runp (fmt_prims f) flags_of (read_obj (fmt_prims f) load flags_of n) pr _) as [[v g]| | |]; try (apply R; lia).
  destruct R as (x & G & cc & hh & -> & Hx); [lia|lia|]. cbn [rg_s rg_cache rg_heap].
  apply (L _ x G cc _ _ Hx). intros y H cc' hh' Hy.
  exists y, H, cc', hh'. split; [reflexivity | exact Hy].
Qed.
End Objects.
End Data.

(** ** The classes *)
Lemma plain_bind u {A B} (p : prog oid A) (k : A -> prog oid B) : plain u p -> (forall a, plain u (k a)) -> plain u (pbind p k).
Proof.
  intros H Hk. induction H as [a|e|Hun|kd c Hf Hc IH|c Hc IH|p Hp IH]; cbn [pbind].
  - apply Hk.
  - constructor.
  - constructor; exact Hun.
  - constructor; [exact Hf | exact IH].
  - constructor; exact IH.
  - constructor; exact IH.
Qed.
Lemma plain_rep u {A} n (p : prog oid A) : plain u p -> plain u (p_rep n p).
Proof.
  intros H. induction n as [|n IH]; cbn [p_rep]; [constructor|].
  apply plain_bind; [exact H|]. intros a. apply plain_bind; [exact IH|]. intros l. constructor.
Qed.
Lemma plain_rd u k : kind_fit k -> plain u (p_rd k).
Proof. intros H. constructor; [exact H|]. intros v _. constructor. Qed.
Lemma plain_lift u {A} (o : outcome A) : (o = Undef -> u = true) -> o <> Fuel -> plain u (p_lift o).
Proof. intros H1 H2. destruct o; cbn [p_lift]; [constructor|constructor|constructor; auto|congruence]. Qed.
Lemma plain_raw u {A} n (m : rd A) : n < 2 ^ 32 -> forward m -> plain u (p_raw n m).
Proof.
  intros Hn Hm. unfold p_raw, p_rd. cbn [pbind]. constructor; [exact Hn|]. intros b Hb. cbn [val_fit] in Hb.
  assert (Hs : r_ok (mkR b 0)) by (split; cbn [rdata rpos]; [lia | pows; lia]).
  unfold from_raw. specialize (Hm (mkR b 0) Hs). destruct (m (mkR b 0)) as [[a s]| | |]; cbn [p_lift]; try constructor; contradiction.
Qed.
Lemma plain_skips u n : plain u (p_skips n).
Proof. induction n as [|n IH]; cbn [p_skips]; constructor; exact IH. Qed.
Lemma plain_if u {A} (b : bool) (p q : prog oid A) : plain u p -> plain u q -> plain u (if b then p else q).
Proof. destruct b; auto. Qed.
Lemma plain_keyframes u : plain u p_keyframes.
Proof.
  unfold p_keyframes, p_rd. cbn [pbind]. constructor; [exact I|]. intros n Hn. cbn [val_fit] in Hn.
  destruct (n =? 0); [constructor|].
  repeat (apply plain_read; [exact I|]; intros ? _; cbn [pbind]).
  apply plain_bind; [apply plain_raw; [pows; lia|]|intros; constructor].
  apply fw_repM. unfold read_sample. fsteps.
Qed.
Lemma drop_while_short (p : byte -> bool) s : (length (drop_while p s) <= length s)%nat.
Proof. induction s as [|c s IH]; cbn [drop_while]; [lia|]. destruct (p c); cbn [length]; lia. Qed.
Lemma scan_sign_short s : (length (snd (scan_sign s)) <= length s)%nat.
Proof. destruct s as [|c s]; cbn; [lia|]. destruct (beq c x2d); [cbn; lia|]. destruct (beq c x2b); cbn; lia. Qed.
Lemma scan_int_short s z r : scan_int s = Some (z, r) -> (length r < length s)%nat.
Proof.
  unfold scan_int. pose proof (scan_sign_short (drop_while MText.is_ws s)) as H1. pose proof (drop_while_short MText.is_ws s) as H2.
  destruct (scan_sign (drop_while MText.is_ws s)) as [neg s1]. cbn [snd] in H1.
  destruct s1 as [|c s1]; cbn [take_while]; [discriminate|]. destruct (is_digit c) eqn:Ed; [|discriminate].
  intros [= _ <-]. cbn [drop_while]. rewrite Ed. pose proof (drop_while_short is_digit s1) as H3. cbn [length] in H1. lia.
Qed.
Lemma stream_u32_short s n r : stream_u32 s = (n, Some r) -> (length r < length s)%nat.
Proof.
  unfold stream_u32. destruct (scan_int s) as [[z rest]|] eqn:E; [|discriminate]. apply scan_int_short in E.
  destruct (Z.abs z <? 2 ^ 32)%Z; [|discriminate]. intros [= _ <-]. exact E.
Qed.
Lemma stream_rgb_short v s v' r : stream_rgb v s = (v', Some r) -> (length r < length s)%nat.
Proof.
  unfold stream_rgb. destruct v as [[a b] d].
  destruct (stream_u32 s) as [r1 [s1|]] eqn:E1; [|discriminate]. apply stream_u32_short in E1.
  destruct (stream_u32 s1) as [r2 [s2|]] eqn:E2; [|discriminate]. apply stream_u32_short in E2.
  destruct (stream_u32 s2) as [r3 [s3|]] eqn:E3; [|discriminate]. apply stream_u32_short in E3.
  pose proof (drop_while_short MText.is_ws s3) as H. destruct (drop_while MText.is_ws s3) as [|c s4]; [discriminate|].
  intros [= _ <-]. cbn [length] in H. lia.
Qed.
Lemma stream_colors_ends : forall n v s, (length s < n)%nat -> stream_colors n v s <> Fuel.
Proof.
  induction n as [|n IH]; intros v s Hn; [lia|]. cbn [stream_colors].
  pose proof (drop_while_short MText.is_ws s) as H. destruct (drop_while MText.is_ws s) as [|ch s1]; [discriminate|]. cbn [length] in H.
  assert (G : forall w col rest, match rest with Some r => (length r < n)%nat | None => True end ->
    match rest with
    | Some r => obind (stream_colors n w r) (fun l => Ret (col :: l))
    | None => Ret [col]
    end <> Fuel).
  { intros w col [r|] Hr; [|discriminate]. specialize (IH w r Hr). destruct (stream_colors n w r); cbn [obind]; congruence. }
  cbv zeta. destruct (is_digit ch).
  - destruct (stream_u32 (ch :: s1)) as [r rest] eqn:E. apply G. destruct rest as [rest|]; [|exact I]. apply stream_u32_short in E. cbn [length] in E. lia.
  - destruct (stream_rgb v s1) as [[[[r|] [g|]] [b|]] rest] eqn:E; try discriminate.
    apply G. destruct rest as [rest|]; [|exact I]. apply stream_rgb_short in E. lia.
Qed.

Create HintDb plain.
Ltac pstep := first
  [ solve [auto 2 with plain nocore] |
  lazymatch goal with
  | |- plain _ (PRet _) => apply plain_ret
  | |- plain _ (PThrow _) => apply plain_throw
  | |- plain _ PUndef => apply plain_undef; reflexivity
  | |- plain _ (PRead _ _) => apply plain_read; [exact I | intros]
  | |- plain _ (PObj _) => apply plain_obj; intros
  | |- plain ?u (p_rd ?k) => exact (plain_rd u k I)
  | |- plain _ (p_raw _ _) => apply plain_raw; [first [reflexivity | pows; lia] | solve [fsteps]]
  | |- plain _ (p_rep _ _) => apply plain_rep
  | |- plain _ (pbind _ _) => apply plain_bind; [|intros]
  | |- plain _ (match ?x with _ => _ end) => destruct x
  end ].
Ltac plains := repeat pstep.
Lemma plain_p_obj u t : plain u (p_obj t). Proof. unfold p_obj. plains. Qed.
Lemma plain_p_any u : plain u p_any. Proof. unfold p_any. plains. Qed.
Global Hint Resolve plain_keyframes plain_skips plain_p_obj plain_p_any : plain.
Lemma fw_packed c : forward (read_packed c). Proof. unfold read_packed. fsteps. Qed.
Global Hint Resolve fw_packed : forward.
Lemma pl_p_vob u : plain u (p_vob ). Proof. unfold p_vob. plains. Qed.
Global Hint Resolve pl_p_vob : plain.
Lemma pl_p_visual u : plain u (p_visual ). Proof. unfold p_visual. plains. Qed.
Global Hint Resolve pl_p_visual : plain.
Lemma pl_p_size u : plain u (p_size ). Proof. unfold p_size. plains. Qed.
Global Hint Resolve pl_p_size : plain.
Lemma pl_p_upto u : plain u (p_upto ). Proof. unfold p_upto. plains. Qed.
Global Hint Resolve pl_p_upto : plain.
Lemma pl_load_decal u  (c : cfg) : plain u (load_decal c). Proof. unfold load_decal. plains. Qed.
Global Hint Resolve pl_load_decal : plain.
Lemma pl_load_body u  (c : cfg) : plain u (load_body c). Proof. unfold load_body. plains. Qed.
Global Hint Resolve pl_load_body : plain.
Lemma pl_load_evman u  (c : cfg) : plain u (load_evman c). Proof. unfold load_evman. plains. Qed.
Global Hint Resolve pl_load_evman : plain.
Lemma pl_load_aihuman u  (c : cfg) : plain u (load_aihuman c). Proof. unfold load_aihuman. plains. Qed.
Global Hint Resolve pl_load_aihuman : plain.
Lemma pl_load_aimove u  (c : cfg) : plain u (load_aimove c). Proof. unfold load_aimove. plains. Qed.
Global Hint Resolve pl_load_aimove : plain.
Lemma pl_p_if_str u  (b : bool) : plain u (p_if_str b). Proof. unfold p_if_str. plains. Qed.
Global Hint Resolve pl_p_if_str : plain.
Lemma pl_load_packed u  (c : cfg) : plain u (load_packed c). Proof. unfold load_packed. apply plain_bind; [apply plain_raw; [destruct (g2 c); reflexivity | fsteps]|]. intros. plains. Qed.
Global Hint Resolve pl_load_packed : plain.
Lemma pl_load_unpacked u  (c : cfg) : plain u (load_unpacked c). Proof. unfold load_unpacked. plains. Qed.
Global Hint Resolve pl_load_unpacked : plain.
Lemma pl_load_vob u  (c : cfg) : plain u (load_vob c). Proof. unfold load_vob. plains. Qed.
Global Hint Resolve pl_load_vob : plain.
Lemma pl_p_flag u : plain u (p_flag ). Proof. unfold p_flag. plains. Qed.
Global Hint Resolve pl_p_flag : plain.
Lemma pl_load_trigger u  (c : cfg) : plain u (load_trigger c). Proof. unfold load_trigger. plains. Qed.
Global Hint Resolve pl_load_trigger : plain.
Lemma pl_load_mover u  (c : cfg) : plain u (load_mover c). Proof. unfold load_mover. plains. Qed.
Global Hint Resolve pl_load_mover : plain.
Lemma pl_p_target u : plain u (p_target ). Proof. unfold p_target. plains. Qed.
Global Hint Resolve pl_p_target : plain.
Lemma pl_load_tlist u  (c : cfg) : plain u (load_tlist c). Proof. unfold load_tlist. plains. Qed.
Global Hint Resolve pl_load_tlist : plain.
Lemma pl_load_tscript u  (c : cfg) : plain u (load_tscript c). Proof. unfold load_tscript. plains. Qed.
Global Hint Resolve pl_load_tscript : plain.
Lemma pl_load_tlevel u  (c : cfg) : plain u (load_tlevel c). Proof. unfold load_tlevel. plains. Qed.
Global Hint Resolve pl_load_tlevel : plain.
Lemma pl_load_tstart u  (c : cfg) : plain u (load_tstart c). Proof. unfold load_tstart. plains. Qed.
Global Hint Resolve pl_load_tstart : plain.
Lemma pl_load_tuntouch u  (c : cfg) : plain u (load_tuntouch c). Proof. unfold load_tuntouch. plains. Qed.
Global Hint Resolve pl_load_tuntouch : plain.
Lemma pl_load_movable u  (c : cfg) : plain u (load_movable c). Proof. unfold load_movable. plains. Qed.
Global Hint Resolve pl_load_movable : plain.
Lemma pl_load_interactive u  (c : cfg) : plain u (load_interactive c). Proof. unfold load_interactive. plains. Qed.
Global Hint Resolve pl_load_interactive : plain.
Lemma pl_load_container u  (c : cfg) : plain u (load_container c). Proof. unfold load_container. plains. Qed.
Global Hint Resolve pl_load_container : plain.
Lemma pl_load_door u  (c : cfg) : plain u (load_door c). Proof. unfold load_door. plains. Qed.
Global Hint Resolve pl_load_door : plain.
Lemma pl_load_fire u  (c : cfg) : plain u (load_fire c). Proof. unfold load_fire. plains. Qed.
Global Hint Resolve pl_load_fire : plain.
Lemma pl_load_sound u  (c : cfg) : plain u (load_sound c). Proof. unfold load_sound. plains. Qed.
Global Hint Resolve pl_load_sound : plain.
Lemma pl_load_daysound u  (c : cfg) : plain u (load_daysound c). Proof. unfold load_daysound. plains. Qed.
Global Hint Resolve pl_load_daysound : plain.
Lemma pl_load_music u  (c : cfg) : plain u (load_music c). Proof. unfold load_music. plains. Qed.
Global Hint Resolve pl_load_music : plain.
Lemma pl_load_farplane u  (c : cfg) : plain u (load_farplane c). Proof. unfold load_farplane. plains. Qed.
Global Hint Resolve pl_load_farplane : plain.
Lemma pl_load_fog u  (c : cfg) : plain u (load_fog c). Proof. unfold load_fog. plains. Qed.
Global Hint Resolve pl_load_fog : plain.
Lemma pl_load_camframe u  (c : cfg) : plain u (load_camframe c). Proof. unfold load_camframe. plains. Qed.
Global Hint Resolve pl_load_camframe : plain.
Lemma pl_p_frames u  (n : Z) : plain u (p_frames n). Proof. unfold p_frames. plains. Qed.
Global Hint Resolve pl_p_frames : plain.
Lemma pl_load_cscamera u  (c : cfg) : plain u (load_cscamera c). Proof. unfold load_cscamera. plains. Qed.
Global Hint Resolve pl_load_cscamera : plain.
Lemma pl_load_dyn (c : cfg) : plain true (load_dyn c). Proof. unfold load_dyn. repeat (apply plain_bind; [apply plain_rd; exact I|intros]). apply plain_bind; [apply plain_lift; [reflexivity | apply stream_colors_ends; lia]|intros]. plains. Qed.
Global Hint Resolve pl_load_dyn : plain.
Lemma pl_load_light (c : cfg) : plain true (load_light c). Proof. unfold load_light. plains. Qed.
Global Hint Resolve pl_load_light : plain.
Lemma pl_load_animate u  (c : cfg) : plain u (load_animate c). Proof. unfold load_animate. plains. Qed.
Global Hint Resolve pl_load_animate : plain.
Lemma pl_load_item u  (c : cfg) : plain u (load_item c). Proof. unfold load_item. plains. Qed.
Global Hint Resolve pl_load_item : plain.
Lemma pl_load_lensflare u  (c : cfg) : plain u (load_lensflare c). Proof. unfold load_lensflare. plains. Qed.
Global Hint Resolve pl_load_lensflare : plain.
Lemma pl_load_pfxctl u  (c : cfg) : plain u (load_pfxctl c). Proof. unfold load_pfxctl. plains. Qed.
Global Hint Resolve pl_load_pfxctl : plain.
Lemma pl_load_msgfilter u  (c : cfg) : plain u (load_msgfilter c). Proof. unfold load_msgfilter. plains. Qed.
Global Hint Resolve pl_load_msgfilter : plain.
Lemma pl_load_codemaster u  (c : cfg) : plain u (load_codemaster c). Proof. unfold load_codemaster. plains. Qed.
Global Hint Resolve pl_load_codemaster : plain.
Lemma pl_load_movctl u  (c : cfg) : plain u (load_movctl c). Proof. unfold load_movctl. plains. Qed.
Global Hint Resolve pl_load_movctl : plain.
Lemma pl_load_touchdmg u  (c : cfg) : plain u (load_touchdmg c). Proof. unfold load_touchdmg. plains. Qed.
Global Hint Resolve pl_load_touchdmg : plain.
Lemma pl_load_quake u  (c : cfg) : plain u (load_quake c). Proof. unfold load_quake. plains. Qed.
Global Hint Resolve pl_load_quake : plain.
Lemma pl_load_screenfx u  (c : cfg) : plain u (load_screenfx c). Proof. unfold load_screenfx. assert (plain u (p_rd (KRaw (fx_count c * 4)))) by (apply plain_rd; unfold kind_fit, fx_count; destruct (g2 c); reflexivity). repeat first [exact H | pstep]. Qed.
Global Hint Resolve pl_load_screenfx : plain.
Lemma pl_load_talent u  (c : cfg) : plain u (load_talent c). Proof. unfold load_talent. plains. Qed.
Global Hint Resolve pl_load_talent : plain.
Lemma pl_p_news u : plain u (p_news ). Proof. unfold p_news. plains. Qed.
Global Hint Resolve pl_p_news : plain.
Lemma pl_p_slot u : plain u (p_slot ). Proof. unfold p_slot. plains. Qed.
Global Hint Resolve pl_p_slot : plain.
Lemma pl_p_item  : plain true (p_item ). Proof. unfold p_item. plains. Qed.
Global Hint Resolve pl_p_item : plain.
Lemma pl_p_count32 u : plain u (p_count32 ). Proof. unfold p_count32. plains. Qed.
Global Hint Resolve pl_p_count32 : plain.
Lemma pl_p_packed u  (c : cfg) : plain u (p_packed c). Proof. unfold p_packed. plains. Qed.
Global Hint Resolve pl_p_packed : plain.
Lemma pl_p_vars u  (c : cfg) : plain u (p_vars c). Proof. unfold p_vars. apply plain_bind; [apply plain_raw; [unfold var_count; destruct (g2 c); reflexivity | fsteps]|intros]. plains. Qed.
Global Hint Resolve pl_p_vars : plain.
Lemma pl_load_npc (c : cfg) : plain true (load_npc c). Proof. unfold load_npc. assert (H4 : plain true (p_rd (KRaw 4))) by (apply plain_rd; reflexivity). repeat first [exact H4 | pstep]. Qed.
Global Hint Resolve pl_load_npc : plain.
Lemma pl_load_message u  (c : cfg) : plain u (load_message c). Proof. unfold load_message. plains. Qed.
Global Hint Resolve pl_load_message : plain.
Lemma pl_load_atomic u  (c : cfg) : plain u (load_atomic c). Proof. unfold load_atomic. plains. Qed.
Global Hint Resolve pl_load_atomic : plain.
Lemma pl_p_sub  : plain true (p_sub ). Proof. unfold p_sub. plains. Qed.
Global Hint Resolve pl_p_sub : plain.
Lemma pl_p_one u : plain u (p_one ). Proof. unfold p_one. plains. Qed.
Global Hint Resolve pl_p_one : plain.
Lemma pl_load_cblock (c : cfg) : plain true (load_cblock c). Proof. unfold load_cblock. plains. Qed.
Global Hint Resolve pl_load_cblock : plain.
Lemma pl_p_blk u : plain u (p_blk ). Proof. unfold p_blk. plains. Qed.
Global Hint Resolve pl_p_blk : plain.
Lemma pl_load_cslib (c : cfg) : plain true (load_cslib c). Proof. unfold load_cslib. apply plain_bind; [|intros; apply plain_ret]. apply plain_bind; [auto with plain nocore|]. intros n. apply plain_bind; [plains|]. intros l. apply plain_lift; [reflexivity|]. unfold sorted_lib. destruct (named l); [discriminate|]. destruct l as [|[a|] [|b l]]; discriminate. Qed.
Global Hint Resolve pl_load_cslib : plain.
Lemma pl_load_csprops u  (c : cfg) : plain u (load_csprops c). Proof. unfold load_csprops. plains. Qed.
Global Hint Resolve pl_load_csprops : plain.
Lemma pl_load_cscontext (c : cfg) : plain true (load_cscontext c). Proof. unfold load_cscontext. plains. Qed.
Global Hint Resolve pl_load_cscontext : plain.
Lemma pl_load_savemeta u  (c : cfg) : plain u (load_savemeta c). Proof. unfold load_savemeta. plains. Qed.
Global Hint Resolve pl_load_savemeta : plain.
Lemma pl_load_poolitem u  (c : cfg) : plain u (load_poolitem c). Proof. unfold load_poolitem. plains. Qed.
Global Hint Resolve pl_load_poolitem : plain.
Lemma pl_load_csmanager u  (c : cfg) : plain u (load_csmanager c). Proof. unfold load_csmanager. plains. Qed.
Global Hint Resolve pl_load_csmanager : plain.
Lemma pl_load_csplayer u  (c : cfg) : plain u (load_csplayer c). Proof. unfold load_csplayer. plains. Qed.
Global Hint Resolve pl_load_csplayer : plain.
Lemma pl_load_sky u  (c : cfg) : plain u (load_sky c). Proof. unfold load_sky. plains. Qed.
Global Hint Resolve pl_load_sky : plain.
Lemma pl_p_enum8 u : plain u (p_enum8 ). Proof. unfold p_enum8. plains. Qed.
Global Hint Resolve pl_p_enum8 : plain.
Lemma pl_load_material u  (c : cfg) : plain u (load_material c). Proof. unfold load_material. plains. Qed.
Global Hint Resolve pl_load_material : plain.
Lemma pl_load_waypoint u  (c : cfg) : plain u (load_waypoint c). Proof. unfold load_waypoint. plains. Qed.
Global Hint Resolve pl_load_waypoint : plain.
Lemma pl_p_point  : plain true (p_point ). Proof. unfold p_point. plains. Qed.
Global Hint Resolve pl_p_point : plain.
Lemma pl_p_edge u : plain u (p_edge ). Proof. unfold p_edge. plains. Qed.
Global Hint Resolve pl_p_edge : plain.
Lemma pl_load_waynet (c : cfg) : plain true (load_waynet c). Proof. unfold load_waynet. plains. Qed.
Global Hint Resolve pl_load_waynet : plain.

Lemma classes_plain c t p : refusing is_world c t = Some p -> plain true p.
Proof.
  unfold refusing. destruct (is_world t) eqn:W; [intros [= <-]; constructor|].
  destruct t; cbn [object_load]; try discriminate; intros [= <-]; try (exfalso; discriminate W); unfold p_map; plains.
Qed.
Lemma safe_classes_plain c t p : refusing trusting c t = Some p -> plain false p.
Proof.
  unfold refusing. destruct (trusting t) eqn:W; [intros [= <-]; constructor|].
  destruct t; cbn [object_load]; try discriminate; intros [= <-]; try (exfalso; discriminate W); unfold p_map; plains.
Qed.

(** ** Headers *)
Lemma fw_stoi s : forward (lift (stoi s)).
Proof.
  unfold stoi. destruct (scan_int s) as [[z r]|]; [destruct ((_ <=? z)%Z && _)%bool|]; cbn [lift];
    first [apply fw_ret | apply fw_throw].
Qed.
Global Hint Resolve fw_stoi : forward.
Lemma fw_head : forward head_load.
Proof. unfold head_load. cbv zeta. fsteps. Qed.
Lemma fw_objects last : forward last -> forward (objects_header last).
Proof. intros H. unfold objects_header. fsteps. Qed.
Section Headers.
Variable D : bytes.
Hypothesis HD : len D < 2 ^ 62.
Lemma table_ends : forall f n size, (N.to_nat n < f)%nat -> fwd D true 0 any (bs_table f n size).
Proof using HD.
  induction f as [|f IH]; intros n size Hn; [lia|]. cbn [bs_table]. destruct (N.eqb_spec n 0) as [E|E].
  { apply fwd_ret; [exact HD | exact I]. }
  eapply fwd_bind; [exact HD|apply fwd_ushort, HD|]. intros kl Hkl. cbv beta in Hkl.
  eapply fwd_ignore; [exact HD|apply fwd_ushort, HD|]. intros ii.
  eapply fwd_ignore; [exact HD|apply fwd_uint, HD|]. intros _.
  apply fwd_seq; [exact HD|apply fwd_string; [exact HD | pows; lia]|]. intros _.
  apply fwd_if; [exact HD|apply IH; lia|]. apply fwd_undef. exact HD.
Qed.
Lemma bs_header_ends : fwd D true 0 any bs_header.
Proof using HD.
  unfold bs_header. eapply fwd_ignore; [exact HD|apply fwd_uint, HD|]. intros _.
  eapply fwd_ignore; [exact HD|apply fwd_uint, HD|]. intros _.
  eapply fwd_bind; [exact HD|apply fwd_uint, HD|]. intros off Hoff. cbv beta in Hoff.
  apply (fwd_bind D HD true 0 (fun m => m <= len D)).
  { intros q Hq. cbn. split; [lia|]. exists q. split; [reflexivity | exact Hq]. }
  intros mark Hm. cbv beta in Hm.
  apply fwd_seq; [exact HD| |].
  { intros q Hq. unfold rd_seek, seek_internal. cbn [rdata rpos obind]. split with (A := any tt); [exact I|] || idtac.
    rewrite uint_of_N by (clear -Hoff; pows; lia). destruct (N.ltb_spec (len D) off); (split; [exact I|]); eexists; (split; [reflexivity|]); lia. }
  intros _. eapply fwd_ignore; [exact HD|apply fwd_uint, HD|]. intros size.
  apply fwd_seq; [exact HD|apply table_ends; lia|]. intros _. apply fwd_back; [exact HD|lia|]. clear -Hm HD. pows. lia.
Qed.
Lemma opens :
  match ar_open (mkR D 0) with
  | Ret (h, r) => exists p, r = mkR D p /\ p <= len D
  | Throw _ => True
  | Undef => True
  | Fuel => False
  end.
Proof using HD.
  assert (G : fwd D true 0 any ar_open).
  { unfold ar_open. apply fwd_seq; [exact HD|apply fwd_of; [exact HD | apply fw_head]|]. intros h.
    apply fwd_seq; [exact HD| |intros _; apply fwd_ret; [exact HD | exact I]].
    destruct (ah_format h); [| |].
    - apply fwd_of; [exact HD|]. apply fw_objects, fw_line_ignore.
    - apply bs_header_ends.
    - apply fwd_of; [exact HD|]. apply fw_objects, fw_line. }
  specialize (G 0). destruct (ar_open (mkR D 0)) as [[h r]| | |]; [|exact I|exact I|apply G; lia].
  destruct G as (_ & q & -> & Hq); [lia|]. exists q. split; [reflexivity | lia].
Qed.
(** Where the format is known, so is whether opening was defined. *)
Lemma open_safe : (forall h r, head_load (mkR D 0) = Ret (h, r) -> ah_format h <> ABinsafe) -> ar_open (mkR D 0) <> Undef.
Proof using HD.
  intros H. assert (HM : len D < max_size) by (pows; lia).
  assert (Hs : r_ok (mkR D 0)) by (split; cbn [rdata rpos]; [lia | exact HM]).
  unfold ar_open, bind at 1. pose proof (fw_head _ Hs) as F. destruct (head_load (mkR D 0)) as [[h r]| | |]; try discriminate; [|contradiction].
  destruct F as (_ & Hr & _). specialize (H h r eq_refl). unfold bind, ret.
  destruct (ah_format h); [|congruence|].
  - pose proof (fw_objects _ (fw_line_ignore [x0a]) r Hr) as G. destruct (objects_header _ r) as [[a s]| | |]; try discriminate. contradiction.
  - pose proof (fw_objects _ (fw_line true) r Hr) as G. destruct (objects_header _ r) as [[a s]| | |]; try discriminate. contradiction.
Qed.
End Headers.

(** ** Whole archives *)
Lemma loading_ends c n D h r : len D < 2 ^ 62 -> (length D < n)%nat -> ar_open (mkR D 0) = Ret (h, r) -> ah_format h <> AAscii ->
  load_archive (refusing is_world c) (c_flags (library c)) n D <> Fuel.
Proof.
  intros HD Hn Eo Hf. unfold load_archive. pose proof (opens D HD) as O. rewrite Eo in O |- *. destruct O as (p & -> & Hp).
  pose proof (reads_object D HD (ah_format h) Hf true (fun _ => eq_refl) (refusing is_world c) (c_flags (library c)) (classes_plain c) n p [] [] [] Hp) as R.
  unfold st in R. cbn [c_ob library] in *. destruct (read_obj _ _ _ n _) as [[a g]| | |]; try discriminate.
  exfalso. apply R. unfold len in *. lia.
Qed.
Lemma loading_safe c n D h r : len D < 2 ^ 62 -> (length D < n)%nat -> ar_open (mkR D 0) = Ret (h, r) -> ah_format h = ABinary ->
  answers (load_archive (refusing trusting c) (c_flags (library c)) n D).
Proof.
  intros HD Hn Eo Hf. unfold load_archive. pose proof (opens D HD) as O. rewrite Eo in O |- *. destruct O as (p & -> & Hp).
  rewrite Hf.
  pose proof (reads_object D HD ABinary ltac:(discriminate) false ltac:(discriminate) (refusing trusting c) (c_flags (library c)) (safe_classes_plain c) n p [] [] [] Hp) as R.
  unfold st in R. cbn [c_ob library] in *. destruct (read_obj _ _ _ n _) as [[a g]|e| |].
  - left. eauto.
  - right. eauto.
  - exfalso. assert (X : false = true) by (apply R; unfold len in *; lia). discriminate X.
  - exfalso. apply R. unfold len in *. lia.
Qed.

Lemma loading_safe_bs c n D h r : len D < 2 ^ 62 -> (length D < n)%nat -> ar_open (mkR D 0) = Ret (h, r) -> ah_format h = ABinsafe ->
  long_number D = false -> answers (load_archive (refusing trusting c) (c_flags (library c)) n D).
Proof.
  intros HD Hn Eo Hf HL. unfold load_archive. pose proof (opens D HD) as O. rewrite Eo in O |- *. destruct O as (p & -> & Hp).
  rewrite Hf.
  pose proof (reads_object D HD ABinsafe ltac:(discriminate) false (fun H => eq_trans (eq_sym HL) H) (refusing trusting c) (c_flags (library c)) (safe_classes_plain c) n p [] [] [] Hp) as R.
  unfold st in R. cbn [c_ob library] in *. destruct (read_obj _ _ _ n _) as [[a g]|e| |].
  - left. eauto.
  - right. eauto.
  - exfalso. assert (X : false = true) by (apply R; unfold len in *; lia). discriminate X.
  - exfalso. apply R. unfold len in *. lia.
Qed.
