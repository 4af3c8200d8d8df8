(** Facts about the text conversions. *)

From Coq Require Import String Lia.
From Verif Require Import MBase MStream MBoxes MText MClasses MArchive SStream SArchive LBase LStream.
Local Open Scope N_scope.

(** ** Characters *)
Lemma byte_all (P : byte -> bool) : forallb P (map n2b (map N.of_nat (seq 0 256))) = true -> forall c, P c = true.
Proof.
  intros H c. rewrite forallb_forall in H. apply H.
  rewrite <- (n2b_b2n c). apply in_map. apply in_map_iff. exists (N.to_nat (b2n c)).
  split; [apply Nnat.N2Nat.id|]. apply in_seq. pose proof (b2n_bound c). lia.
Qed.

Lemma digit_chr_ok d : d < 10 -> is_digit (digit_chr d) = true /\ digit_val (digit_chr d) = d.
Proof.
  intros H. unfold is_digit, digit_val, digit_chr. rewrite b2n_n2b, N.mod_small by lia.
  split; [|lia]. apply andb_true_intro. split; apply N.leb_le; lia.
Qed.
(** Digits, signs and dots are neither white space nor line ends. *)
Definition plain (c : byte) : bool :=
  negb (is_ws c) && negb (beq c x00) && negb (beq c x0d) && negb (beq c x0a) && negb (beq c x5d) && negb (beq c x5b) &&
  negb (beq c x3d).
Lemma digit_plain c : is_digit c = true -> plain c = true.
Proof.
  assert (H : forall c, implb (is_digit c) (plain c) = true) by (apply byte_all; vm_compute; reflexivity).
  intros Hc. specialize (H c). rewrite Hc in H. exact H.
Qed.
Lemma digit_not_sign c : is_digit c = true -> beq c x2d = false /\ beq c x2b = false /\ beq c x2e = false /\ beq c x5d = false /\ is_ws c = false.
Proof.
  assert (H : forall c, implb (is_digit c) (negb (beq c x2d) && negb (beq c x2b) && negb (beq c x2e) && negb (beq c x5d) && negb (is_ws c)) = true)
    by (apply byte_all; vm_compute; reflexivity).
  intros Hc. specialize (H c). rewrite Hc in H. cbn [implb] in H.
  repeat (apply andb_prop in H as [H ?]).
  repeat match goal with h : negb _ = true |- _ => apply negb_true_iff in h end. auto.
Qed.
Lemma ws_chars_ws c : in_chars ws_chars c = is_ws c.
Proof.
  assert (H : forall c, Bool.eqb (in_chars ws_chars c) (is_ws c) = true) by (apply byte_all; vm_compute; reflexivity).
  apply Bool.eqb_prop, H.
Qed.
Lemma ws_not_nul c : is_ws c = true -> c <> x00.
Proof. intros H ->. discriminate. Qed.

Lemma no_eolb_spec s : no_eolb s = true <-> no_eol s.
Proof.
  unfold no_eolb, no_eol. rewrite forallb_forall, Forall_forall.
  split; intros H c Hc; specialize (H c Hc).
  - apply negb_true_iff in H. apply orb_false_elim in H as [H H3]. apply orb_false_elim in H as [H1 H2].
    repeat split; apply beq_false; assumption.
  - destruct H as (H1 & H2 & H3). apply beq_false in H1, H2, H3. rewrite H1, H2, H3. reflexivity.
Qed.
Lemma no_eol_app a b : no_eol (a ++ b) <-> no_eol a /\ no_eol b.
Proof. apply Forall_app. Qed.
Lemma plain_no_eol s : forallb plain s = true -> no_eol s.
Proof.
  intros H. rewrite forallb_forall in H. apply Forall_forall. intros c Hc. specialize (H c Hc).
  unfold plain in H. repeat (apply andb_prop in H as [H ?]).
  repeat match goal with h : negb _ = true |- _ => apply negb_true_iff in h; try apply beq_false in h end. auto.
Qed.

(** ** Scanning runs *)
Lemma take_while_app p a b : forallb p a = true -> match b with c :: _ => p c = false | [] => True end ->
  take_while p (a ++ b) = a.
Proof.
  intros Ha Hb. induction a as [|c a IH]; cbn [app].
  - destruct b as [|c b]; [reflexivity|]. cbn. rewrite Hb. reflexivity.
  - cbn [forallb] in Ha. apply andb_prop in Ha as [H1 H2]. cbn. rewrite H1, IH by exact H2. reflexivity.
Qed.
Lemma drop_while_app p a b : forallb p a = true -> match b with c :: _ => p c = false | [] => True end ->
  drop_while p (a ++ b) = b.
Proof.
  intros Ha Hb. induction a as [|c a IH]; cbn [app].
  - destruct b as [|c b]; [reflexivity|]. cbn. rewrite Hb. reflexivity.
  - cbn [forallb] in Ha. apply andb_prop in Ha as [H1 H2]. cbn. rewrite H1. apply IH, H2.
Qed.
Lemma drop_while_skip p a b : forallb p a = true -> drop_while p (a ++ b) = drop_while p b.
Proof.
  induction a as [|c a IH]; intros H; [reflexivity|]. cbn [forallb] in H. apply andb_prop in H as [H1 H2].
  cbn [app drop_while]. rewrite H1. apply IH, H2.
Qed.
Lemma drop_while_split p s : exists a, s = a ++ drop_while p s /\ forallb p a = true /\
  match drop_while p s with c :: _ => p c = false | [] => True end.
Proof.
  induction s as [|c s (a & E & Ha & Hd)]; [exists []; repeat split|].
  cbn [drop_while]. destruct (p c) eqn:Ec.
  - exists (c :: a). cbn [app forallb]. rewrite Ec, Ha. split; [rewrite <- E; reflexivity|]. split; [reflexivity | exact Hd].
  - exists []. split; [reflexivity|]. split; [reflexivity | exact Ec].
Qed.
Lemma drop_while_idem p s : drop_while p (drop_while p s) = drop_while p s.
Proof.
  destruct (drop_while_split p s) as (a & _ & _ & H).
  destruct (drop_while p s) as [|c r]; [reflexivity|]. cbn. rewrite H. reflexivity.
Qed.
Lemma drop_while_head p c s : p c = false -> drop_while p (c :: s) = c :: s.
Proof. intros H. cbn. rewrite H. reflexivity. Qed.

(** ** Decimal numbers *)
Lemma dec_go_ok fuel : forall n acc, (N.to_nat (N.size n) < fuel)%nat ->
  exists ds, dec_go fuel n acc = ds ++ acc /\ forallb is_digit ds = true /\ ds <> [] /\
    (forall a, fold_left (fun a c => 10 * a + digit_val c) ds a = a * 10 ^ len ds + n).
Proof.
  induction fuel as [|fuel IH]; intros n acc Hf; [lia|].
  cbn [dec_go]. assert (Hd : n mod 10 < 10) by (apply N.mod_lt; lia).
  destruct (digit_chr_ok _ Hd) as [D1 D2].
  destruct (N.ltb_spec n 10) as [Hn|Hn].
  - exists [digit_chr (n mod 10)]. split; [reflexivity|]. split; [cbn [forallb]; rewrite D1; reflexivity|].
    split; [discriminate|]. intros a. cbn [fold_left]. rewrite D2, N.mod_small by exact Hn.
    rewrite len_cons, len_nil. change (10 ^ (1 + 0)) with 10. lia.
  - destruct (IH (n / 10) (digit_chr (n mod 10) :: acc)) as (ds & E & H1 & H2 & H3).
    { assert (N.size (n / 10) < N.size n); [|lia].
      assert (n / 10 < n) by (apply N.div_lt; lia).
      assert (0 < n / 10) by (apply N.div_str_pos; lia).
      rewrite !N.size_log2 by lia.
      assert (N.log2 (n / 10) < N.log2 n); [|lia].
      assert (Hd2 : n / 10 <= n / 2) by (apply N.div_le_compat_l; lia).
      assert (N.log2 (n / 10) <= N.log2 (n / 2)) by (apply N.log2_le_mono; exact Hd2).
      assert (N.log2 (n / 2) = N.log2 n - 1).
      { rewrite <- N.log2_shiftr, N.shiftr_div_pow2. reflexivity. }
      assert (0 < N.log2 n) by (apply N.log2_pos; lia). lia. }
    exists (ds ++ [digit_chr (n mod 10)]). split; [rewrite E, <- app_assoc; reflexivity|].
    split; [rewrite forallb_app, H1; cbn [forallb]; rewrite D1; reflexivity|].
    split; [destruct ds; discriminate|].
    intros a. rewrite fold_left_app, H3. cbn [fold_left]. rewrite D2, len_app, len_cons, len_nil.
    rewrite N.pow_add_r. change (10 ^ (1 + 0)) with 10.
    pose proof (N.div_mod n 10). lia.
Qed.
Lemma dec_ok n : forallb is_digit (dec n) = true /\ dec n <> [] /\ digits_val (dec n) = n.
Proof.
  unfold dec. destruct (dec_go_ok (S (N.to_nat (N.size n))) n [] ltac:(lia)) as (ds & E & H1 & H2 & H3).
  rewrite app_nil_r in E. rewrite E. split; [exact H1|]. split; [exact H2|].
  unfold digits_val. rewrite H3. reflexivity.
Qed.
Lemma dec_digits n : forallb is_digit (dec n) = true.  Proof. apply dec_ok. Qed.
Lemma dec_head n : exists c s, dec n = c :: s /\ is_digit c = true.
Proof.
  destruct (dec_ok n) as (H1 & H2 & _). destruct (dec n) as [|c s]; [contradiction|].
  exists c, s. split; [reflexivity|]. cbn in H1. apply andb_prop in H1. apply H1.
Qed.
Lemma forallb_impl {A} (p q : A -> bool) l : (forall x, p x = true -> q x = true) -> forallb p l = true -> forallb q l = true.
Proof. intros H. rewrite !forallb_forall. intros Hl x Hx. apply H, Hl, Hx. Qed.
Lemma dec_plain n : forallb plain (dec n) = true.
Proof. eapply forallb_impl; [apply digit_plain | apply dec_digits]. Qed.
Lemma decz_plain z : forallb plain (decz z) = true.
Proof. unfold decz. destruct (z <? 0)%Z; [|apply dec_plain]. cbn [forallb]. rewrite dec_plain. reflexivity. Qed.

Definition not_digit (s : bytes) : Prop := match s with c :: _ => is_digit c = false | [] => True end.


Lemma scan_int_dec n rest : not_digit rest -> scan_int (dec n ++ rest) = Some (Z.of_N n, rest).
Proof.
  intros Hr. destruct (dec_ok n) as (H1 & H2 & H3). unfold scan_int.
  destruct (dec_head n) as (c & s & E & Hc).
  destruct (digit_not_sign c Hc) as (S1 & S2 & S3 & S4 & S5).
  assert (Hd : drop_while is_ws (dec n ++ rest) = dec n ++ rest) by (rewrite E; cbn [app]; apply drop_while_head, S5).
  rewrite Hd.
  assert (Hs : scan_sign (dec n ++ rest) = (false, dec n ++ rest)).
  { rewrite E. cbn [app scan_sign]. rewrite S1, S2. reflexivity. }
  rewrite Hs, (take_while_app is_digit (dec n) rest H1 Hr), (drop_while_app is_digit (dec n) rest H1 Hr).
  destruct (dec n) as [|x l] eqn:Ed; [discriminate|]. rewrite H3. reflexivity.
Qed.
Lemma scan_int_neg n rest : not_digit rest -> scan_int (x2d :: dec n ++ rest) = Some ((- Z.of_N n)%Z, rest).
Proof.
  intros Hr. destruct (dec_ok n) as (H1 & H2 & H3). unfold scan_int.
  rewrite (drop_while_head is_ws x2d) by reflexivity. cbn [scan_sign]. change (beq x2d x2d) with true. cbv iota.
  rewrite (take_while_app is_digit (dec n) rest H1 Hr), (drop_while_app is_digit (dec n) rest H1 Hr).
  destruct (dec n) as [|x l] eqn:Ed; [contradiction|]. rewrite H3. reflexivity.
Qed.
Lemma scan_int_decz z rest : not_digit rest -> scan_int (decz z ++ rest) = Some (z, rest).
Proof.
  intros Hr. unfold decz. destruct (Z.ltb_spec z 0).
  - cbn [app]. rewrite scan_int_neg by exact Hr. do 2 f_equal. lia.
  - rewrite scan_int_dec by exact Hr. do 2 f_equal. lia.
Qed.
Lemma scan_int_ws s : scan_int (x20 :: s) = scan_int s.
Proof. reflexivity. Qed.

Lemma stoi_decz z : (- 2 ^ 31 <= z < 2 ^ 31)%Z -> stoi (decz z) = Ret z.
Proof.
  intros [H1 H2]. unfold stoi. rewrite <- (app_nil_r (decz z)), scan_int_decz by exact I.
  apply Z.leb_le in H1. apply Z.ltb_lt in H2. rewrite H1, H2. reflexivity.
Qed.
Lemma stoul_dec n : n < 2 ^ 64 -> stoul (dec n) = Ret n.
Proof.
  intros H. unfold stoul. rewrite <- (app_nil_r (dec n)), scan_int_dec by exact I.
  destruct (Z.ltb_spec (Z.abs (Z.of_N n)) (2 ^ 64)) as [_|Hc]; [rewrite uint_of_N by exact H; reflexivity|].
  exfalso. change (2 ^ 64)%Z with (Z.of_N (2 ^ 64)) in Hc. lia.
Qed.
Lemma stream_u16_dec n rest : n < 2 ^ 16 -> not_digit rest -> stream_u16 (dec n ++ rest) = Some (n, rest).
Proof.
  intros H Hr. unfold stream_u16. rewrite scan_int_dec by exact Hr.
  destruct (Z.ltb_spec (Z.abs (Z.of_N n)) (2 ^ 16)) as [_|Hc]; [rewrite uint_of_N by exact H; reflexivity|].
  exfalso. change (2 ^ 16)%Z with (Z.of_N (2 ^ 16)) in Hc. lia.
Qed.
Lemma stream_u16_ws s : stream_u16 (x20 :: s) = stream_u16 s.
Proof. reflexivity. Qed.
Lemma atoi_dec n : n < 2 ^ 31 -> atoi (dec n) = Ret (Z.of_N n).
Proof.
  intros H. unfold atoi. rewrite <- (app_nil_r (dec n)), scan_int_dec by exact I.
  change (2 ^ 31)%Z with (Z.of_N (2 ^ 31)).
  destruct (Z.leb_spec (- Z.of_N (2 ^ 31)) (Z.of_N n)); [|lia].
  destruct (Z.ltb_spec (Z.of_N n) (Z.of_N (2 ^ 31))); [reflexivity | lia].
Qed.
Lemma atoi_decz z : (- 2 ^ 31 <= z < 2 ^ 31)%Z -> atoi (decz z) = Ret z.
Proof.
  intros [H1 H2]. unfold atoi. rewrite <- (app_nil_r (decz z)), scan_int_decz by exact I.
  apply Z.leb_le in H1. apply Z.ltb_lt in H2. rewrite H1, H2. reflexivity.
Qed.

(** ** Floats *)
Lemma show_f_shape x : f_exp x <> 255 -> exists sg ip fp,
  show_f x = sg ++ ip ++ [x2e] ++ fp /\ (sg = [] \/ sg = [x2d]) /\
  forallb is_digit ip = true /\ ip <> [] /\ forallb is_digit fp = true.
Proof.
  intros Hx. unfold show_f. apply N.eqb_neq in Hx. rewrite Hx. destruct (f_mag x) as [m e].
  set (n := if (0 <=? e)%Z then _ else _).
  exists (if f_sign x then [x2d] else []), (dec (n / 1000000)), (pad_left 6 (dec (n mod 1000000))).
  split; [reflexivity|]. split; [destruct (f_sign x); auto|].
  split; [apply dec_digits|]. split; [apply dec_ok|].
  unfold pad_left. rewrite forallb_app, dec_digits, andb_true_r.
  clear. induction (6 - length (dec (n mod 1000000)))%nat as [|k IH]; [reflexivity|]. cbn. exact IH.
Qed.
Lemma text_ok_finite x : text_ok x = true -> f_exp x <> 255.
Proof.
  unfold text_ok. intros H E. unfold show_f in H. rewrite E in H. cbn in H.
  destruct (f_sign x), (f_man x =? 0); discriminate.
Qed.
Lemma scan_float_plain sg ip fp rest : (sg = [] \/ sg = [x2d]) -> forallb is_digit ip = true -> ip <> [] ->
  forallb is_digit fp = true -> match rest with c :: _ => c = x20 | [] => True end ->
  scan_float (sg ++ ip ++ [x2e] ++ fp ++ rest) =
  Some (match sg with [] => false | _ => true end, digits_val (ip ++ fp), 10 ^ len fp, rest).
Proof.
  intros Hsg Hip Hne Hfp Hr.
  assert (Hrd : not_digit rest) by (destruct rest; [exact I | subst; reflexivity]).
  destruct ip as [|c ip]; [contradiction|]. cbn [forallb] in Hip. apply andb_prop in Hip as [Hc Hip].
  destruct (digit_not_sign c Hc) as (S1 & S2 & S3 & S4 & S5).
  unfold scan_float.
  assert (Hs : scan_sign (drop_while is_ws (sg ++ (c :: ip) ++ [x2e] ++ fp ++ rest)) =
               (match sg with [] => false | _ => true end, (c :: ip) ++ [x2e] ++ fp ++ rest)).
  { destruct Hsg as [->| ->]; cbn [app].
    - rewrite drop_while_head by exact S5. cbn [scan_sign]. rewrite S1, S2. reflexivity.
    - rewrite drop_while_head by reflexivity. reflexivity. }
  rewrite Hs.
  rewrite (take_while_app is_digit (c :: ip) ([x2e] ++ fp ++ rest)); [|cbn [forallb]; rewrite Hc, Hip; reflexivity | reflexivity].
  rewrite (drop_while_app is_digit (c :: ip) ([x2e] ++ fp ++ rest)); [|cbn [forallb]; rewrite Hc, Hip; reflexivity | reflexivity].
  cbn [app]. change (beq x2e x2e) with true. cbv iota.
  rewrite (take_while_app is_digit fp rest Hfp Hrd), (drop_while_app is_digit fp rest Hfp Hrd).
  assert (Hq : (if (0 <=? 0 - Z.of_N (len fp))%Z then 1 else 10 ^ Z.to_N (- (0 - Z.of_N (len fp)))) = 10 ^ len fp).
  { destruct (Z.leb_spec 0 (0 - Z.of_N (len fp))) as [Hz|Hz].
    - replace (len fp) with 0 by lia. reflexivity.
    - f_equal. lia. }
  assert (Hp : (if (0 <=? 0 - Z.of_N (len fp))%Z then digits_val (c :: ip ++ fp) * 10 ^ Z.to_N (0 - Z.of_N (len fp)) else digits_val (c :: ip ++ fp)) = digits_val (c :: ip ++ fp)).
  { destruct (Z.leb_spec 0 (0 - Z.of_N (len fp))) as [Hz|Hz]; [|reflexivity].
    replace (Z.to_N (0 - Z.of_N (len fp))) with 0 by lia. change (10 ^ 0) with 1. lia. }
  destruct rest as [|r rest]; [|subst r; change (beq x20 x65 || beq x20 x45) with false]; cbv iota zeta;
    rewrite Hp, Hq; destruct Hsg as [->| ->]; reflexivity.
Qed.
Lemma stream_float_show x rest : text_ok x = true -> match rest with c :: _ => c = x20 | [] => True end ->
  stream_float (show_f x ++ rest) = (x, Some rest).
Proof.
  intros Hx Hr. pose proof (text_ok_finite x Hx) as Hf.
  destruct (show_f_shape x Hf) as (sg & ip & fp & E & H1 & H2 & H3 & H4).
  unfold text_ok, stof in Hx. unfold stream_float. rewrite E in *.
  pose proof (scan_float_plain sg ip fp [] H1 H2 H3 H4 I) as S0. rewrite app_nil_r in S0. rewrite S0 in Hx.
  pose proof (scan_float_plain sg ip fp rest H1 H2 H3 H4 Hr) as S1. rewrite <- !app_assoc, S1.
  destruct (round_q (digits_val (ip ++ fp)) (10 ^ len fp)) as [bits tiny].
  destruct (f_huge <=? bits); [discriminate|]. cbn [orb] in Hx. destruct tiny; [discriminate|].
  apply N.eqb_eq in Hx. rewrite <- Hx. reflexivity.
Qed.
Lemma stream_float_ws s : stream_float (x20 :: s) = stream_float s.
Proof. reflexivity. Qed.
Lemma show_f_plain x : forallb plain (show_f x) = true.
Proof.
  destruct (N.eq_dec (f_exp x) 255) as [E|E].
  - unfold show_f. rewrite E. cbn. destruct (f_sign x), (f_man x =? 0); reflexivity.
  - destruct (show_f_shape x E) as (sg & ip & fp & -> & H1 & H2 & H3 & H4).
    rewrite !forallb_app.
    assert (Hi : forallb plain ip = true) by (eapply forallb_impl; [apply digit_plain | exact H2]).
    assert (Hf : forallb plain fp = true) by (eapply forallb_impl; [apply digit_plain | exact H4]).
    rewrite Hi, Hf. destruct H1 as [-> | ->]; reflexivity.
Qed.
Lemma stof_show x : text_ok x = true -> stof (show_f x) = Ret x.
Proof.
  unfold text_ok. destruct (stof (show_f x)) as [y| | |]; try discriminate.
  intros E. apply N.eqb_eq in E. congruence.
Qed.
(** Floats, each followed by a space. *)
Lemma stream_floats_show l : forallb text_ok l = true ->
  stream_floats (length l) (flat_map (fun x => show_f x ++ [x20]) l) = l.
Proof.
  induction l as [|x l IH]; intros H; [reflexivity|].
  cbn [forallb] in H. apply andb_prop in H as [Hx Hl]. cbn [length flat_map stream_floats].
  rewrite <- app_assoc, stream_float_show; [|exact Hx | reflexivity].
  f_equal. cbn [app]. etransitivity; [|exact (IH Hl)]. clear.
  destruct l as [|y l]; [reflexivity|]. cbn [length stream_floats]. rewrite stream_float_ws. reflexivity.
Qed.

(** ** Hexadecimal *)
Lemma hex_val_chr d : d < 16 -> hex_val (hex_chr d) = Some d.
Proof.
  intros H.
  assert (G : forallb (fun d => match hex_val (hex_chr d) with Some n => n =? d | None => false end) (map N.of_nat (seq 0 16)) = true)
    by (vm_compute; reflexivity).
  rewrite forallb_forall in G. specialize (G d).
  assert (In d (map N.of_nat (seq 0 16))) as Hin.
  { apply in_map_iff. exists (N.to_nat d). split; [apply Nnat.N2Nat.id | apply in_seq; lia]. }
  specialize (G Hin). destruct (hex_val (hex_chr d)); [|discriminate]. apply N.eqb_eq in G. congruence.
Qed.
Lemma hex_byte_chr n : n < 256 -> hex_byte (hex_chr (n / 16)) (hex_chr (n mod 16)) = Some n.
Proof.
  intros H. unfold hex_byte.
  rewrite !hex_val_chr by (try (apply N.div_lt_upper_bound; lia); apply N.mod_lt; lia).
  f_equal. pose proof (N.div_mod n 16). lia.
Qed.
Lemma hex_chr_ne d : d < 16 -> beq (hex_chr d) x00 = false.
Proof.
  intros H. apply beq_false. intros E. pose proof (hex_val_chr d H) as G. rewrite E in G. discriminate.
Qed.
Lemma hex_write_ok b : forall stale seen, hex_ok seen b = true -> (beq stale x00 = negb seen) ->
  hex_read (hex_write stale b) = b.
Proof.
  induction b as [|c b IH]; intros stale seen Hok Hs; [reflexivity|].
  cbn [hex_ok] in Hok. cbn [hex_write]. pose proof (b2n_bound c) as Hb.
  destruct (N.ltb_spec (b2n c) 16) as [Hc|Hc].
  - apply andb_prop in Hok as [H1 H2]. apply negb_true_iff in H1. subst seen. cbn [negb] in Hs. rewrite Hs.
    cbn [app hex_read]. unfold hex_byte. change (hex_val x30) with (Some 0). rewrite hex_val_chr by exact Hc.
    rewrite (IH _ false) by (assumption || (rewrite Hs; reflexivity)).
    replace (16 * 0 + b2n c) with (b2n c) by lia. rewrite n2b_b2n. reflexivity.
  - cbn [app hex_read]. rewrite hex_byte_chr by exact Hb. rewrite n2b_b2n.
    rewrite (IH _ true) by (assumption || (apply hex_chr_ne, N.mod_lt; lia)). reflexivity.
Qed.
Lemma hex_chr_plain d : d < 16 -> plain (hex_chr d) = true.
Proof.
  intros H.
  assert (G : forallb (fun d => plain (hex_chr d)) (map N.of_nat (seq 0 16)) = true) by (vm_compute; reflexivity).
  rewrite forallb_forall in G. apply G.
  apply in_map_iff. exists (N.to_nat d). split; [apply Nnat.N2Nat.id | apply in_seq; lia].
Qed.
Lemma hex_write_plain b : forall stale, (stale = x00 \/ plain stale = true) -> forallb plain (hex_write stale b) = true.
Proof.
  induction b as [|c b IH]; intros stale Hs; [reflexivity|]. cbn [hex_write]. pose proof (b2n_bound c) as Hb.
  destruct (N.ltb_spec (b2n c) 16) as [Hc|Hc].
  - rewrite forallb_app, IH by exact Hs. rewrite andb_true_r.
    destruct (beq stale x00) eqn:E; cbn [forallb]; rewrite hex_chr_plain by exact Hc.
    + reflexivity.
    + destruct Hs as [->|Hs]; [discriminate|]. rewrite Hs. reflexivity.
  - rewrite forallb_app. cbn [forallb].
    rewrite !hex_chr_plain by (try (apply N.div_lt_upper_bound; lia); apply N.mod_lt; lia).
    cbn [andb]. apply IH. right. apply hex_chr_plain, N.mod_lt. lia.
Qed.
Lemma hex_write_len b stale : len (hex_write stale b) = 2 * len b.
Proof.
  revert stale; induction b as [|c b IH]; intros stale; [reflexivity|]. cbn [hex_write].
  destruct (b2n c <? 16); [destruct (beq stale x00)|]; rewrite len_app, IH, len_cons; unfold len; cbn [length]; lia.
Qed.

Lemma dec_go_len fuel : forall n acc k, n < 10 ^ N.of_nat k -> (1 <= k)%nat ->
  (length (dec_go fuel n acc) <= k + length acc)%nat.
Proof.
  induction fuel as [|fuel IH]; intros n acc k Hn Hk; cbn [dec_go]; [lia|].
  destruct (N.ltb_spec n 10) as [H|H]; [cbn [length]; lia|].
  destruct k as [|[|k]]; [lia | change (10 ^ N.of_nat 1) with 10 in Hn; lia|].
  specialize (IH (n / 10) (digit_chr (n mod 10) :: acc) (S k)). cbn [length] in IH.
  assert (n / 10 < 10 ^ N.of_nat (S k)).
  { apply N.div_lt_upper_bound; [lia|].
    replace (N.of_nat (S (S k))) with (1 + N.of_nat (S k)) in Hn by lia. rewrite N.pow_add_r in Hn. exact Hn. }
  specialize (IH H0 ltac:(lia)). lia.
Qed.
Lemma dec_len n k : n < 10 ^ N.of_nat k -> (1 <= k)%nat -> len (dec n) <= N.of_nat k.
Proof. intros H Hk. unfold dec, len. pose proof (dec_go_len (S (N.to_nat (N.size n))) n [] k H Hk). cbn [length] in *. lia. Qed.
Lemma decz_short z : (- 1000000000 < z < 2 ^ 31)%Z -> (len (decz z) <=? 10) = true.
Proof.
  intros [H1 H2]. apply N.leb_le. unfold decz. change (2 ^ 31)%Z with 2147483648%Z in H2.
  destruct (Z.ltb_spec z 0) as [Hz|Hz].
  - rewrite len_cons. pose proof (dec_len (Z.to_N (- z)) 9) as H. change (10 ^ N.of_nat 9) with 1000000000 in H.
    specialize (H ltac:(lia) ltac:(lia)). lia.
  - pose proof (dec_len (Z.to_N z) 10) as H. change (10 ^ N.of_nat 10) with 10000000000 in H.
    specialize (H ltac:(lia) ltac:(lia)). lia.
Qed.
Lemma decz_len z : (- 2 ^ 31 <= z < 2 ^ 31)%Z -> len (decz z) <= 11.
Proof.
  intros [H1 H2]. unfold decz. change (2 ^ 31)%Z with 2147483648%Z in *.
  destruct (Z.ltb_spec z 0) as [Hz|Hz].
  - rewrite len_cons. pose proof (dec_len (Z.to_N (- z)) 10) as H. change (10 ^ N.of_nat 10) with 10000000000 in H.
    specialize (H ltac:(lia) ltac:(lia)). lia.
  - pose proof (dec_len (Z.to_N z) 10) as H. change (10 ^ N.of_nat 10) with 10000000000 in H.
    specialize (H ltac:(lia) ltac:(lia)). lia.
Qed.
(** Words as the archive headers of objects use them. *)
Lemma word_ok_parts s : word_ok s = true ->
  0 < len s /\ len s <= 127 /\ Forall (fun c => is_ws c = false /\ beq c x5d = false /\ beq c x00 = false) s.
Proof.
  unfold word_ok. intros H. apply andb_prop in H as [H H3]. apply andb_prop in H as [H1 H2].
  apply N.ltb_lt in H1. apply N.leb_le in H2. split; [exact H1|]. split; [exact H2|].
  rewrite forallb_forall in H3. apply Forall_forall. intros c Hc. specialize (H3 c Hc).
  apply andb_prop in H3 as [H3 H5]. apply andb_prop in H3 as [H3 H4].
  apply negb_true_iff in H3, H4, H5. auto.
Qed.
Lemma word_cstr s : word_ok s = true -> take 127 (cstr s) = s.
Proof.
  intros H. apply word_ok_parts in H as (H1 & H2 & H3). unfold cstr.
  rewrite <- (app_nil_r s) at 1. rewrite take_while_app; [apply take_all; exact H2 | | exact I].
  rewrite Forall_forall in H3. apply forallb_forall. intros c Hc. destruct (H3 c Hc) as (_ & _ & ->). reflexivity.
Qed.
Lemma word_no_eol s : word_ok s = true -> no_eol s.
Proof.
  intros H. apply word_ok_parts in H as (_ & _ & H). eapply Forall_impl; [|exact H].
  intros c (H1 & _ & H2). split; [apply beq_false, H2|]. split; intros ->; discriminate.
Qed.
