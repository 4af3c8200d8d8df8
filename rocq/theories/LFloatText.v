(** Floats printed with enough digits are read back unchanged. *)

From Coq Require Import String Lia.
From Verif Require Import MBase MStream MBoxes MText MClasses MArchive MVob MVobs MMaterial SStream SArchive SFloat LBase LStream LText.
Local Open Scope N_scope.

(** ** Division to the nearest *)
Lemma div_rne_near p q n : (- Z.of_N q < 2 * (Z.of_N p - Z.of_N n * Z.of_N q) < Z.of_N q)%Z -> div_rne p q = n.
Proof.
  intros H. assert (Hq : q <> 0) by lia. unfold div_rne.
  pose proof (N.div_mod p q Hq) as E. pose proof (N.mod_lt p q Hq) as R.
  set (d := p / q) in *. set (r := p mod q) in *. clearbody d r. subst p.
  assert (C : d = n \/ d + 1 = n /\ q < 2 * r).
  { rewrite N2Z.inj_add, N2Z.inj_mul in H.
    assert (Z.of_N n - 1 <= Z.of_N d <= Z.of_N n)%Z by nia.
    assert (D : (Z.of_N d = Z.of_N n \/ Z.of_N d = Z.of_N n - 1)%Z) by lia.
    destruct D as [D|D]; [left; lia|right]. rewrite D in H. split; [lia|].
    assert (Z.of_N q < 2 * Z.of_N r)%Z by lia. lia. }
  destruct C as [-> | [C1 C2]].
  - assert (2 * r < q) by (rewrite N2Z.inj_add, N2Z.inj_mul in H; lia).
    destruct (N.ltb_spec (2 * r) q); lia.
  - destruct (N.ltb_spec (2 * r) q); [lia|]. destruct (N.ltb_spec q (2 * r)); lia.
Qed.
Lemma div_rne_err p q : q <> 0 ->
  (- Z.of_N q <= 2 * (Z.of_N p - Z.of_N (div_rne p q) * Z.of_N q) <= Z.of_N q)%Z.
Proof.
  intros Hq. unfold div_rne.
  pose proof (N.div_mod p q Hq) as E. pose proof (N.mod_lt p q Hq) as R.
  set (d := p / q) in *. set (r := p mod q) in *. clearbody d r. subst p.
  rewrite N2Z.inj_add, N2Z.inj_mul.
  destruct (N.ltb_spec (2 * r) q); [|destruct (N.ltb_spec q (2 * r)); [|destruct (N.even d)]];
    rewrite ?N2Z.inj_add; change (Z.of_N 1) with 1%Z; lia.
Qed.

(** ** Powers with exponents of any sign *)
Local Open Scope Z_scope.
(** [b ^ e <= p / q], as the code decides it. *)
Definition gep (b : N) (p q : N) (e : Z) : bool :=
  if 0 <=? e then (q * b ^ Z.to_N e <=? p)%N else (q <=? p * b ^ Z.to_N (- e))%N.
Lemma of_pow b e : 0 <= e -> Z.of_N (b ^ Z.to_N e)%N = Z.of_N b ^ e.
Proof. intros H. rewrite N2Z.inj_pow, Z2N.id by exact H. reflexivity. Qed.
Lemma gep_spec b p q e K : (0 < b)%N -> 0 <= K -> - K <= e ->
  gep b p q e = true <-> Z.of_N q * Z.of_N b ^ (e + K) <= Z.of_N p * Z.of_N b ^ K.
Proof.
  intros Hb HK He. unfold gep.
  assert (PK : 0 < Z.of_N b ^ K) by (apply Z.pow_pos_nonneg; lia).
  destruct (Z.leb_spec 0 e) as [H0|H0]; rewrite N.leb_le, N2Z.inj_le, N2Z.inj_mul.
  - rewrite of_pow by exact H0. rewrite Z.pow_add_r by lia. split; nia.
  - rewrite of_pow by lia.
    assert (PE : 0 < Z.of_N b ^ (e + K)) by (apply Z.pow_pos_nonneg; lia).
    replace (Z.of_N b ^ K) with (Z.of_N b ^ (- e) * Z.of_N b ^ (e + K)); [split; nia|].
    rewrite <- Z.pow_add_r by lia. f_equal. lia.
Qed.

(** ** Reading *)
(** The magnitude [m * 2 ^ e] is stored with 24 significant bits, or fewer near zero. *)
Definition canonical (m e : Z) : Prop :=
  0 < m < 2 ^ 24 /\ -149 <= e <= 104 /\ (2 ^ 23 <= m \/ e = -149).
Lemma scaled_rne b p q e K n : (0 < b)%N -> 0 <= K -> - K <= e ->
  - (Z.of_N q * Z.of_N b ^ (e + K)) < 2 * (Z.of_N p * Z.of_N b ^ K - Z.of_N n * (Z.of_N q * Z.of_N b ^ (e + K))) < Z.of_N q * Z.of_N b ^ (e + K) ->
  div_rne (if (0 <=? e)%Z then p else p * b ^ Z.to_N (- e))%N (if (0 <=? e)%Z then q * b ^ Z.to_N e else q)%N = n.
Proof.
  intros Hb HK He H. apply div_rne_near.
  assert (PK : 0 < Z.of_N b ^ K) by (apply Z.pow_pos_nonneg; lia).
  destruct (Z.leb_spec 0 e) as [H0|H0]; rewrite N2Z.inj_mul, of_pow by lia.
  - rewrite Z.pow_add_r in H by lia. nia.
  - assert (PE : 0 < Z.of_N b ^ (e + K)) by (apply Z.pow_pos_nonneg; lia).
    assert (E : Z.of_N b ^ K = Z.of_N b ^ (- e) * Z.of_N b ^ (e + K)) by (rewrite <- Z.pow_add_r by lia; f_equal; lia).
    rewrite E in H. nia.
Qed.
Lemma log2_Z n : (n <> 0)%N -> 2 ^ Z.of_N (N.log2 n) <= Z.of_N n < 2 * 2 ^ Z.of_N (N.log2 n).
Proof.
  intros H. pose proof (N.log2_spec n ltac:(lia)) as [H1 H2].
  rewrite N.pow_succ_r' in H2. apply N2Z.inj_le in H1. apply N2Z.inj_lt in H2.
  rewrite N2Z.inj_mul in H2. rewrite !N2Z.inj_pow in *. lia.
Qed.
Lemma pow_split b x y : 0 <= x -> 0 <= y -> b ^ (x + y) = b ^ x * b ^ y.
Proof. intros. apply Z.pow_add_r; assumption. Qed.
(** The exponent of the first bit. *)
Lemma first_bit p q : (p <> 0)%N -> (q <> 0)%N -> Z.of_N q <= Z.of_N p * 2 ^ 150 ->
  let l0 := Z.of_N (N.log2 p) - Z.of_N (N.log2 q) in
  let l := if gep 2 p q l0 then l0 else l0 - 1 in
  -151 <= l /\ Z.of_N q * 2 ^ (l + 200) <= Z.of_N p * 2 ^ 200 < Z.of_N q * 2 ^ (l + 201).
Proof.
  intros Hp Hq Hb l0. destruct (log2_Z p Hp) as [P1 P2]. destruct (log2_Z q Hq) as [Q1 Q2].
  set (a := Z.of_N (N.log2 p)) in *. set (b := Z.of_N (N.log2 q)) in *.
  assert (Ha : 0 <= a) by (subst a; lia). assert (Hb0 : 0 <= b) by (subst b; lia). clearbody a b.
  assert (Hl : -150 <= l0).
  { destruct (Z_lt_le_dec l0 (-150)) as [C|C]; [|exact C]. exfalso.
    assert (2 ^ (a + 151) <= 2 ^ b) by (apply Z.pow_le_mono_r; lia).
    rewrite pow_split in H by lia. change (2 ^ 151) with (2 * 2 ^ 150) in H. nia. }
  assert (U : Z.of_N p * 2 ^ 200 < Z.of_N q * 2 ^ (l0 + 201)).
  { assert (E : 2 * 2 ^ a * 2 ^ 200 = 2 ^ b * 2 ^ (l0 + 201)).
    { rewrite <- pow_split by lia. replace (b + (l0 + 201)) with (a + 201) by (subst l0; lia).
      rewrite pow_split by lia. change (2 ^ 201) with (2 * 2 ^ 200). ring. }
    assert (0 < 2 ^ (l0 + 201)) by (apply Z.pow_pos_nonneg; lia).
    assert (0 < 2 ^ 200) by (apply Z.pow_pos_nonneg; lia). nia. }
  assert (V : Z.of_N q * 2 ^ (l0 + 199) < Z.of_N p * 2 ^ 200).
  { assert (E : 2 ^ a * 2 ^ 200 = 2 * 2 ^ b * 2 ^ (l0 + 199)).
    { rewrite <- pow_split by lia. replace (a + 200) with (1 + (b + (l0 + 199))) by (subst l0; lia).
      rewrite (pow_split 2 1), (pow_split 2 b) by lia. ring. }
    assert (0 < 2 ^ (l0 + 199)) by (apply Z.pow_pos_nonneg; lia).
    assert (0 < 2 ^ 200) by (apply Z.pow_pos_nonneg; lia). nia. }
  destruct (gep 2 p q l0) eqn:G; cbv zeta.
  - apply (gep_spec 2 p q l0 200) in G; [|lia..]. split; [lia|]. split; [exact G | exact U].
  - assert (G' : ~ (Z.of_N q * 2 ^ (l0 + 200) <= Z.of_N p * 2 ^ 200)).
    { intros C. apply (gep_spec 2 p q l0 200) in C; [|lia..]. congruence. }
    split; [lia|]. replace (l0 - 1 + 200) with (l0 + 199) by lia. replace (l0 - 1 + 201) with (l0 + 200) by lia. lia.
Qed.
Lemma bit_unique q B k l : 0 < q -> -200 <= k -> -200 <= l ->
  q * 2 ^ (l + 200) <= B < q * 2 ^ (l + 201) -> q * 2 ^ (k + 200) <= B < q * 2 ^ (k + 201) -> l = k.
Proof.
  intros Hq Hk Hl [A1 A2] [B1 B2].
  destruct (Z.lt_trichotomy l k) as [C|[C|C]]; [exfalso|exact C|exfalso].
  - assert (2 ^ (l + 201) <= 2 ^ (k + 200)) by (apply Z.pow_le_mono_r; lia). nia.
  - assert (2 ^ (k + 201) <= 2 ^ (l + 200)) by (apply Z.pow_le_mono_r; lia). nia.
Qed.
(** A fraction within half the last place of the number is read as it. *)
Lemma round_q_near p q m e : canonical m e -> (0 < q)%N ->
  2 * Z.abs (Z.of_N p * 2 ^ 200 - m * (Z.of_N q * 2 ^ (e + 200))) < Z.of_N q * 2 ^ (e + 200) ->
  (m = 2 ^ 23 -> 4 * Z.abs (Z.of_N p * 2 ^ 200 - m * (Z.of_N q * 2 ^ (e + 200))) < Z.of_N q * 2 ^ (e + 200)) ->
  fst (round_q p q) = Z.to_N ((e + 149) * 2 ^ 23 + m).
Proof.
  intros (Hm & He & Hc) Hq H H4.
  assert (HT : 0 < 2 ^ (e + 200)) by (apply Z.pow_pos_nonneg; lia).
  assert (HA : 0 < Z.of_N q * 2 ^ (e + 200)) by nia.
  assert (HB : 2 * m * (Z.of_N q * 2 ^ (e + 200)) - Z.of_N q * 2 ^ (e + 200) < 2 * (Z.of_N p * 2 ^ 200)
    < 2 * m * (Z.of_N q * 2 ^ (e + 200)) + Z.of_N q * 2 ^ (e + 200)) by lia.
  assert (HB4 : m = 2 ^ 23 -> 4 * m * (Z.of_N q * 2 ^ (e + 200)) - Z.of_N q * 2 ^ (e + 200) < 4 * (Z.of_N p * 2 ^ 200)
    < 4 * m * (Z.of_N q * 2 ^ (e + 200)) + Z.of_N q * 2 ^ (e + 200)) by (intros M; specialize (H4 M); lia).
  clear H H4.
  assert (HP : 0 < Z.of_N p * 2 ^ 200) by nia.
  assert (Hp : (p <> 0)%N) by (intros ->; cbn in HP; lia).
  assert (Hb : Z.of_N q <= Z.of_N p * 2 ^ 150).
  { assert (L : 2 ^ 51 <= 2 ^ (e + 200)) by (apply Z.pow_le_mono_r; lia).
    change (2 ^ 200) with (2 ^ 50 * 2 ^ 150) in HB. change (2 ^ 51) with (2 * 2 ^ 50) in L.
    assert (Z.of_N q * (2 * 2 ^ 50) <= Z.of_N q * 2 ^ (e + 200)) by nia.
    assert (Z.of_N q * 2 ^ (e + 200) < 2 * (Z.of_N p * (2 ^ 50 * 2 ^ 150))) by nia.
    set (t := 2 ^ 50) in *. assert (0 < t) by (subst t; lia). nia. }
  pose proof (first_bit p q Hp ltac:(lia) Hb) as FB. cbv zeta in FB.
  unfold round_q. destruct (N.eqb_spec p 0) as [|_]; [contradiction|].
  set (l0 := Z.of_N (N.log2 p) - Z.of_N (N.log2 q)) in *.
  change (fst _) with
    (let l := (if gep 2 p q l0 then l0 else l0 - 1)%Z in
     let e' := Z.max (l - 23)%Z (-149)%Z in
     Z.to_N (e' + 149)%Z * 2 ^ 23 +
      div_rne (if (0 <=? e')%Z then p else p * 2 ^ Z.to_N (- e')%Z) (if (0 <=? e')%Z then q * 2 ^ Z.to_N e' else q))%N.
  set (l := if gep 2 p q l0 then l0 else l0 - 1) in *. clearbody l. clear l0. destruct FB as [FL FB].
  cbv zeta.
  assert (P24 : 2 ^ (e + 23 + 201) = 2 ^ 24 * 2 ^ (e + 200)) by (replace (e + 23 + 201) with (24 + (e + 200)) by lia; apply pow_split; lia).
  assert (P23 : 2 ^ (e + 23 + 200) = 2 ^ 23 * 2 ^ (e + 200)) by (replace (e + 23 + 200) with (23 + (e + 200)) by lia; apply pow_split; lia).
  destruct (Z_lt_le_dec (Z.of_N p * 2 ^ 200) (Z.of_N q * (2 ^ 23 * 2 ^ (e + 200)))) as [C|C].
  - destruct (Z.eq_dec e (-149)) as [E|E].
    + (* near zero *)
      assert (L : l - 23 <= -149).
      { destruct (Z_lt_le_dec (-149) (l - 23)) as [D|D]; [|exact D]. exfalso.
        assert (2 ^ (e + 23 + 200) <= 2 ^ (l + 200)) by (apply Z.pow_le_mono_r; lia). nia. }
      replace (Z.max (l - 23) (-149)) with e by lia.
      rewrite (scaled_rne 2 p q e 200 (Z.to_N m)); [lia|lia..|].
      change (Z.of_N 2) with 2. rewrite Z2N.id by lia. nia.
    + destruct Hc as [Hc|Hc]; [|contradiction].
      assert (M : m = 2 ^ 23) by nia. specialize (HB4 M).
      assert (P22 : 2 ^ (e + 200) = 2 * 2 ^ (e - 1 + 200)).
      { replace (e + 200) with (1 + (e - 1 + 200)) by lia. rewrite pow_split by lia. reflexivity. }
      assert (L : l = e + 22).
      { apply (bit_unique (Z.of_N q) (Z.of_N p * 2 ^ 200)); [lia..|exact FB|].
        replace (e + 22 + 201) with (e + 23 + 200) by lia. rewrite P23.
        assert (E2 : 2 * 2 ^ (e + 22 + 200) = 2 ^ 23 * 2 ^ (e + 200)).
        { rewrite <- P23. replace (e + 23 + 200) with (1 + (e + 22 + 200)) by lia. rewrite (pow_split 2 1) by lia. reflexivity. }
        split; [|exact C]. subst m. nia. }
      replace (Z.max (l - 23) (-149)) with (e - 1) by lia.
      rewrite (scaled_rne 2 p q (e - 1) 200 (2 ^ 24)); [lia|lia..|].
      change (Z.of_N 2) with 2. change (Z.of_N (2 ^ 24)) with (2 * 2 ^ 23). rewrite P22 in *. subst m. nia.
  - assert (L : l = e + 23).
    { apply (bit_unique (Z.of_N q) (Z.of_N p * 2 ^ 200)); [lia..|exact FB|].
      rewrite P23, P24. split; [exact C|]. nia. }
    replace (Z.max (l - 23) (-149)) with e by lia.
    rewrite (scaled_rne 2 p q e 200 (Z.to_N m)); [lia|lia..|].
    change (Z.of_N 2) with 2. rewrite Z2N.id by lia. nia.
Qed.

(** ** Printing *)
Lemma log10_spec fuel : forall e p q, gep 10 p q e = true -> gep 10 p q (e + Z.of_nat fuel + 1) = false ->
  let X := log10_from fuel e p q in
  gep 10 p q X = true /\ gep 10 p q (X + 1) = false /\ e <= X <= e + Z.of_nat fuel.
Proof.
  induction fuel as [|fuel IH]; intros e p q H1 H2; cbn [log10_from]; cbv zeta.
  - replace (e + Z.of_nat 0 + 1) with (e + 1) in H2 by lia. repeat split; [assumption..| lia | lia].
  - change (if 0 <=? e + 1 then (q * 10 ^ Z.to_N (e + 1) <=? p)%N else (q <=? p * 10 ^ Z.to_N (- (e + 1)))%N)
      with (gep 10 p q (e + 1)).
    destruct (gep 10 p q (e + 1)) eqn:G.
    + destruct (IH (e + 1) p q G) as (A & B & C).
      { replace (e + 1 + Z.of_nat fuel + 1) with (e + Z.of_nat (S fuel) + 1) by lia. exact H2. }
      repeat split; [assumption..| lia | lia].
    + repeat split; [assumption..| lia | lia].
Qed.
Lemma gep_false b p q e K : (0 < b)%N -> 0 <= K -> - K <= e ->
  gep b p q e = false <-> Z.of_N p * Z.of_N b ^ K < Z.of_N q * Z.of_N b ^ (e + K).
Proof.
  intros Hb HK He. pose proof (gep_spec b p q e K Hb HK He) as G.
  destruct (gep b p q e); split; intros H; try discriminate; try reflexivity.
  - exfalso. assert (true = true) as T by reflexivity. apply G in T. lia.
  - destruct (Z_lt_le_dec (Z.of_N p * Z.of_N b ^ K) (Z.of_N q * Z.of_N b ^ (e + K))) as [C|C]; [exact C|].
    apply G in C. discriminate.
Qed.
Lemma scaled_err p q s : (q <> 0)%N -> s <= 60 ->
  let n := (if (0 <=? s)%Z then div_rne (p * 10 ^ Z.to_N s) q else div_rne p (q * 10 ^ Z.to_N (- s)%Z))%N in
  - (Z.of_N q * 10 ^ (60 - s)) <= 2 * (Z.of_N p * 10 ^ 60 - Z.of_N n * (Z.of_N q * 10 ^ (60 - s))) <= Z.of_N q * 10 ^ (60 - s).
Proof.
  intros Hq Hs. cbv zeta. destruct (Z.leb_spec 0 s) as [H0|H0].
  - pose proof (div_rne_err (p * 10 ^ Z.to_N s)%N q Hq) as E.
    rewrite N2Z.inj_mul, of_pow in E by lia. change (Z.of_N 10) with 10 in E.
    assert (W : 0 < 10 ^ (60 - s)) by (apply Z.pow_pos_nonneg; lia).
    replace (10 ^ 60) with (10 ^ s * 10 ^ (60 - s)); [nia|].
    rewrite <- pow_split by lia. f_equal. lia.
  - assert (PW : (0 < 10 ^ Z.to_N (- s)%Z)%N) by (apply N.neq_0_lt_0, N.pow_nonzero; lia).
    pose proof (div_rne_err p (q * 10 ^ Z.to_N (- s)%Z)%N ltac:(nia)) as E.
    rewrite N2Z.inj_mul, of_pow in E by lia. change (Z.of_N 10) with 10 in E.
    assert (W : 0 < 10 ^ 60) by (apply Z.pow_pos_nonneg; lia).
    replace (10 ^ (60 - s)) with (10 ^ (- s) * 10 ^ 60); [|rewrite <- pow_split by lia; f_equal; lia].
    set (w := 10 ^ 60) in *. nia.
Qed.
(** The fraction a magnitude is. *)
Definition mag_p (m : N) (e : Z) : N := (if (0 <=? e)%Z then m * 2 ^ Z.to_N e else m)%N.
Definition mag_q (e : Z) : N := (if (0 <=? e)%Z then 1 else 2 ^ Z.to_N (- e)%Z)%N.
Lemma mag_q_pos e : (0 < mag_q e)%N.
Proof. unfold mag_q. destruct (0 <=? e)%Z; [lia|]. apply N.neq_0_lt_0, N.pow_nonzero. lia. Qed.
Lemma mag_value m e : -200 <= e -> Z.of_N (mag_p m e) * 2 ^ 200 = Z.of_N m * (Z.of_N (mag_q e) * 2 ^ (e + 200)).
Proof.
  intros He. unfold mag_p, mag_q. destruct (Z.leb_spec 0 e) as [H|H].
  - rewrite N2Z.inj_mul, of_pow by exact H. rewrite pow_split by lia. change (Z.of_N 1) with 1. change (Z.of_N 2) with 2. ring.
  - rewrite of_pow by lia. change (Z.of_N 2) with 2.
    rewrite <- pow_split by lia. do 2 f_equal. lia.
Qed.
(** Nine significant digits. *)
Lemma g_digits_ok m e : canonical (Z.of_N m) e -> exists n X, g_digits 9 m e = (n, X) /\
  (10 ^ 8 <= n < 10 ^ 9)%N /\ -46 <= X <= 46 /\
  2 * 10 ^ 8 * Z.abs (Z.of_N (mag_p m e) * 10 ^ 60 - Z.of_N n * (Z.of_N (mag_q e) * 10 ^ (X + 52))) <= Z.of_N (mag_p m e) * 10 ^ 60.
Proof.
  intros (Hm & He & _). pose proof (mag_value m e ltac:(lia)) as V. pose proof (mag_q_pos e) as Hq.
  unfold g_digits. fold (mag_p m e) (mag_q e). set (p := mag_p m e) in *. set (q := mag_q e) in *. clearbody p q.
  assert (L : gep 10 p q (-46) = true).
  { apply (gep_spec 10 p q (-46) 60); [lia..|]. change (Z.of_N 10) with 10. change (-46 + 60) with 14.
    assert (T : 2 ^ 51 <= 2 ^ (e + 200)) by (apply Z.pow_le_mono_r; lia).
    assert (Z.of_N q * 2 ^ 51 <= Z.of_N p * 2 ^ 200) by (rewrite V; assert (Z.of_N q * 2 ^ 51 <= Z.of_N q * 2 ^ (e + 200)) by (apply Z.mul_le_mono_nonneg_l; lia);
      set (y := Z.of_N q * 2 ^ (e + 200)) in *; assert (0 <= y) by lia; nia).
    assert (Z.of_N q <= Z.of_N p * 2 ^ 149) by (change (2 ^ 200) with (2 ^ 149 * 2 ^ 51) in H; nia).
    assert (2 ^ 149 * 10 ^ 14 <= 10 ^ 60) by (vm_compute; discriminate). nia. }
  assert (U : gep 10 p q (-46 + Z.of_nat 90 + 1) = false).
  { apply (gep_false 10 p q _ 60); [lia..|]. change (Z.of_N 10) with 10. change (-46 + Z.of_nat 90 + 1 + 60) with 105.
    assert (T : 2 ^ (e + 200) <= 2 ^ 304) by (apply Z.pow_le_mono_r; lia).
    assert (Z.of_N p * 2 ^ 200 < Z.of_N q * 2 ^ 24 * 2 ^ 304).
    { rewrite V. assert (0 < 2 ^ (e + 200)) by (apply Z.pow_pos_nonneg; lia).
      assert (Y0 : 0 < Z.of_N q * 2 ^ (e + 200)) by (apply Z.mul_pos_pos; lia).
      assert (Y1 : Z.of_N q * 2 ^ (e + 200) <= Z.of_N q * 2 ^ 304) by (apply Z.mul_le_mono_nonneg_l; lia).
      replace (Z.of_N q * 2 ^ 24 * 2 ^ 304) with (2 ^ 24 * (Z.of_N q * 2 ^ 304)) by ring.
      apply Z.lt_le_trans with (2 ^ 24 * (Z.of_N q * 2 ^ (e + 200))); [apply Z.mul_lt_mono_pos_r; lia | apply Z.mul_le_mono_nonneg_l; [vm_compute; discriminate | exact Y1]]. }
    assert (Z.of_N p < Z.of_N q * 2 ^ 128) by (change (2 ^ 304) with (2 ^ 104 * 2 ^ 200) in H; change (2 ^ 128) with (2 ^ 24 * 2 ^ 104); nia).
    assert (2 ^ 128 * 10 ^ 60 <= 10 ^ 105) by (vm_compute; discriminate). nia. }
  destruct (log10_spec 90 (-46) p q L U) as (A & B & C). set (X := log10_from 90 (-46) p q) in *. clearbody X. clear L U V.
  apply (gep_spec 10 p q X 60) in A; [|lia..]. apply (gep_false 10 p q _ 60) in B; [|lia..].
  change (Z.of_N 10) with 10 in *.
  replace (X + 60) with (8 + (X + 52)) in A by lia. replace (X + 1 + 60) with (9 + (X + 52)) in B by lia.
  rewrite pow_split in A, B by lia.
  change (Z.of_N 9 - 1 - X)%Z with (8 - X).
  pose proof (scaled_err p q (8 - X) ltac:(lia) ltac:(lia)) as E. cbv zeta in E.
  replace (60 - (8 - X)) with (X + 52) in E by lia.
  set (n := if 0 <=? 8 - X then _ else _) in *. clearbody n.
  assert (W : 0 < 10 ^ (X + 52)) by (apply Z.pow_pos_nonneg; lia).
  set (D := Z.of_N p * 10 ^ 60) in *. clearbody D.
  set (w := Z.of_N q * 10 ^ (X + 52)) in *. assert (Hw : 0 < w) by nia.
  assert (A' : 10 ^ 8 * w <= D) by (subst w; lia). assert (B' : D < 10 ^ 9 * w) by (subst w; lia). clear A B.
  assert (N1 : 10 ^ 8 <= Z.of_N n <= 10 ^ 9) by nia.
  destruct (N.eqb_spec n (10 ^ 9)) as [Hn|Hn].
  - exists (10 ^ 8)%N, (X + 1). split; [reflexivity|]. split; [split; reflexivity || (vm_compute; discriminate)|]. split; [lia|].
    replace (X + 1 + 52) with (1 + (X + 52)) by lia. rewrite (pow_split 10 1) by lia.
    replace (Z.of_N (10 ^ 8) * (Z.of_N q * (10 ^ 1 * 10 ^ (X + 52)))) with (Z.of_N n * w) by (subst n w; change (Z.of_N (10 ^ 9)) with (Z.of_N (10 ^ 8) * 10 ^ 1); ring).
    nia.
  - exists n, X. split; [reflexivity|]. split; [lia|]. split; [lia|]. nia.
Qed.

(** ** Digits *)
Lemma digits_fold s : forall a, fold_left (fun a c => 10 * a + digit_val c)%N s a = (a * 10 ^ len s + digits_val s)%N.
Proof.
  unfold digits_val. induction s as [|c s IH]; intros a; cbn [fold_left].
  - rewrite len_nil, N.pow_0_r. lia.
  - rewrite (IH (10 * a + digit_val c)%N), (IH (10 * 0 + digit_val c)%N), len_cons, N.pow_add_r. change (10 ^ 1)%N with 10%N. lia.
Qed.
Lemma digits_val_app a b : digits_val (a ++ b) = (digits_val a * 10 ^ len b + digits_val b)%N.
Proof. unfold digits_val at 1. rewrite fold_left_app, digits_fold. reflexivity. Qed.
Lemma digits_val_zeros k : digits_val (repeat x30 k) = 0%N.
Proof.
  induction k as [|k IH]; [reflexivity|]. cbn [repeat]. change (x30 :: repeat x30 k) with ([x30] ++ repeat x30 k).
  rewrite digits_val_app, IH. change (digits_val [x30]) with 0%N. lia.
Qed.
Lemma digit_val_lt c : is_digit c = true -> (digit_val c < 10)%N.
Proof.
  unfold is_digit, digit_val. intros H. apply andb_prop in H as [H1 H2]. apply N.leb_le in H1, H2. lia.
Qed.
Lemma digits_val_lt s : forallb is_digit s = true -> (digits_val s < 10 ^ len s)%N.
Proof.
  induction s as [|c s IH]; intros H; [reflexivity|]. cbn [forallb] in H. apply andb_prop in H as [Hc Hs].
  change (c :: s) with ([c] ++ s). rewrite digits_val_app, len_app. specialize (IH Hs). apply digit_val_lt in Hc.
  rewrite N.pow_add_r. change (digits_val [c]) with (10 * 0 + digit_val c)%N. change (10 ^ len [c])%N with 10%N. nia.
Qed.
Lemma len_repeat {A} (x : A) k : len (repeat x k) = N.of_nat k.
Proof. unfold len. rewrite repeat_length. reflexivity. Qed.
Lemma all_zeros s : forallb (beq x30) s = true -> s = repeat x30 (List.length s).
Proof.
  induction s as [|c s IH]; intros H; [reflexivity|]. cbn [forallb] in H. apply andb_prop in H as [Hc Hs].
  cbn [List.length repeat]. f_equal; [|exact (IH Hs)].
  apply beq_spec in Hc. congruence.
Qed.
Lemma rev_repeat {A} (x : A) k : rev (repeat x k) = repeat x k.
Proof.
  induction k as [|k IH]; [reflexivity|]. cbn [repeat rev]. rewrite IH. clear.
  induction k as [|k IH]; [reflexivity|]. cbn. f_equal. exact IH.
Qed.
Lemma strip_zeros_ok s : exists k, s = strip_zeros s ++ repeat x30 k.
Proof.
  unfold strip_zeros. destruct (drop_while_split (beq x30) (rev s)) as (a & E & Ha & _).
  exists (List.length a). apply (f_equal (@rev byte)) in E. rewrite rev_involutive, rev_app_distr in E.
  pose proof (all_zeros a Ha) as Z. rewrite Z, rev_repeat in E. exact E.
Qed.
Lemma dec_len9 n : (10 ^ 8 <= n < 10 ^ 9)%N -> len (dec n) = 9%N.
Proof.
  intros [H1 H2]. pose proof (dec_len n 9 H2 ltac:(lia)) as U.
  destruct (dec_ok n) as (D1 & _ & D3). pose proof (digits_val_lt _ D1) as L. rewrite D3 in L.
  destruct (N.lt_ge_cases (len (dec n)) 9) as [C|C]; [|change (N.of_nat 9) with 9%N in U; lia].
  exfalso. assert (10 ^ len (dec n) <= 10 ^ 8)%N by (apply N.pow_le_mono_r; lia). lia.
Qed.

(** ** Scanning what was printed *)
Definition ended (s : bytes) : Prop := match s with c :: _ => c = x20 | [] => True end.
(** An exponent as text and as a number. *)
Definition expo (t : bytes) (ex : Z) : Prop :=
  t = [] /\ ex = 0 \/
  exists es, forallb is_digit es = true /\ es <> [] /\
    (t = x65 :: x2d :: es /\ ex = - Z.of_N (digits_val es) \/ t = x65 :: x2b :: es /\ ex = Z.of_N (digits_val es)).
Lemma scan_expo t ex rest : expo t ex -> ended rest ->
  match t ++ rest with
  | c :: s3' =>
      if beq c x65 || beq c x45 then
        let (eneg, s3'') := scan_sign s3' in
        match take_while is_digit s3'' with
        | [] => (0, t ++ rest)
        | es => let v := Z.of_N (digits_val es) in (if eneg then - v else v, drop_while is_digit s3'')
        end
      else (0, t ++ rest)
  | [] => (0, [])
  end = (ex, rest).
Proof.
  intros H Hr. assert (Hrd : not_digit rest) by (destruct rest; [exact I | cbn in Hr; subst; reflexivity]).
  destruct H as [[-> ->] | (es & H1 & H2 & [[-> ->]|[-> ->]])].
  - destruct rest as [|c rest]; [reflexivity|]. cbn in Hr. subst c. reflexivity.
  - cbn [app]. change (beq x65 x65 || beq x65 x45) with true. cbv iota. cbn [scan_sign].
    change (beq x2d x2d) with true. cbv iota.
    rewrite (take_while_app is_digit es rest H1 Hrd), (drop_while_app is_digit es rest H1 Hrd).
    destruct es; [contradiction|]. reflexivity.
  - cbn [app]. change (beq x65 x65 || beq x65 x45) with true. cbv iota. cbn [scan_sign].
    change (beq x2b x2d) with false. change (beq x2b x2b) with true. cbv iota.
    rewrite (take_while_app is_digit es rest H1 Hrd), (drop_while_app is_digit es rest H1 Hrd).
    destruct es; [contradiction|]. reflexivity.
Qed.
Lemma scan_float_g sg ip fp t ex rest : (sg = [] \/ sg = [x2d]) -> forallb is_digit ip = true -> ip <> [] ->
  forallb is_digit fp = true -> expo t ex -> ended rest ->
  scan_float (sg ++ with_point ip fp ++ t ++ rest) =
  Some (match sg with [] => false | _ => true end,
        (if (0 <=? ex - Z.of_N (len fp))%Z then digits_val (ip ++ fp) * 10 ^ Z.to_N (ex - Z.of_N (len fp))%Z else digits_val (ip ++ fp))%N,
        (if (0 <=? ex - Z.of_N (len fp))%Z then 1 else 10 ^ Z.to_N (- (ex - Z.of_N (len fp)))%Z)%N, rest).
Proof.
  intros Hsg Hip Hne Hfp Ht Hr.
  assert (Htd : not_digit (t ++ rest)).
  { destruct Ht as [[-> _] | (es & _ & _ & [[-> _]|[-> _]])]; [|reflexivity..].
    destruct rest; [exact I | cbn in Hr; subst; reflexivity]. }
  assert (Htp : match t ++ rest with c :: _ => beq c x2e = false | [] => True end).
  { destruct Ht as [[-> _] | (es & _ & _ & [[-> _]|[-> _]])]; [|reflexivity..].
    destruct rest; [exact I | cbn in Hr; subst; reflexivity]. }
  pose proof (scan_expo t ex rest Ht Hr) as SE.
  destruct ip as [|c ip]; [contradiction|]. pose proof Hip as Hip0. cbn [forallb] in Hip. apply andb_prop in Hip as [Hc Hip].
  destruct (digit_not_sign c Hc) as (S1 & S2 & S3 & S4 & S5).
  unfold scan_float.
  assert (Hs : forall z, scan_sign (drop_while is_ws (sg ++ (c :: ip) ++ z)) =
               (match sg with [] => false | _ => true end, (c :: ip) ++ z)).
  { intros z. destruct Hsg as [->| ->]; cbn [app].
    - rewrite drop_while_head by exact S5. cbn [scan_sign]. rewrite S1, S2. reflexivity.
    - rewrite drop_while_head by reflexivity. reflexivity. }
  set (u := t ++ rest) in *. clearbody u.
  destruct fp as [|f fp].
  - unfold with_point. rewrite Hs.
    rewrite (take_while_app is_digit (c :: ip) u Hip0 Htd), (drop_while_app is_digit (c :: ip) u Hip0 Htd).
    rewrite app_nil_r.
    destruct u as [|v u].
    + injection SE as <- <-. rewrite app_nil_r. reflexivity.
    + rewrite Htp. cbv iota beta. rewrite app_nil_r. cbv iota beta.
      match goal with |- match ?M with pair _ _ => _ end = _ => replace M with (ex, rest) by (symmetry; exact SE) end. reflexivity.
  - unfold with_point. rewrite <- !app_assoc, Hs.
    rewrite (take_while_app is_digit (c :: ip)), (drop_while_app is_digit (c :: ip)); [|exact Hip0|reflexivity|exact Hip0|reflexivity].
    cbn [app]. change (beq x2e x2e) with true. cbv iota.
    change (f :: fp ++ u) with ((f :: fp) ++ u).
    rewrite (take_while_app is_digit (f :: fp) u Hfp Htd), (drop_while_app is_digit (f :: fp) u Hfp Htd).
    cbv iota beta.
    match goal with |- match ?M with pair _ _ => _ end = _ => replace M with (ex, rest) by (symmetry; exact SE) end. reflexivity.
Qed.

(** ** Nine digits are enough *)
(** The digits, without the zeros at the end, and an exponent of ten. *)
Lemma printed_value n X dv k e10 : (n = dv * 10 ^ k)%N -> e10 = X - 8 + Z.of_N k -> -46 <= X ->
  let p2 := (if (0 <=? e10)%Z then dv * 10 ^ Z.to_N e10 else dv)%N in
  let q2 := (if (0 <=? e10)%Z then 1 else 10 ^ Z.to_N (- e10)%Z)%N in
  (0 < q2)%N /\ Z.of_N p2 * 10 ^ 60 = Z.of_N q2 * (Z.of_N n * 10 ^ (X + 52)).
Proof.
  intros -> -> HX. cbv zeta. rewrite N2Z.inj_mul, N2Z.inj_pow. change (Z.of_N 10) with 10.
  destruct (Z.leb_spec 0 (X - 8 + Z.of_N k)) as [H|H].
  - split; [lia|]. rewrite N2Z.inj_mul, of_pow by exact H. change (Z.of_N 10) with 10. change (Z.of_N 1) with 1.
    rewrite Z.mul_1_l, <- !Z.mul_assoc, <- !pow_split by lia. do 2 f_equal. lia.
  - split; [apply N.neq_0_lt_0, N.pow_nonzero; lia|]. rewrite of_pow by lia. change (Z.of_N 10) with 10.
    transitivity (Z.of_N dv * (10 ^ (- (X - 8 + Z.of_N k)) * (10 ^ Z.of_N k * 10 ^ (X + 52)))); [|ring].
    rewrite <- !pow_split by lia. f_equal. f_equal. lia.
Qed.
(** What the digits [n] with the exponent [X] are printed as. *)
Definition g_body (n : N) (X : Z) : bytes :=
  let ds := dec n in
  if ((-4 <=? X) && (X <? 9))%Z then
    if (0 <=? X)%Z then with_point (take (Z.to_N X + 1) ds) (strip_zeros (drop (Z.to_N X + 1) ds))
    else with_point (lit "0") (repeat x30 (Z.to_nat (- X - 1)) ++ strip_zeros ds)
  else with_point (take 1 ds) (strip_zeros (drop 1 ds)) ++ lit "e" ++
       [if (X <? 0)%Z then x2d else x2b] ++ pad_left 2 (dec (Z.to_N (Z.abs X))).
Lemma digits_take k s : forallb is_digit s = true -> forallb is_digit (take k s) = true /\ forallb is_digit (drop k s) = true.
Proof. intros H. rewrite <- (take_drop k s), forallb_app in H. apply andb_prop in H. exact H. Qed.
Lemma digits_strip s : forallb is_digit s = true -> forallb is_digit (strip_zeros s) = true.
Proof.
  intros H. destruct (strip_zeros_ok s) as (k & E). rewrite E, forallb_app in H. apply andb_prop in H. apply H.
Qed.
Lemma digits_zeros k : forallb is_digit (repeat x30 k) = true.
Proof. induction k; [reflexivity|]. cbn. exact IHk. Qed.
Lemma scan_body sg n X rest : (sg = [] \/ sg = [x2d]) -> (10 ^ 8 <= n < 10 ^ 9)%N -> -46 <= X <= 46 -> ended rest ->
  exists p q, scan_float (sg ++ g_body n X ++ rest) = Some (match sg with [] => false | _ => true end, p, q, rest) /\
    (0 < q)%N /\ Z.of_N p * 10 ^ 60 = Z.of_N q * (Z.of_N n * 10 ^ (X + 52)).
Proof.
  intros Hsg Hn HX Hr. unfold g_body. pose proof (dec_len9 n Hn) as L. destruct (dec_ok n) as (D1 & D2 & D3).
  set (ds := dec n) in *. clearbody ds. cbv zeta.
  assert (HT : forall j, (1 <= j <= 9)%N -> take j ds <> []).
  { intros j Hj E. apply (f_equal len) in E. rewrite len_take, L, len_nil in E. lia. }
  assert (V : forall j k : N, (j <= 9)%N -> drop j ds = strip_zeros (drop j ds) ++ repeat x30 (N.to_nat k) ->
    n = (digits_val (take j ds ++ strip_zeros (drop j ds)) * 10 ^ k)%N /\ (len (strip_zeros (drop j ds)) + k = 9 - j)%N).
  { intros j k Hj E. assert (E2 : ds = (take j ds ++ strip_zeros (drop j ds)) ++ repeat x30 (N.to_nat k)).
    { rewrite <- app_assoc, <- E. symmetry. apply take_drop. }
    split.
    - rewrite <- D3. rewrite E2 at 1. rewrite digits_val_app, digits_val_zeros, len_repeat, N2Nat.id. lia.
    - apply (f_equal len) in E. rewrite len_app, len_repeat, N2Nat.id, len_drop, L in E. lia. }
  destruct ((-4 <=? X) && (X <? 9))%Z eqn:C1; [destruct (Z.leb_spec 0 X) as [C2|C2]|].
  - apply andb_prop in C1 as [A1 A2]. apply Z.leb_le in A1. apply Z.ltb_lt in A2.
    set (j := (Z.to_N X + 1)%N). assert (Hj : (1 <= j <= 9)%N) by lia.
    destruct (strip_zeros_ok (drop j ds)) as (k & E). destruct (V j (N.of_nat k)) as [V1 V2]; [lia | rewrite Nat2N.id; exact E|].
    destruct (digits_take j ds D1) as [T1 T2].
    eexists _, _. split.
    + change (?a ++ rest) with (a ++ [] ++ rest). apply scan_float_g; [exact Hsg|exact T1|exact (HT j Hj)|exact (digits_strip _ T2)|left; split; reflexivity|exact Hr].
    + apply (printed_value n X _ (N.of_nat k)); [exact V1 | lia | lia].
  - apply andb_prop in C1 as [A1 A2]. apply Z.leb_le in A1.
    destruct (strip_zeros_ok ds) as (k & E).
    destruct (V 0%N (N.of_nat k)) as [V1 V2]; [lia | rewrite drop_0, Nat2N.id; exact E|]. rewrite take_0, drop_0 in V1. rewrite drop_0 in V2. cbn [app] in V1.
    eexists _, _. split.
    + change (?a ++ rest) with (a ++ [] ++ rest). apply scan_float_g; [exact Hsg|reflexivity|discriminate| |left; split; reflexivity|exact Hr].
      rewrite forallb_app, digits_zeros. exact (digits_strip _ D1).
    + apply (printed_value n X _ (N.of_nat k)).
      * rewrite app_assoc, digits_val_app. change (lit "0") with [x30]. rewrite digits_val_app, digits_val_zeros.
        change (digits_val [x30]) with 0%N. rewrite V1 at 1. f_equal.
      * rewrite len_app, len_repeat. lia.
      * lia.
  - set (j := 1%N). assert (Hj : (1 <= j <= 9)%N) by (subst j; lia).
    destruct (strip_zeros_ok (drop j ds)) as (k & E). destruct (V j (N.of_nat k)) as [V1 V2]; [lia | rewrite Nat2N.id; exact E|].
    destruct (digits_take j ds D1) as [T1 T2].
    eexists _, _. split.
    + rewrite <- (app_assoc (with_point _ _)). apply (scan_float_g _ _ _ _ X); [exact Hsg|exact T1|exact (HT j Hj)|exact (digits_strip _ T2)| |exact Hr].
      right. exists (pad_left 2 (dec (Z.to_N (Z.abs X)))). destruct (dec_ok (Z.to_N (Z.abs X))) as (X1 & X2 & X3).
      split; [unfold pad_left; rewrite forallb_app, digits_zeros; exact X1|].
      split; [unfold pad_left; intros Y; apply app_eq_nil in Y; apply X2, Y|].
      assert (XV : digits_val (pad_left 2 (dec (Z.to_N (Z.abs X)))) = Z.to_N (Z.abs X)).
      { unfold pad_left. rewrite digits_val_app, digits_val_zeros, X3. lia. }
      rewrite XV. destruct (Z.ltb_spec X 0); [left|right]; (split; [reflexivity | lia]).
    + apply (printed_value n X _ (N.of_nat k)); [exact V1 | subst j; lia | lia].
Qed.

Lemma near_algebra P Q P2 Q2 n W m T C D : 0 < C -> 0 < D -> 0 < Q -> 0 < Q2 -> 0 < T -> 0 < m < 2 ^ 24 ->
  P * D = m * (Q * T) -> P2 * C = Q2 * (n * W) -> 2 * 10 ^ 8 * Z.abs (P * C - n * (Q * W)) <= P * C ->
  10 * Z.abs (P2 * D - m * (Q2 * T)) < Q2 * T.
Proof.
  intros HC HD HQ HQ2 HT Hm E1 E2 H.
  assert (K : 0 < Q * C) by (apply Z.mul_pos_pos; assumption).
  apply (Z.mul_lt_mono_pos_l (Q * C)); [exact K|].
  assert (A : Q * C * (10 * Z.abs (P2 * D - m * (Q2 * T))) = 10 * (Q2 * D * Z.abs (P * C - n * (Q * W)))).
  { rewrite <- (Z.abs_eq (Q * C)) at 1 by lia. rewrite <- (Z.abs_eq (Q2 * D)) by (apply Z.mul_nonneg_nonneg; lia).
    transitivity (10 * (Z.abs (Q * C) * Z.abs (P2 * D - m * (Q2 * T)))); [ring|].
    rewrite <- !Z.abs_mul. f_equal. rewrite <- Z.abs_opp. f_equal.
    transitivity (Q2 * C * (m * (Q * T)) - Q * D * (P2 * C)); [ring|].
    rewrite <- E1, E2. ring. }
  rewrite A.
  assert (B : Q2 * D * (P * C) = m * (Q * C * (Q2 * T))).
  { transitivity (Q2 * C * (P * D)); [ring|]. rewrite E1. ring. }
  set (z := Z.abs (P * C - n * (Q * W))) in *. clearbody z.
  set (y := Q * C * (Q2 * T)) in *. assert (Hy : 0 < y) by (unfold y; apply Z.mul_pos_pos; [exact K | apply Z.mul_pos_pos; assumption]).
  clearbody y. set (b := P * C) in *. clearbody b. set (w := Q2 * D) in *.
  assert (Hw : 0 < w) by (unfold w; apply Z.mul_pos_pos; assumption). clearbody w. clear - H B Hy Hw Hm.
  assert (2 * 10 ^ 8 * (w * z) <= m * y).
  { rewrite <- B. transitivity (w * (2 * 10 ^ 8 * z)); [|apply Z.mul_le_mono_nonneg_l; lia].
    apply Z.eq_le_incl. ring. }
  assert (m * y < 2 ^ 24 * y) by (apply Z.mul_lt_mono_pos_r; lia).
  set (v := w * z) in *. clearbody v. lia.
Qed.
(** ** The bits of a float *)
Lemma float_parts x : (x < 2 ^ 32)%N -> f_exp x <> 255%N ->
  let (m, e) := f_mag x in
  x = with_sign (f_sign x) (Z.to_N ((e + 149) * 2 ^ 23 + Z.of_N m)) /\
  (Z.to_N ((e + 149) * 2 ^ 23 + Z.of_N m) < f_huge)%N /\
  (m <> 0%N -> canonical (Z.of_N m) e) /\ (m = 0%N <-> (f_exp x = 0 /\ f_man x = 0)%N) /\ (m = 0%N -> e = -149).
Proof.
  intros Hx He. unfold f_mag, f_sign, with_sign, f_huge.
  pose proof (N.div_mod x (2 ^ 23) ltac:(lia)) as E. pose proof (N.mod_lt x (2 ^ 23) ltac:(lia)) as R.
  assert (Hd : (x / 2 ^ 23 < 512)%N) by (apply N.div_lt_upper_bound; [lia|exact Hx]).
  unfold f_exp, f_man in *. set (d := (x / 2 ^ 23)%N) in *. set (r := (x mod 2 ^ 23)%N) in *.
  pose proof (N.div_mod d 256 ltac:(lia)) as E2. pose proof (N.mod_lt d 256 ltac:(lia)) as R2.
  assert (Hs : (d / 256 < 2)%N) by (apply N.div_lt_upper_bound; lia).
  set (ex := (d mod 256)%N) in *. set (sg := (d / 256)%N) in *. clearbody sg ex r. clearbody d. subst d x.
  assert (S : (2 ^ 31 <=? 2 ^ 23 * (256 * sg + ex) + r)%N = (sg =? 1)%N).
  { destruct (N.eqb_spec sg 1); [subst sg; apply N.leb_le; lia | apply N.leb_gt; lia]. }
  rewrite S. destruct (N.eqb_spec ex 0) as [C|C]; cbv beta iota.
  - subst ex. split; [destruct (N.eqb_spec sg 1); lia|]. split; [lia|]. split; [|split; [tauto | reflexivity]].
    intros Hr. unfold canonical. lia.
  - split; [destruct (N.eqb_spec sg 1); lia|]. split; [lia|]. split; [|split; [split; lia | lia]].
    intros Hr. unfold canonical. lia.
Qed.
(** A float printed with nine significant digits is read back. *)
Lemma show_g9_read x rest : (x < 2 ^ 32)%N -> f_exp x <> 255%N -> ended rest ->
  stream_float (show_g 9 x ++ rest) = (x, Some rest).
Proof.
  intros Hx He Hr. pose proof (float_parts x Hx He) as F. unfold show_g, stream_float.
  destruct (N.eqb_spec (f_exp x) 255) as [|_]; [contradiction|].
  set (sgn := if f_sign x then [x2d] else []).
  assert (Hsg : sgn = [] \/ sgn = [x2d]) by (subst sgn; destruct (f_sign x); auto).
  assert (Hsv : match sgn with [] => false | _ => true end = f_sign x) by (subst sgn; destruct (f_sign x); reflexivity).
  clearbody sgn. destruct (f_mag x) as [m e]. destruct F as (F1 & F2 & F3 & F4 & F5).
  destruct (N.eq_dec m 0) as [M|M].
  - destruct (proj1 F4 M) as [Z1 Z2]. rewrite Z1, Z2. cbn [N.eqb andb].
    rewrite <- app_assoc. change (lit "0" ++ rest) with (with_point [x30] [] ++ [] ++ rest).
    rewrite (scan_float_g _ [x30] [] [] 0 rest); [|exact Hsg|reflexivity|discriminate|reflexivity|left; split; reflexivity|exact Hr].
    change (round_q _ _) with (0%N, false). cbv beta iota. rewrite Hsv. rewrite (F5 M), M in F1.
    change (f_huge <=? 0)%N with false. cbv iota. rewrite F1 at 2. reflexivity.
  - assert (NZ : (f_exp x =? 0)%N && (f_man x =? 0)%N = false).
    { apply andb_false_iff. destruct (N.eqb_spec (f_exp x) 0); [right|left; reflexivity].
      apply N.eqb_neq. intros C. apply M, F4. split; assumption. }
    rewrite NZ. specialize (F3 M). destruct (g_digits_ok m e F3) as (n & X & G & Hn & HX & Err). rewrite G.
    destruct (scan_body sgn n X rest Hsg Hn HX Hr) as (p & q & S & Hq & V).
    match goal with |- match scan_float ?a with _ => _ end = _ => change a with ((sgn ++ g_body n X) ++ rest) end.
    rewrite <- app_assoc, S, Hsv.
    pose proof (mag_value m e ltac:(destruct F3; lia)) as MV.
    assert (R : fst (round_q p q) = Z.to_N ((e + 149) * 2 ^ 23 + Z.of_N m)).
    { enough (N10 : 10 * Z.abs (Z.of_N p * 2 ^ 200 - Z.of_N m * (Z.of_N q * 2 ^ (e + 200))) < Z.of_N q * 2 ^ (e + 200))
        by (apply round_q_near; [exact F3 | exact Hq | lia | lia]).
      apply (near_algebra (Z.of_N (mag_p m e)) (Z.of_N (mag_q e)) (Z.of_N p) (Z.of_N q) (Z.of_N n) (10 ^ (X + 52)) (Z.of_N m)
               (2 ^ (e + 200)) (10 ^ 60) (2 ^ 200)).
      - reflexivity.
      - reflexivity.
      - pose proof (mag_q_pos e). lia.
      - lia.
      - apply Z.pow_pos_nonneg; [lia|]. destruct F3. lia.
      - destruct F3. assumption.
      - exact MV.
      - exact V.
      - exact Err. }
    destruct (round_q p q) as [bits tiny]. cbn [fst] in R. subst bits.
    destruct (N.leb_spec f_huge (Z.to_N ((e + 149) * 2 ^ 23 + Z.of_N m))) as [C|C]; [lia|].
    rewrite <- F1. reflexivity.
Qed.
Lemma show_vec2_read v : (v2x v < 2 ^ 32)%N -> (v2y v < 2 ^ 32)%N -> f_exp (v2x v) <> 255%N -> f_exp (v2y v) <> 255%N ->
  text_vec2 (show_vec2 v) = v.
Proof.
  intros Hx Hy Fx Fy. unfold text_vec2, show_vec2. cbn [app].
  rewrite show_g9_read; [|assumption..|reflexivity].
  rewrite stream_float_ws. rewrite <- (app_nil_r (show_g 9 (v2y v))), show_g9_read; [|assumption..|exact I].
  destruct v; reflexivity.
Qed.
(** An infinity or a number that is not one is not. *)
Lemma show_g_infinite x rest : f_exp x = 255%N -> stream_float (show_g 9 x ++ rest) = (0%N, None).
Proof.
  intros E. unfold show_g. rewrite E. cbn [N.eqb Pos.eqb].
  destruct (f_sign x), (f_man x =? 0)%N; reflexivity.
Qed.
Lemma show_vec2_lost v : (v2x v < 2 ^ 32)%N -> f_exp (v2x v) = 255%N \/ f_exp (v2y v) = 255%N -> text_vec2 (show_vec2 v) <> v.
Proof.
  intros L H E. assert (Z0 : f_exp 0 <> 255%N) by (vm_compute; discriminate).
  unfold text_vec2, show_vec2 in E. destruct v as [x y]. cbn [v2x v2y app] in *.
  destruct (N.eq_dec (f_exp x) 255) as [Fx|Fx].
  - rewrite show_g_infinite in E by exact Fx. injection E as E _. subst x. contradiction.
  - destruct H as [H|H]; [contradiction|].
    rewrite show_g9_read in E; [|assumption..|reflexivity].
    rewrite stream_float_ws, <- (app_nil_r (show_g 9 y)), show_g_infinite in E by exact H.
    injection E as E. subst y. contradiction.
Qed.

(** ** Six decimals *)
(** A float of at least 16, or a multiple of 1/64, printed with six decimals is read back. *)
Lemma pad6 n : (n < 1000000)%N -> len (pad_left 6 (dec n)) = 6%N /\ digits_val (pad_left 6 (dec n)) = n.
Proof.
  intros H. unfold pad_left. rewrite digits_val_app, digits_val_zeros, len_app, len_repeat.
  destruct (dec_ok n) as (_ & _ & D3). rewrite D3. pose proof (dec_len n 6 H ltac:(lia)) as L. unfold len in *. lia.
Qed.
Lemma show_f_read x : (x < 2 ^ 32)%N -> f_exp x <> 255%N ->
  (131 <= f_exp x)%N \/ (exists j, Z.of_N (fst (f_mag x)) * 2 ^ (snd (f_mag x) + 200) = j * 2 ^ 194) ->
  stof (show_f x) = Ret x.
Proof.
  intros Hx He C. pose proof (float_parts x Hx He) as F. unfold show_f, stof.
  destruct (N.eqb_spec (f_exp x) 255) as [|_]; [contradiction|].
  set (sgn := if f_sign x then [x2d] else []).
  assert (Hsg : sgn = [] \/ sgn = [x2d]) by (subst sgn; destruct (f_sign x); auto).
  assert (Hsv : match sgn with [] => false | _ => true end = f_sign x) by (subst sgn; destruct (f_sign x); reflexivity).
  clearbody sgn.
  assert (Ce : (131 <= f_exp x)%N -> -19 <= snd (f_mag x)).
  { intros H. unfold f_mag. destruct (N.eqb_spec (f_exp x) 0); cbn [snd]; lia. }
  destruct (f_mag x) as [m e]. cbn [fst snd] in *. destruct F as (F1 & F2 & F3 & F4 & F5).
  set (n := if 0 <=? e then _ else _).
  rewrite <- (app_nil_r (pad_left 6 _)).
  rewrite scan_float_plain; [|exact Hsg|apply dec_digits|apply dec_ok| |exact I].
  2:{ unfold pad_left. rewrite forallb_app, digits_zeros. apply dec_digits. }
  destruct (pad6 (n mod 1000000)%N ltac:(apply N.mod_lt; lia)) as [P1 P2].
  rewrite digits_val_app, P1, P2. destruct (dec_ok (n / 1000000)%N) as (_ & _ & D3). rewrite D3.
  replace (n / 1000000 * 10 ^ 6 + n mod 1000000)%N with n.
  2:{ pose proof (N.div_mod n 1000000 ltac:(lia)). change (10 ^ 6)%N with 1000000%N. lia. }
  rewrite Hsv. destruct (N.eq_dec m 0) as [M|M].
  - assert (N0 : n = 0%N).
    { subst n. rewrite M, (F5 M). reflexivity. }
    rewrite N0. change (round_q 0 _) with (0%N, false). cbv beta iota. change (f_huge <=? 0)%N with false. cbn [orb].
    rewrite (F5 M), M in F1. rewrite F1 at 2. reflexivity.
  - specialize (F3 M). pose proof F3 as F3'. destruct F3' as (K1 & K2 & K3).
    assert (T0 : 0 < 2 ^ (e + 200)) by (apply Z.pow_pos_nonneg; lia).
    (* the printed number *)
    assert (Err : Z.abs (Z.of_N n * 2 ^ 200 - Z.of_N m * (10 ^ 6 * 2 ^ (e + 200))) = 0 \/
                  -19 <= e /\ 2 * Z.abs (Z.of_N n * 2 ^ 200 - Z.of_N m * (10 ^ 6 * 2 ^ (e + 200))) <= 2 ^ 200).
    { subst n. destruct (Z.leb_spec 0 e) as [H0|H0].
      - left. rewrite !N2Z.inj_mul, of_pow by exact H0. change (Z.of_N 2) with 2. change (Z.of_N 1000000) with (10 ^ 6).
        rewrite pow_split by lia. match goal with |- Z.abs ?a = 0 => replace a with 0 by ring end. reflexivity.
      - assert (PE : 2 ^ 200 = 2 ^ (- e) * 2 ^ (e + 200)) by (rewrite <- pow_split by lia; f_equal; lia).
        assert (PP : 0 < 2 ^ (- e)) by (apply Z.pow_pos_nonneg; lia).
        assert (PN : Z.of_N (2 ^ Z.to_N (- e)) = 2 ^ (- e)) by (rewrite of_pow by lia; reflexivity).
        assert (PM : Z.of_N (m * 1000000) = Z.of_N m * 10 ^ 6) by (rewrite N2Z.inj_mul; reflexivity).
        destruct C as [C|[j C]].
        + right. split; [exact (Ce C)|].
          pose proof (div_rne_err (m * 1000000)%N (2 ^ Z.to_N (- e))%N ltac:(apply N.pow_nonzero; lia)) as E.
          rewrite PN, PM in E. set (r := Z.of_N (div_rne _ _)) in *. clearbody r.
          rewrite PE. replace (r * (2 ^ (- e) * 2 ^ (e + 200)) - Z.of_N m * (10 ^ 6 * 2 ^ (e + 200)))
            with ((r * 2 ^ (- e) - Z.of_N m * 10 ^ 6) * 2 ^ (e + 200)) by ring.
          rewrite Z.abs_mul, (Z.abs_eq (2 ^ (e + 200))) by lia.
          rewrite Z.mul_assoc. apply Z.mul_le_mono_nonneg_r; lia.
        + left. change (2 ^ 194) with (2 ^ 194) in C.
          assert (X1 : Z.of_N m * 10 ^ 6 = j * 15625 * 2 ^ (- e)).
          { apply (Z.mul_cancel_r _ _ (2 ^ (e + 200))); [lia|].
            transitivity (10 ^ 6 * (j * 2 ^ 194)); [rewrite <- C; ring|].
            transitivity (j * 15625 * 2 ^ 200); [change (2 ^ 200) with (64 * 2 ^ 194); change (10 ^ 6) with (15625 * 64); ring|].
            rewrite PE. ring. }
          assert (Hj : 0 <= j) by nia.
          assert (D : div_rne (m * 1000000) (2 ^ Z.to_N (- e)) = Z.to_N (j * 15625)).
          { apply div_rne_near. rewrite PN, PM, X1, Z2N.id by lia. lia. }
          rewrite D, Z2N.id by lia. rewrite PE.
          match goal with |- Z.abs ?a = 0 => replace a with ((j * 15625 * 2 ^ (- e) - Z.of_N m * 10 ^ 6) * 2 ^ (e + 200)) by ring end.
          rewrite X1. rewrite Z.sub_diag. reflexivity. }
    clearbody n.
    assert (En : -149 < e).
    { destruct C as [C|[j C]]; [specialize (Ce C); lia|].
      destruct (Z.eq_dec e (-149)) as [E|E]; [|lia]. exfalso. subst e. change (-149 + 200) with 51 in C.
      assert (C' : Z.of_N m = j * 2 ^ 143) by (change (2 ^ 194) with (2 ^ 143 * 2 ^ 51) in C; nia).
      assert (0 < j) by nia. assert (2 ^ 143 <= j * 2 ^ 143) by nia. assert (2 ^ 24 < 2 ^ 143) by (vm_compute; reflexivity). lia. }
    assert (R : fst (round_q n (10 ^ 6)) = Z.to_N ((e + 149) * 2 ^ 23 + Z.of_N m)).
    { change 1000000%N with (10 ^ 6)%N in *. apply round_q_near; [exact F3|reflexivity| |]; change (Z.of_N (10 ^ 6)) with (10 ^ 6).
      - destruct Err as [Err|[Er1 Er2]]; [nia|]. apply (Z.le_lt_trans _ _ _ Er2).
        assert (2 ^ 181 <= 2 ^ (e + 200)) by (apply Z.pow_le_mono_r; lia).
        assert (2 ^ 200 < 10 ^ 6 * 2 ^ 181) by (vm_compute; reflexivity). lia.
      - intros E23. destruct Err as [Err|[Er1 Er2]]; [nia|].
        destruct (Z.eq_dec e (-19)) as [E|E].
        + rewrite E, E23 in *. change (-19 + 200) with 181 in *.
          assert (A : Z.of_N n * 2 ^ 200 - 2 ^ 23 * (10 ^ 6 * 2 ^ 181) = (Z.of_N n - 16000000) * 2 ^ 200)
            by (change (2 ^ 200) with (2 ^ 19 * 2 ^ 181); change (2 ^ 23) with (16 * 2 ^ 19); change (10 ^ 6) with 1000000; ring).
          rewrite A, Z.abs_mul in *. rewrite (Z.abs_eq (2 ^ 200)) in * by (vm_compute; discriminate).
          assert (B : Z.abs (Z.of_N n - 16000000) = 0) by nia. rewrite B. vm_compute. reflexivity.
        + assert (2 ^ 182 <= 2 ^ (e + 200)) by (apply Z.pow_le_mono_r; lia).
          assert (2 * 2 ^ 200 < 10 ^ 6 * 2 ^ 182) by (vm_compute; reflexivity). lia. }
    assert (Tiny : snd (round_q n (10 ^ 6)) = true -> (fst (round_q n (10 ^ 6)) < 2 ^ 23)%N).
    { unfold round_q. destruct (n =? 0)%N; [discriminate|]. cbv zeta. cbn [fst snd]. intros T.
      apply andb_prop in T as [T _]. apply N.ltb_lt in T. exact T. }
    destruct (round_q n (10 ^ 6)) as [bits tiny]. cbn [fst snd] in *. subst bits.
    destruct (N.leb_spec f_huge (Z.to_N ((e + 149) * 2 ^ 23 + Z.of_N m))) as [D|D]; [lia|].
    destruct tiny; [specialize (Tiny eq_refl); lia|]. cbn [orb]. rewrite <- F1. reflexivity.
Qed.

(** ** As stated *)
Lemma finite_spec x : finite x = true <-> (x < 2 ^ 32)%N /\ f_exp x <> 255%N.
Proof.
  unfold finite. rewrite andb_true_iff, negb_true_iff, N.ltb_lt, N.eqb_neq. reflexivity.
Qed.
Lemma finite_vec2_read v : finite_vec2 v = true -> text_vec2 (show_vec2 v) = v.
Proof.
  unfold finite_vec2. rewrite andb_true_iff, !finite_spec. intros [[A B] [C D]]. apply show_vec2_read; assumption.
Qed.
Lemma vec2_read_iff v : (v2x v < 2 ^ 32)%N -> (v2y v < 2 ^ 32)%N -> text_vec2 (show_vec2 v) = v <-> finite_vec2 v = true.
Proof.
  intros Hx Hy. split; [|apply finite_vec2_read].
  intros E. unfold finite_vec2. rewrite andb_true_iff, !finite_spec.
  destruct (N.eq_dec (f_exp (v2x v)) 255) as [C|C]; [exfalso; exact (show_vec2_lost v Hx (or_introl C) E)|].
  destruct (N.eq_dec (f_exp (v2y v)) 255) as [D|D]; [exfalso; exact (show_vec2_lost v Hx (or_intror D) E)|].
  repeat split; assumption.
Qed.
Lemma six_decimals x : finite x = true -> at_least_16 x \/ sixty_fourths x -> stof (show_f x) = Ret x.
Proof.
  rewrite finite_spec. intros [H1 H2] C. apply show_f_read; [assumption..|].
  pose proof (float_parts x H1 H2) as F.
  unfold at_least_16, sixty_fourths in C.
  assert (Ce : snd (f_mag x) = if (f_exp x =? 0)%N then -149 else Z.of_N (f_exp x) - 150).
  { unfold f_mag. destruct (f_exp x =? 0)%N; reflexivity. }
  destruct (f_mag x) as [m e]. cbn [fst snd] in *. destruct C as [C|[j C]].
  - left. destruct F as (_ & _ & F3 & _).
    assert (M : m <> 0%N) by (intros ->; rewrite Z.mul_0_l in C; assert (0 < 16 * 2 ^ 200) by (vm_compute; reflexivity); lia).
    destruct (F3 M) as (K1 & K2 & _).
    assert (E : -19 <= e).
    { destruct (Z_lt_le_dec e (-19)) as [L|L]; [|exact L]. exfalso.
      assert (P : 2 ^ (e + 200) <= 2 ^ 180) by (apply Z.pow_le_mono_r; lia).
      assert (0 < 2 ^ (e + 200)) by (apply Z.pow_pos_nonneg; lia).
      assert (Z.of_N m * 2 ^ (e + 200) < 2 ^ 24 * 2 ^ 180) by nia.
      assert (2 ^ 24 * 2 ^ 180 <= 16 * 2 ^ 200) by (vm_compute; discriminate). lia. }
    destruct (N.eqb_spec (f_exp x) 0); lia.
  - right. exists j. exact C.
Qed.
