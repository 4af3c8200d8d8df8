From Coq Require Import List ZArith NArith Lia Bool.
From Verif Require Import MBase MStream MText MArchive MModel MMesh MMrm MCompare SCompare.
Local Open Scope Z_scope.

Definition mag (e m : Z) : Z := if e =? 0 then m else (m + 2 ^ 23) * 2 ^ (e - 1).
Lemma mag_lt e m e' m' : 0 <= e -> e < e' -> 0 <= m < 2 ^ 23 -> 0 <= m' < 2 ^ 23 -> mag e m < mag e' m'.
Proof.
  intros He H Hm Hm'. unfold mag. destruct (Z.eqb_spec e' 0) as [|_]; [lia|].
  assert (P : 0 < 2 ^ (e' - 1)) by (apply Z.pow_pos_nonneg; lia).
  destruct (Z.eqb_spec e 0) as [->|Ne].
  - apply Z.lt_le_trans with (2 ^ 23 * 2 ^ (e' - 1)); [|apply Z.mul_le_mono_nonneg_r; lia].
    apply Z.lt_le_trans with (2 ^ 23 * 1); [lia | apply Z.mul_le_mono_nonneg_l; lia].
  - assert (Q : 0 < 2 ^ (e - 1)) by (apply Z.pow_pos_nonneg; lia).
    apply Z.lt_le_trans with (2 ^ 23 * 2 ^ (e' - 1)); [|apply Z.mul_le_mono_nonneg_r; lia].
    replace (e' - 1) with ((e - 1) + (e' - e)) by lia. rewrite Z.pow_add_r by lia.
    assert (R : 2 ^ 1 <= 2 ^ (e' - e)) by (apply Z.pow_le_mono_r; lia). change (2 ^ 1) with 2 in R.
    replace (2 ^ 23 * (2 ^ (e - 1) * 2 ^ (e' - e))) with ((2 ^ 23 * 2 ^ (e' - e)) * 2 ^ (e - 1)) by ring.
    apply Z.mul_lt_mono_pos_r; [exact Q|]. lia.
Qed.
Lemma mag_inj e m e' m' : 0 <= e -> 0 <= e' -> 0 <= m < 2 ^ 23 -> 0 <= m' < 2 ^ 23 -> mag e m = mag e' m' -> e = e' /\ m = m'.
Proof.
  intros He He' Hm Hm' E. destruct (Z.lt_trichotomy e e') as [L|[<-|L]].
  - pose proof (mag_lt e m e' m' He L Hm Hm'). lia.
  - split; [reflexivity|]. unfold mag in E. destruct (Z.eqb_spec e 0); [exact E|].
    assert (Q : 0 < 2 ^ (e - 1)) by (apply Z.pow_pos_nonneg; lia). apply Z.mul_cancel_r in E; lia.
  - pose proof (mag_lt e' m' e m He' L Hm' Hm). lia.
Qed.
Lemma mag_nonneg e m : 0 <= e -> 0 <= m -> 0 <= mag e m.
Proof.
  intros He Hm. unfold mag. destruct (Z.eqb_spec e 0); [exact Hm|]. apply Z.mul_nonneg_nonneg; [lia | apply Z.pow_nonneg; lia].
Qed.
Lemma mag_zero e m : 0 <= e -> 0 <= m -> mag e m = 0 -> e = 0 /\ m = 0.
Proof.
  intros He Hm H. unfold mag in H. destruct (Z.eqb_spec e 0); [split; assumption|]. exfalso.
  assert (Q : 0 < 2 ^ (e - 1)) by (apply Z.pow_pos_nonneg; lia). apply Z.mul_eq_0 in H. lia.
Qed.
Lemma value_mag x : value x = (if negative x then -1 else 1) * mag (Z.of_N (exponent x)) (Z.of_N (fraction x)).
Proof.
  unfold value, mag. destruct (N.eqb_spec (exponent x) 0) as [E|E]; destruct (Z.eqb_spec (Z.of_N (exponent x)) 0); try lia; reflexivity.
Qed.
Lemma bits_inj a b : float_bits a -> float_bits b -> negative a = negative b -> exponent a = exponent b -> fraction a = fraction b -> a = b.
Proof.
  unfold float_bits, negative, exponent, fraction. intros Ha Hb S E F.
  assert (D : forall x : N, (x < 2 ^ 32)%N -> x = ((if (2 ^ 31 <=? x)%N then 2 ^ 31 else 0) + (x / 2 ^ 23) mod 256 * 2 ^ 23 + x mod 2 ^ 23)%N).
  { intros x Hx. pose proof (N.div_mod' x (2 ^ 23)) as D1. pose proof (N.div_mod' (x / 2 ^ 23) 256) as D2.
    assert (D3 : (x / 2 ^ 23 / 256 = if (2 ^ 31 <=? x)%N then 1 else 0)%N).
    { rewrite N.div_div by lia. change (2 ^ 23 * 256)%N with (2 ^ 31)%N. destruct (N.leb_spec (2 ^ 31) x).
      - symmetry. apply (N.div_unique x (2 ^ 31) 1 (x - 2 ^ 31)); lia.
      - apply N.div_small. assumption. }
    rewrite D3 in D2. destruct (2 ^ 31 <=? x)%N; lia. }
  rewrite (D a Ha), (D b Hb), S, E, F. reflexivity.
Qed.
Lemma fraction_lt x : (fraction x < 2 ^ 23)%N.
Proof. apply N.mod_lt. discriminate. Qed.

Lemma nan_spec x : f_nan x = true <-> not_a_number x.
Proof.
  unfold f_nan, not_a_number. change (f_exp x) with (exponent x). change (f_man x) with (fraction x).
  rewrite andb_true_iff, negb_true_iff, N.eqb_eq, N.eqb_neq. reflexivity.
Qed.
Lemma zero_spec x : f_zero x = true <-> (exponent x = 0 /\ fraction x = 0)%N.
Proof. unfold f_zero. change (f_exp x) with (exponent x). change (f_man x) with (fraction x). rewrite andb_true_iff, !N.eqb_eq. reflexivity. Qed.

Lemma float_eq_spec a b : float_bits a -> float_bits b -> (float_eq a b = true <-> same_number a b).
Proof.
  intros Ha Hb. unfold float_eq. rewrite !andb_true_iff, orb_true_iff, andb_true_iff, !negb_true_iff, N.eqb_eq, !zero_spec.
  assert (NF : forall x, f_nan x = false <-> ~ not_a_number x).
  { intros x. rewrite <- nan_spec. destruct (f_nan x); split; congruence. }
  rewrite !NF. unfold same_number, infinite, finite, not_a_number. split.
  - intros [[Na Nb] [<-|[[Za1 Za2] [Zb1 Zb2]]]].
    + destruct (N.eq_dec (exponent a) 255) as [E|E]; [left|right; repeat (split; [assumption || reflexivity|]); reflexivity].
      destruct (N.eq_dec (fraction a) 0) as [F|F]; [repeat split; assumption | tauto].
    + right. rewrite !value_mag, Za1, Za2, Zb1, Zb2. repeat (split; [discriminate|]).
      destruct (negative a), (negative b); reflexivity.
  - intros [(Ia & Ib & S)|(Fa & Fb & V)].
    + destruct Ia as [A1 A2], Ib as [B1 B2]. split; [tauto|]. left. apply bits_inj; congruence.
    + split; [tauto|]. rewrite !value_mag in V.
      pose proof (fraction_lt a) as La. pose proof (fraction_lt b) as Lb.
      assert (La' : 0 <= Z.of_N (fraction a) < 2 ^ 23) by lia. assert (Lb' : 0 <= Z.of_N (fraction b) < 2 ^ 23) by lia.
      pose proof (mag_nonneg (Z.of_N (exponent a)) (Z.of_N (fraction a)) ltac:(lia) ltac:(lia)) as Pa.
      pose proof (mag_nonneg (Z.of_N (exponent b)) (Z.of_N (fraction b)) ltac:(lia) ltac:(lia)) as Pb.
      destruct (bool_dec (negative a) (negative b)) as [S|S].
      * left. assert (M : mag (Z.of_N (exponent a)) (Z.of_N (fraction a)) = mag (Z.of_N (exponent b)) (Z.of_N (fraction b))).
        { rewrite S in V. destruct (negative b); lia. }
        apply mag_inj in M; try lia. apply bits_inj; [assumption|assumption|assumption|lia|lia].
      * right. assert (Ma : mag (Z.of_N (exponent a)) (Z.of_N (fraction a)) = 0 /\ mag (Z.of_N (exponent b)) (Z.of_N (fraction b)) = 0).
        { destruct (negative a), (negative b); try congruence; lia. }
        destruct Ma as [Ma Mb]. apply mag_zero in Ma; try lia. apply mag_zero in Mb; try lia.
Qed.

Lemma str_eq_spec : forall a b, str_eq a b = true <-> a = b.
Proof.
  induction a as [|x a IH]; intros [|y b]; cbn [str_eq]; try (split; congruence).
  rewrite andb_true_iff, IH. split.
  - intros [E ->]. apply Byte.byte_dec_bl in E. rewrite E. reflexivity.
  - intros E. injection E as -> ->. split; [apply Byte.byte_dec_lb; reflexivity | reflexivity].
Qed.
Lemma target_eq_spec a b : float_bits (snd a) -> float_bits (snd b) -> (target_eq a b = true <-> fst a = fst b /\ same_number (snd a) (snd b)).
Proof. intros Ha Hb. unfold target_eq. rewrite andb_true_iff, str_eq_spec, float_eq_spec by assumption. reflexivity. Qed.

Lemma color_eq_spec a b : color_eq a b = true <-> a = b.
Proof.
  destruct a, b. unfold color_eq. cbn. rewrite !andb_true_iff, !N.eqb_eq. split; [intros [[[-> ->] ->] ->]; reflexivity | intros E; injection E as -> -> -> ->; tauto].
Qed.
Lemma pflags_eq_spec a b : pflags_eq a b = true <-> a = b.
Proof.
  destruct a, b. unfold pflags_eq. cbn. rewrite !andb_true_iff, !N.eqb_eq, !eqb_true_iff, Z.eqb_eq. split.
  - intros [[[[[[[[[-> ->] ->] ->] ->] ->] ->] ->] ->] ->]. reflexivity.
  - intros E. injection E as -> -> -> -> -> -> -> -> -> ->. tauto.
Qed.

Lemma mat_eq_spec : forall a b, floats a -> floats b -> (mat_eq a b = true <-> same_numbers a b).
Proof.
  unfold floats, same_numbers. induction a as [|x a IH]; intros [|y b] Ha Hb; cbn [mat_eq].
  - split; constructor.
  - split; [discriminate | intros F; inversion F].
  - split; [discriminate | intros F; inversion F].
  - inversion Ha; subst. inversion Hb; subst. rewrite andb_true_iff, IH, float_eq_spec by assumption. split.
    + intros [A B]. constructor; assumption.
    + intros F. inversion F; subst. split; assumption.
Qed.
Lemma glyph_eq_mat a b : glyph_eq a b = (gl_width a =? gl_width b)%N && mat_eq (glyph_floats a) (glyph_floats b).
Proof. unfold glyph_eq, vec2_eq, glyph_floats. cbn [mat_eq]. destruct (gl_width a =? gl_width b)%N; cbn [andb]; [|reflexivity]. rewrite !andb_true_r, !andb_assoc. reflexivity. Qed.
Lemma asample_eq_mat a b : asample_eq a b = mat_eq (asample_floats a) (asample_floats b).
Proof. unfold asample_eq, vec3_eq, quat_eq, asample_floats. cbn [mat_eq]. rewrite !andb_true_r, !andb_assoc. reflexivity. Qed.
Lemma glyph_eq_spec a b : floats (glyph_floats a) -> floats (glyph_floats b) ->
  (glyph_eq a b = true <-> gl_width a = gl_width b /\ same_numbers (glyph_floats a) (glyph_floats b)).
Proof. intros Ha Hb. rewrite glyph_eq_mat, andb_true_iff, N.eqb_eq, mat_eq_spec by assumption. reflexivity. Qed.
Lemma asample_eq_spec a b : floats (asample_floats a) -> floats (asample_floats b) ->
  (asample_eq a b = true <-> same_numbers (asample_floats a) (asample_floats b)).
Proof. intros Ha Hb. rewrite asample_eq_mat, mat_eq_spec by assumption. reflexivity. Qed.

(** Symmetry and transitivity need no assumption. *)
Lemma float_sym a b : float_eq a b = float_eq b a.
Proof. unfold float_eq. rewrite (N.eqb_sym a b), (andb_comm (f_zero a)), (andb_comm (negb (f_nan a))). reflexivity. Qed.
Lemma float_trans a b c : float_eq a b = true -> float_eq b c = true -> float_eq a c = true.
Proof.
  unfold float_eq. rewrite !andb_true_iff, !orb_true_iff, !andb_true_iff, !N.eqb_eq.
  intros [[A B] [<-|[Z1 Z2]]] [[C D] [<-|[Z3 Z4]]]; tauto.
Qed.
Lemma mat_sym : forall a b, mat_eq a b = mat_eq b a.
Proof. induction a as [|x a IH]; intros [|y b]; cbn [mat_eq]; try reflexivity. rewrite float_sym, IH. reflexivity. Qed.
Lemma mat_trans : forall a b c, mat_eq a b = true -> mat_eq b c = true -> mat_eq a c = true.
Proof.
  induction a as [|x a IH]; intros [|y b] [|z c]; cbn [mat_eq]; try congruence. rewrite !andb_true_iff. intros [A B] [C D].
  split; [eapply float_trans; eassumption | eapply IH; eassumption].
Qed.
Lemma glyph_sym a b : glyph_eq a b = glyph_eq b a.
Proof. rewrite !glyph_eq_mat, N.eqb_sym, mat_sym. reflexivity. Qed.
Lemma glyph_trans a b c : glyph_eq a b = true -> glyph_eq b c = true -> glyph_eq a c = true.
Proof. rewrite !glyph_eq_mat, !andb_true_iff, !N.eqb_eq. intros [-> B] [-> D]. split; [reflexivity | eapply mat_trans; eassumption]. Qed.
Lemma asample_sym a b : asample_eq a b = asample_eq b a.
Proof. rewrite !asample_eq_mat. apply mat_sym. Qed.
Lemma asample_trans a b c : asample_eq a b = true -> asample_eq b c = true -> asample_eq a c = true.
Proof. rewrite !asample_eq_mat. apply mat_trans. Qed.

(** A value is equal to itself exactly if it holds numbers only. *)
Lemma mat_self : forall a, mat_eq a a = true <-> Forall (fun x => ~ not_a_number x) a.
Proof.
  induction a as [|x a IH]; cbn [mat_eq]; [split; constructor|].
  rewrite andb_true_iff, IH. assert (F : float_eq x x = true <-> ~ not_a_number x).
  { unfold float_eq. rewrite N.eqb_refl, andb_true_r, <- nan_spec. destruct (f_nan x); cbn; split; congruence. }
  rewrite F. split; [intros [A B]; constructor; assumption | intros A; inversion A; subst; split; assumption].
Qed.
Lemma glyph_self a : glyph_eq a a = true <-> Forall (fun x => ~ not_a_number x) (glyph_floats a).
Proof. rewrite glyph_eq_mat, N.eqb_refl. apply mat_self. Qed.
Lemma asample_self a : asample_eq a a = true <-> Forall (fun x => ~ not_a_number x) (asample_floats a).
Proof. rewrite asample_eq_mat. apply mat_self. Qed.
