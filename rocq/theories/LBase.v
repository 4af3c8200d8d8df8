(** Lemmas about the vocabulary of [MBase]. *)

From Verif Require Import MBase.
From Coq Require Export Lia ZifyBool ZifyNat ZifyN.
Local Open Scope N_scope.

Ltac Zify.zify_post_hook ::= Z.div_mod_to_equations.

Global Arguments N.add : simpl never.
Global Arguments N.sub : simpl never.
Global Arguments N.mul : simpl never.
Global Arguments N.div : simpl never.
Global Arguments N.modulo : simpl never.
Global Arguments N.pow : simpl never.
Global Arguments N.of_nat : simpl never.
Global Arguments N.to_nat : simpl never.
Global Arguments Z.add : simpl never.
Global Arguments Z.sub : simpl never.
Global Arguments Z.mul : simpl never.
Global Arguments Z.pow : simpl never.
Global Arguments Z.modulo : simpl never.
Global Arguments Z.div : simpl never.
Global Arguments Z.of_N : simpl never.
Global Arguments Z.to_N : simpl never.
Global Arguments Z.opp : simpl never.

(** ** Bytes *)
Lemma b2n_bound b : b2n b < 256.
Proof. destruct b; reflexivity. Qed.

Lemma n2b_b2n b : n2b (b2n b) = b.
Proof. destruct b; reflexivity. Qed.

Lemma b2n_n2b n : b2n (n2b n) = n mod 256.
Proof.
  unfold n2b, b2n.
  destruct (Byte.of_N (n mod 256)) eqn:E.
  - apply Byte.to_of_N in E. exact E.
  - exfalso. apply Byte.of_N_None_iff in E.
    pose proof (N.mod_lt n 256). lia.
Qed.

Lemma b2n_inj a b : b2n a = b2n b -> a = b.
Proof. intros H. rewrite <- (n2b_b2n a), <- (n2b_b2n b), H. reflexivity. Qed.

Lemma n2b_mod n : n2b (n mod 256) = n2b n.
Proof. unfold n2b. rewrite N.mod_mod by lia. reflexivity. Qed.

Lemma beq_spec a b : beq a b = true <-> a = b.
Proof. unfold beq. split; [apply Byte.byte_dec_bl | apply Byte.byte_dec_lb]. Qed.

Lemma beq_refl a : beq a a = true.
Proof. apply beq_spec; reflexivity. Qed.

Lemma beq_false a b : beq a b = false <-> a <> b.
Proof.
  split.
  - intros H E. apply beq_spec in E. congruence.
  - intros H. destruct (beq a b) eqn:E; [|reflexivity]. apply beq_spec in E. contradiction.
Qed.

Lemma beqP a b : Bool.reflect (a = b) (beq a b).
Proof. destruct (beq a b) eqn:E; constructor; [apply beq_spec | apply beq_false]; exact E. Qed.

Lemma byte_eq_dec : forall a b : byte, {a = b} + {a <> b}.
Proof. intros a b. destruct (beqP a b); [left | right]; assumption. Qed.

Lemma bytes_eqb_spec a b : bytes_eqb a b = true <-> a = b.
Proof.
  revert b; induction a as [|x a IH]; intros [|y b]; cbn [bytes_eqb]; split; intros H; try easy.
  - apply andb_prop in H as [H1 H2]. apply beq_spec in H1. apply IH in H2. congruence.
  - inversion H; subst. rewrite beq_refl. cbn. apply IH. reflexivity.
Qed.

Lemma bytes_eqb_refl a : bytes_eqb a a = true.
Proof. apply bytes_eqb_spec; reflexivity. Qed.

Lemma bytes_eqb_false a b : bytes_eqb a b = false <-> a <> b.
Proof.
  split; intros H.
  - intros E. apply bytes_eqb_spec in E. congruence.
  - destruct (bytes_eqb a b) eqn:E; [|reflexivity]. apply bytes_eqb_spec in E. contradiction.
Qed.

Lemma bytes_eqP a b : Bool.reflect (a = b) (bytes_eqb a b).
Proof. destruct (bytes_eqb a b) eqn:E; constructor; [apply bytes_eqb_spec | apply bytes_eqb_false]; exact E. Qed.

(** ** Lengths and slices *)
Section Slices.
  Context {A : Type}.
  Implicit Types l : list A.

  Lemma len_nil : len (@nil A) = 0.
  Proof. reflexivity. Qed.
  Lemma len_cons a l : len (a :: l) = 1 + len l.
  Proof. unfold len. cbn [length]. lia. Qed.
  Lemma len_app l1 l2 : len (l1 ++ l2) = len l1 + len l2.
  Proof. unfold len. rewrite app_length. lia. Qed.
  Lemma len_snoc l a : len (l ++ [a]) = len l + 1.
  Proof. rewrite len_app. reflexivity. Qed.
  Lemma len_map {B} (f : A -> B) l : len (map f l) = len l.
  Proof. unfold len. rewrite map_length. reflexivity. Qed.
  Lemma len_repeat (a : A) n : len (repeat a n) = N.of_nat n.
  Proof. unfold len. rewrite repeat_length. reflexivity. Qed.
  Lemma len_rev l : len (rev l) = len l.
  Proof. unfold len. rewrite rev_length. reflexivity. Qed.
  Lemma len_0 l : len l = 0 -> l = [].
  Proof. destruct l; [reflexivity|]. rewrite len_cons. lia. Qed.

  Lemma take_firstn n l : take n l = firstn (N.to_nat n) l.
  Proof.
    unfold take. destruct (N.le_gt_cases n (len l)) as [H|H].
    - rewrite N.min_l by exact H. reflexivity.
    - rewrite N.min_r by lia. unfold len in *.
      rewrite !firstn_all2 by lia. reflexivity.
  Qed.
  Lemma drop_skipn n l : drop n l = skipn (N.to_nat n) l.
  Proof.
    unfold drop. destruct (N.le_gt_cases n (len l)) as [H|H].
    - rewrite N.min_l by exact H. reflexivity.
    - rewrite N.min_r by lia. unfold len in *.
      rewrite !skipn_all2 by lia. reflexivity.
  Qed.

  Lemma len_take n l : len (take n l) = N.min n (len l).
  Proof. rewrite take_firstn. unfold len. rewrite firstn_length. lia. Qed.
  Lemma len_drop n l : len (drop n l) = len l - n.
  Proof. rewrite drop_skipn. unfold len. rewrite skipn_length. lia. Qed.
  Lemma take_drop n l : take n l ++ drop n l = l.
  Proof. rewrite take_firstn, drop_skipn. apply firstn_skipn. Qed.
  Lemma take_0 l : take 0 l = [].
  Proof. rewrite take_firstn. reflexivity. Qed.
  Lemma drop_0 l : drop 0 l = l.
  Proof. rewrite drop_skipn. reflexivity. Qed.
  Lemma take_nil n : take n (@nil A) = [].
  Proof. rewrite take_firstn. apply firstn_nil. Qed.
  Lemma drop_nil n : drop n (@nil A) = [].
  Proof. rewrite drop_skipn. apply skipn_nil. Qed.
  Lemma take_all n l : len l <= n -> take n l = l.
  Proof. intros H. rewrite take_firstn. apply firstn_all2. unfold len in H. lia. Qed.
  Lemma drop_all n l : len l <= n -> drop n l = [].
  Proof. intros H. rewrite drop_skipn. apply skipn_all2. unfold len in H. lia. Qed.
  Lemma take_app_l n l1 l2 : n <= len l1 -> take n (l1 ++ l2) = take n l1.
  Proof.
    intros H. rewrite !take_firstn, firstn_app. unfold len in H.
    replace (N.to_nat n - length l1)%nat with 0%nat by lia.
    cbn [firstn]. apply app_nil_r.
  Qed.
  Lemma take_app_exact n l1 l2 : n = len l1 -> take n (l1 ++ l2) = l1.
  Proof. intros ->. rewrite take_app_l by lia. apply take_all; lia. Qed.
  Lemma take_app_r n l1 l2 : len l1 <= n -> take n (l1 ++ l2) = l1 ++ take (n - len l1) l2.
  Proof.
    intros H. rewrite !take_firstn, firstn_app. unfold len in *.
    rewrite firstn_all2 by lia. do 2 f_equal. lia.
  Qed.
  Lemma drop_app_l n l1 l2 : n <= len l1 -> drop n (l1 ++ l2) = drop n l1 ++ l2.
  Proof.
    intros H. rewrite !drop_skipn, skipn_app. unfold len in H.
    replace (N.to_nat n - length l1)%nat with 0%nat by lia. reflexivity.
  Qed.
  Lemma drop_app_exact n l1 l2 : n = len l1 -> drop n (l1 ++ l2) = l2.
  Proof. intros ->. rewrite drop_app_l by lia. rewrite drop_all by lia. reflexivity. Qed.
  Lemma drop_app_r n l1 l2 : len l1 <= n -> drop n (l1 ++ l2) = drop (n - len l1) l2.
  Proof.
    intros H. rewrite !drop_skipn, skipn_app. unfold len in *.
    rewrite skipn_all2 by lia. cbn. f_equal. lia.
  Qed.
  Lemma drop_drop n m l : drop n (drop m l) = drop (n + m) l.
  Proof.
    rewrite !drop_skipn. replace (N.to_nat (n + m)) with (N.to_nat m + N.to_nat n)%nat by lia.
    generalize (N.to_nat n) as a, (N.to_nat m) as b. clear. intros a b. revert l.
    induction b as [|b IH]; intros l; [reflexivity|].
    destruct l; cbn [skipn Nat.add]; [apply skipn_nil | apply IH].
  Qed.
  Lemma take_take n m l : take n (take m l) = take (N.min n m) l.
  Proof.
    rewrite !take_firstn, firstn_firstn. f_equal. lia.
  Qed.
  Lemma take_drop_comm n m l : take n (drop m l) = drop m (take (n + m) l).
  Proof.
    rewrite !take_firstn, !drop_skipn. rewrite firstn_skipn_comm. do 2 f_equal. lia.
  Qed.
  Lemma take_add n m l : take (n + m) l = take n l ++ take m (drop n l).
  Proof.
    rewrite !take_firstn, drop_skipn. replace (N.to_nat (n + m)) with (N.to_nat n + N.to_nat m)%nat by lia.
    generalize (N.to_nat n) as a, (N.to_nat m) as b. clear. intros a b. revert l.
    induction a as [|a IH]; intros l; [reflexivity|].
    destruct l; cbn [skipn firstn Nat.add app]; [rewrite firstn_nil; reflexivity | rewrite IH; reflexivity].
  Qed.
  Lemma len_nonempty l : l <> [] -> 0 < len l.
  Proof. destruct l; [congruence|]. rewrite len_cons. lia. Qed.
  Lemma firstn_app_exact n l1 l2 : n = length l1 -> firstn n (l1 ++ l2) = l1.
  Proof. intros ->. rewrite firstn_app, Nat.sub_diag, firstn_all, firstn_O, app_nil_r. reflexivity. Qed.
  Lemma skipn_app_exact n l1 l2 : n = length l1 -> skipn n (l1 ++ l2) = l2.
  Proof. intros ->. rewrite skipn_app, Nat.sub_diag, skipn_all. reflexivity. Qed.

  Lemma nth_N_Some l n : n < len l -> exists a, nth_N l n = Some a.
  Proof.
    intros H. unfold nth_N. destruct (N.ltb_spec n (len l)); [|lia].
    destruct (nth_error l (N.to_nat n)) eqn:E; [eauto|].
    apply nth_error_None in E. unfold len in H. lia.
  Qed.
  Lemma nth_N_None l n : len l <= n -> nth_N l n = None.
  Proof. intros H. unfold nth_N. destruct (N.ltb_spec n (len l)); [lia|reflexivity]. Qed.
  Lemma nth_N_error l n : nth_N l n = nth_error l (N.to_nat n).
  Proof.
    unfold nth_N. destruct (N.ltb_spec n (len l)) as [H|H]; [reflexivity|].
    symmetry. apply nth_error_None. unfold len in H. lia.
  Qed.
  Lemma nth_N_lt l n a : nth_N l n = Some a -> n < len l.
  Proof. unfold nth_N. destruct (N.ltb_spec n (len l)); [auto|discriminate]. Qed.
End Slices.

Lemma len_zeros n : len (zeros n) = n.
Proof. unfold zeros. rewrite len_repeat. lia. Qed.
Lemma zeros_0 : zeros 0 = [].
Proof. reflexivity. Qed.

(** ** Little endian *)
Lemma len_le_enc k v : len (le_enc k v) = N.of_nat k.
Proof.
  revert v; induction k as [|k IH]; intros v; cbn [le_enc]; [reflexivity|].
  rewrite len_cons, IH. lia.
Qed.
Lemma length_le_enc k v : length (le_enc k v) = k.
Proof. pose proof (len_le_enc k v). unfold len in H. lia. Qed.

Lemma le_dec_enc k v : le_dec (le_enc k v) = v mod 256 ^ N.of_nat k.
Proof.
  revert v; induction k as [|k IH]; intros v; cbn [le_enc le_dec].
  - rewrite N.mod_1_r. reflexivity.
  - rewrite IH, b2n_n2b.
    replace (N.of_nat (S k)) with (N.succ (N.of_nat k)) by lia.
    rewrite N.pow_succ_r'.
    rewrite N.mod_mul_r; [reflexivity | lia | apply N.pow_nonzero; lia].
Qed.

Lemma le_dec_bound bs : le_dec bs < 256 ^ len bs.
Proof.
  induction bs as [|b bs IH]; [reflexivity|].
  cbn [le_dec]. rewrite len_cons, N.pow_add_r.
  pose proof (b2n_bound b). change (256 ^ 1) with 256. nia.
Qed.

Lemma le_enc_dec bs : le_enc (length bs) (le_dec bs) = bs.
Proof.
  induction bs as [|b bs IH]; [reflexivity|].
  cbn [length le_enc le_dec]. pose proof (b2n_bound b). f_equal.
  - rewrite <- (n2b_mod (b2n b + _)).
    replace ((b2n b + 256 * le_dec bs) mod 256) with (b2n b)
      by (rewrite N.mul_comm, N.mod_add by lia; symmetry; apply N.mod_small; lia).
    apply n2b_b2n.
  - replace ((b2n b + 256 * le_dec bs) / 256) with (le_dec bs); [exact IH|].
    rewrite N.mul_comm, N.div_add by lia. rewrite N.div_small by lia. lia.
Qed.

Lemma le_dec_enc_small k v : v < 256 ^ N.of_nat k -> le_dec (le_enc k v) = v.
Proof. intros H. rewrite le_dec_enc. apply N.mod_small, H. Qed.

Lemma le_enc_inj k v w : v < 256 ^ N.of_nat k -> w < 256 ^ N.of_nat k -> le_enc k v = le_enc k w -> v = w.
Proof. intros Hv Hw H. rewrite <- (le_dec_enc_small k v Hv), H. apply le_dec_enc_small, Hw. Qed.

Lemma le_enc_mod k v : le_enc k (v mod 256 ^ N.of_nat k) = le_enc k v.
Proof.
  rewrite <- le_dec_enc. rewrite <- (length_le_enc k v) at 1. apply le_enc_dec.
Qed.

(** ** Two's complement *)
Lemma pow2_pos w : 0 < 2 ^ w.
Proof. apply N.neq_0_lt_0, N.pow_nonzero. lia. Qed.

Lemma Z_of_pow w : (Z.of_N (2 ^ w) = 2 ^ Z.of_N w)%Z.
Proof. rewrite N2Z.inj_pow. reflexivity. Qed.

Lemma uint_bound w z : uint w z < 2 ^ w.
Proof.
  unfold uint. pose proof (pow2_pos w).
  pose proof (Z.mod_pos_bound z (Z.of_N (2 ^ w))). lia.
Qed.

Lemma sint_uint w z : 0 < w ->
  (- Z.of_N (2 ^ (w - 1)) <= z < Z.of_N (2 ^ (w - 1)))%Z -> sint w (uint w z) = z.
Proof.
  intros Hw Hz. pose proof (uint_bound w z) as Hb. unfold sint.
  rewrite (N.mod_small _ _ Hb).
  assert (E : 2 ^ w = 2 * 2 ^ (w - 1)).
  { rewrite <- N.pow_succ_r'. f_equal. lia. }
  unfold uint in *. rewrite E in *.
  set (h := 2 ^ (w - 1)) in *.
  assert (Hh : 0 < h) by apply pow2_pos.
  destruct (Z.lt_ge_cases z 0) as [Hn|Hp].
  - assert (Em : (z mod Z.of_N (2 * h) = z + Z.of_N (2 * h))%Z).
    { symmetry. apply Z.mod_unique with (q := (-1)%Z); lia. }
    rewrite Em in *.
    destruct (N.ltb_spec (Z.to_N (z + Z.of_N (2 * h))) h); lia.
  - rewrite Z.mod_small in * by lia.
    destruct (N.ltb_spec (Z.to_N z) h); lia.
Qed.

Lemma uint_sint w n : 0 < w -> n < 2 ^ w -> uint w (sint w n) = n.
Proof.
  intros Hw Hn. unfold sint. rewrite (N.mod_small _ _ Hn). unfold uint.
  destruct (n <? 2 ^ (w - 1)).
  - rewrite Z.mod_small by lia. lia.
  - replace (Z.of_N n - Z.of_N (2 ^ w))%Z with (Z.of_N n + (-1) * Z.of_N (2 ^ w))%Z by lia.
    pose proof (pow2_pos w).
    rewrite Z.mod_add by lia. rewrite Z.mod_small by lia. lia.
Qed.

Lemma sint_range w n : 0 < w -> (- Z.of_N (2 ^ (w - 1)) <= sint w n < Z.of_N (2 ^ (w - 1)))%Z.
Proof.
  intros Hw. unfold sint. pose proof (pow2_pos w).
  assert (E : 2 ^ w = 2 * 2 ^ (w - 1)).
  { rewrite <- N.pow_succ_r'. f_equal. lia. }
  pose proof (N.mod_lt n (2 ^ w)).
  destruct (N.ltb_spec (n mod 2 ^ w) (2 ^ (w - 1))); lia.
Qed.

Lemma uint_small w z : (0 <= z < Z.of_N (2 ^ w))%Z -> uint w z = Z.to_N z.
Proof. intros H. unfold uint. rewrite Z.mod_small by exact H. reflexivity. Qed.

Lemma uint_neg w z : (- Z.of_N (2 ^ w) <= z < 0)%Z -> uint w z = Z.to_N (z + Z.of_N (2 ^ w)).
Proof.
  intros H. unfold uint. f_equal. symmetry. apply Z.mod_unique with (q := (-1)%Z); lia.
Qed.

Lemma uint_of_N w n : n < 2 ^ w -> uint w (Z.of_N n) = n.
Proof. intros H. rewrite uint_small by lia. lia. Qed.

Lemma sint_small w n : n < 2 ^ (w - 1) -> sint w n = Z.of_N n.
Proof.
  intros H. unfold sint.
  assert (n < 2 ^ w). { eapply N.lt_le_trans; [exact H|]. apply N.pow_le_mono_r; lia. }
  rewrite N.mod_small by assumption. destruct (N.ltb_spec n (2 ^ (w - 1))); lia.
Qed.

Lemma uint_mod w z : uint w z mod 2 ^ w = uint w z.
Proof. apply N.mod_small, uint_bound. Qed.

(** ** Monad *)
Lemma bind_ret_l {S A B} (a : A) (k : A -> M S B) s : bind (ret a) k s = k a s.
Proof. reflexivity. Qed.

Lemma bind_assoc {S A B C} (m : M S A) (f : A -> M S B) (g : B -> M S C) s :
  bind (bind m f) g s = bind m (fun a => bind (f a) g) s.
Proof. unfold bind. destruct (m s) as [[a s'] | | |]; reflexivity. Qed.

Lemma bind_Ret {S A B} (m : M S A) (k : A -> M S B) s r :
  bind m k s = Ret r -> exists a s', m s = Ret (a, s') /\ k a s' = Ret r.
Proof. unfold bind. destruct (m s) as [[a s'] | | |]; try discriminate. eauto. Qed.

Lemma bind_eq {S A B} (m : M S A) (k : A -> M S B) s a s' :
  m s = Ret (a, s') -> bind m k s = k a s'.
Proof. intros H. unfold bind. rewrite H. reflexivity. Qed.

(** Normalise lengths. *)
Global Hint Rewrite @len_app @len_cons @len_nil @len_take @len_drop @len_map @len_rev len_zeros len_le_enc : len.
Ltac lens := autorewrite with len in *.
