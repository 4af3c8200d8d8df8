(** Growing symbols. *)

From Coq Require Import ZArith Lia ZifyN ZifyBool ZifyNat.
From Verif Require Import MBase LBase MStream MDaedalus LVm LSym LDaedalus SGrow.
Local Open Scope N_scope.

Lemma nth_N_repeat {A} (a : A) n k : k < N.of_nat n -> nth_N (repeat a n) k = Some a.
Proof. intros H. unfold nth_N. rewrite len_repeat. replace (k <? N.of_nat n) with true by lia. apply nth_error_repeat. lia. Qed.
Lemma nth_pad_l {A} (l : list A) (a : A) n k : k < len l -> nth_N (l ++ repeat a n) k = nth_N l k.
Proof. apply nth_N_app_l. Qed.
Lemma nth_pad_r {A} (l : list A) (a : A) n k : len l <= k -> k < len l + N.of_nat n -> nth_N (l ++ repeat a n) k = Some a.
Proof. intros H K. rewrite nth_N_app_r by exact H. apply nth_N_repeat. lia. Qed.

Lemma grown x n : holds_values x -> s_count x + n < 2 ^ 32 ->
  exists y, sym_grow x n = Ret y /\ same_declaration x y /\ s_count y = s_count x + n /\ holds_values y /\
    (forall k, k < s_count x -> same_element x y k) /\ (forall k, s_count x <= k -> k < s_count x + n -> empty_element y k).
Proof.
  intros (M & H) B. unfold sym_grow. cbv zeta. rewrite (u32_id (s_count x + n)) by (exact B).
  assert (Le : (s_count x <=? s_count x + n) = true) by lia.
  destruct (s_val x) as [l|l|l|v] eqn:V; [| | |contradiction]; destruct H as (T & L); rewrite L, N.eqb_refl, Le; cbn [andb];
    (eexists; split; [reflexivity|]; split; [unfold same_declaration; cbn; auto 20|]; split; [reflexivity|]; split;
      [split; [exact M|]; cbn; split; [exact T|]; rewrite len_app, len_repeat; lia|]).
  all: split; [intros k K c|intros k K K' c].
  all: assert (M' : forall v c, is_member (with_grown x v c) = false) by (intros; exact M).
  all: unfold sym_get_int, sym_get_float, sym_get_string; rewrite ?M', ?M; cbn [s_type s_count s_val with_grown]; rewrite ?V.
  1,3,5: replace (s_count x + n <=? k) with false by lia; replace (s_count x <=? k) with false by lia;
    rewrite nth_pad_l by (rewrite L; exact K); auto.
  all: replace (s_count x + n <=? k) with false by lia; rewrite nth_pad_r by (rewrite L; lia).
  - split; [|split; intros E; exfalso; destruct T as [T|T]; rewrite T in E; discriminate].
    intros _. destruct T as [-> | ->]; reflexivity.
  - rewrite T. split; [intros [E|E]; discriminate|]. split; [reflexivity|discriminate].
  - rewrite T. split; [intros [E|E]; discriminate|]. split; [discriminate|reflexivity].
Qed.

Lemma grown_end x n y : holds_values x -> s_count x + n < 2 ^ 32 -> sym_grow x n = Ret y ->
  forall k, s_count x + n <= k -> forall c, (s_type x = T_INT -> sym_get_int y k c = Throw IllegalIndexAccess) /\
   (s_type x = T_FLOAT -> sym_get_float y k c = Throw IllegalIndexAccess) /\ (s_type x = T_STRING -> sym_get_string y k c = Throw IllegalIndexAccess).
Proof.
  intros H B G k K c. destruct (grown x n H B) as (y' & G' & D & C & _). rewrite G in G'. injection G' as <-.
  destruct D as (_ & _ & _ & _ & T & _). unfold sym_get_int, sym_get_float, sym_get_string. rewrite T, C.
  replace (s_count x + n <=? k) with true by lia. split; [|split]; intros ->; reflexivity.
Qed.

Lemma grow_twice x n m : holds_values x -> s_count x + n + m < 2 ^ 32 ->
  match sym_grow x n with Ret y => sym_grow y m = sym_grow x (n + m) | _ => False end.
Proof.
  intros (M & H) B. unfold sym_grow. cbv zeta. rewrite (u32_id (s_count x + n)), (u32_id (s_count x + (n + m))) by lia.
  replace (s_count x <=? s_count x + n) with true by lia. replace (s_count x <=? s_count x + (n + m)) with true by lia.
  destruct (s_val x) as [l|l|l|v] eqn:V; [| | |contradiction]; destruct H as (T & L); rewrite L, N.eqb_refl; cbn [andb];
    cbn [s_val with_grown s_count]; rewrite (u32_id (s_count x + n + m)) by lia; rewrite len_app, len_repeat, L.
  all: replace (s_count x + N.of_nat (N.to_nat (s_count x + n - s_count x)) =? s_count x + n) with true by lia;
    replace (s_count x + n <=? s_count x + n + m) with true by lia; cbn [andb]; rewrite <- app_assoc, <- repeat_app.
  all: unfold with_grown; cbn; do 2 f_equal; [|lia]; do 3 f_equal; lia.
Qed.
Lemma grow_instance x n v : s_val x = SInst v -> sym_grow x n = Throw IllegalTypeAccess.
Proof. intros V. unfold sym_grow. rewrite V. reflexivity. Qed.
