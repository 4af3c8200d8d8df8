From Coq Require Import List Lia ZArith NArith.
From Verif Require Import MBase MChoice SChoice.
Import ListNotations.
Local Open Scope nat_scope.

Lemma add_first : forall l c, shown (add_choice l c) 0 = Some c /\ forall k, shown (add_choice l c) (S k) = shown l k.
Proof. intros l c; split; [reflexivity | intros k; reflexivity]. Qed.

Lemma erase_ok : forall l i, N.to_nat i < List.length l -> exists l', erase_at l i = Ret l' /\
  S (List.length l') = List.length l /\ (forall k, k < N.to_nat i -> shown l' k = shown l k) /\ (forall k, N.to_nat i <= k -> shown l' k = shown l (S k)).
Proof.
  induction l as [|c r IH]; intros i H; cbn [List.length] in H; [lia|].
  cbn [erase_at]. destruct (N.eqb_spec i 0) as [->|Hi].
  - exists r. split; [reflexivity|]. split; [reflexivity|]. split; [intros k Hk; cbn in Hk; lia | intros k _; reflexivity].
  - destruct (IH (i - 1)%N) as (l' & E & L & A & B); [lia|]. rewrite E. exists (c :: l'). split; [reflexivity|].
    split; [cbn [List.length]; lia|]. split.
    + intros [|k] Hk; [reflexivity|]. cbn. apply A. lia.
    + intros [|k] Hk; [lia|]. change (shown (c :: l') (S k)) with (shown l' k). rewrite B by lia. reflexivity.
Qed.
Lemma erase_bad : forall l i, List.length l <= N.to_nat i -> erase_at l i = Undef.
Proof.
  induction l as [|c r IH]; intros i H; cbn [List.length] in H; cbn [erase_at]; [reflexivity|].
  destruct (N.eqb_spec i 0) as [->|Hi]; [cbn in H; lia|]. rewrite IH by lia. reflexivity.
Qed.
(** A vector holds fewer than 2^63 elements. *)
Lemma remove_ok : forall l i, (N.of_nat (List.length l) < 2 ^ 63)%N -> (i < N.of_nat (List.length l))%N -> exists l', remove_choice l i = Ret l' /\
  S (List.length l') = List.length l /\ (forall k, k < N.to_nat i -> shown l' k = shown l k) /\ (forall k, N.to_nat i <= k -> shown l' k = shown l (S k)).
Proof.
  intros l i M H. unfold remove_choice. destruct (N.ltb_spec i (2 ^ 63)%N) as [_|C].
  - apply erase_ok. lia.
  - exfalso. apply (N.lt_irrefl i). eapply N.lt_le_trans; [exact H|]. eapply N.le_trans; [apply N.lt_le_incl, M | exact C].
Qed.
Lemma remove_bad : forall l i, (N.of_nat (List.length l) <= i)%N -> remove_choice l i = Undef.
Proof.
  intros l i H. unfold remove_choice. destruct (i <? 2 ^ 63)%N; [|reflexivity]. apply erase_bad. lia.
Qed.
Lemma add_remove : forall l c, remove_choice (add_choice l c) 0 = Ret l.
Proof. reflexivity. Qed.

Lemma erase_inv : forall l i l', remove_choice l i = Ret l' -> N.to_nat i < List.length l /\ S (List.length l') = List.length l /\
  (forall k, k < N.to_nat i -> shown l' k = shown l k) /\ (forall k, N.to_nat i <= k -> shown l' k = shown l (S k)).
Proof.
  intros l i l' H. destruct (le_lt_dec (List.length l) (N.to_nat i)) as [C|C].
  - rewrite remove_bad in H by lia. discriminate.
  - split; [exact C|]. unfold remove_choice in H. destruct (i <? 2 ^ 63)%N; [|discriminate].
    destruct (erase_ok l i C) as (m & E & R). rewrite E in H. injection H as <-. exact R.
Qed.

Lemma run_app : forall h l k, choice_run l (h ++ [k]) = match choice_run l h with Ret m => choice_step m k | Throw e => Throw e | Undef => Undef | Fuel => Fuel end.
Proof.
  induction h as [|a h IH]; intros l k; cbn [app choice_run].
  - destruct (choice_step l k); reflexivity.
  - destruct (choice_step l a); try reflexivity. apply IH.
Qed.

Lemma history_gen : forall h l, choice_run [] h = Ret l -> newest_first h l /\ List.length l + removes h = adds h.
Proof.
  induction h as [|k h IH] using rev_ind; intros l H.
  - injection H as <-. split; [|reflexivity]. exists (fun _ => 0). split.
    + intros i j _ C. cbn in C. lia.
    + intros [|i] c C; discriminate C.
  - rewrite run_app in H. destruct (choice_run [] h) as [m| | |] eqn:E; try discriminate.
    destruct (IH m eq_refl) as [(time & T1 & T2) Cn]. clear IH E.
    assert (TB : forall i, i < List.length m -> time i < List.length h).
    { intros i Hi. destruct (shown m i) as [c|] eqn:Es.
      - apply nth_error_Some. rewrite (T2 i c Es). discriminate.
      - apply nth_error_None in Es. lia. }
    unfold adds, removes in *. rewrite !filter_app, !app_length. destruct k as [c|i]; cbn [choice_step] in H; cbn [filter List.length].
    + injection H as <-. split; [|cbn [add_choice List.length]; lia].
      exists (fun i => match i with O => List.length h | S j => time j end). split.
      * intros [|i] [|j] A B; try lia; cbn [add_choice List.length] in B.
        -- apply TB. lia.
        -- apply T1; lia.
      * intros [|i] c' Es.
        -- injection Es as <-. rewrite nth_error_app2 by lia. rewrite Nat.sub_diag. reflexivity.
        -- change (shown m i = Some c') in Es. rewrite nth_error_app1; [exact (T2 i c' Es)|]. apply TB. apply nth_error_Some. unfold shown in Es. rewrite Es. discriminate.
    + destruct (erase_inv m i l H) as (Hi & L & A & B). split; [|lia].
      exists (fun k => if k <? N.to_nat i then time k else time (S k)). split.
      * intros a b Hab Hb. destruct (Nat.ltb_spec a (N.to_nat i)); destruct (Nat.ltb_spec b (N.to_nat i)); try lia; apply T1; lia.
      * intros a c Ea. assert (Ha : a < List.length l). { apply nth_error_Some. unfold shown in Ea. rewrite Ea. discriminate. }
        destruct (Nat.ltb_spec a (N.to_nat i)) as [Q|Q].
        -- rewrite (A a Q) in Ea. rewrite nth_error_app1; [exact (T2 a c Ea)|]. apply TB. lia.
        -- rewrite (B a Q) in Ea. rewrite nth_error_app1; [exact (T2 (S a) c Ea)|]. apply TB. lia.
Qed.

Lemma history_defined : forall h l, (N.of_nat (List.length l + List.length h) < 2 ^ 63)%N ->
  (in_range (List.length l) h <-> exists l', choice_run l h = Ret l').
Proof.
  induction h as [|k h IH]; intros l M.
  - split; [intros _; exists l; reflexivity | intros _; exact I].
  - cbn [List.length] in M. destruct k as [c|i]; cbn [in_range choice_run choice_step].
    + change (S (List.length l)) with (List.length (add_choice l c)). apply IH. cbn [add_choice List.length].
      replace (S (List.length l) + List.length h) with (List.length l + S (List.length h)) by lia. exact M.
    + assert (M' : (N.of_nat (List.length l) < 2 ^ 63)%N) by (eapply N.le_lt_trans; [|exact M]; lia).
      split.
      * intros [Hi R]. destruct (remove_ok l i M') as (l' & E & L & _); [lia|]. rewrite E.
        apply IH; [eapply N.le_lt_trans; [|exact M]; lia|]. replace (List.length l') with (List.length l - 1) by lia. exact R.
      * intros [l' E]. destruct (remove_choice l i) as [m| | |] eqn:Er; try discriminate.
        destruct (erase_inv l i m Er) as (Hi & L & _). split; [exact Hi|].
        replace (List.length l - 1) with (List.length m) by lia. apply IH; [eapply N.le_lt_trans; [|exact M]; lia|]. exists l'. exact E.
Qed.
