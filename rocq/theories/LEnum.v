(** The enumeration of instances. *)

From Coq Require Import Lia ZifyN ZifyBool ZifyNat Sorted.
From Verif Require Import MBase LBase MStream MDaedalus MVm LVm LDaedalus SInst SEnum.
Local Open Scope N_scope.

Lemma nth_N_0 {A} (a : A) l : nth_N (a :: l) 0 = Some a.
Proof. rewrite nth_N_error. reflexivity. Qed.
Lemma nth_N_succ {A} (a : A) l k : 0 < k -> nth_N (a :: l) k = nth_N l (k - 1).
Proof. intros H. rewrite !nth_N_error. replace (N.to_nat k) with (S (N.to_nat (k - 1))) by lia. reflexivity. Qed.

(** The list from [i] on, with the prototypes found before. *)
Lemma enum_spec cls : forall l i protos k,
  In k (enum_instances cls protos i l) <->
  (i <= k /\ exists x, nth_N l (k - i) = Some x /\ s_type x = T_INSTANCE /\ is_const x = true /\
     (s_parent x = cls \/ In (s_parent x) protos \/
      (i <= s_parent x < k /\ exists y, nth_N l (s_parent x - i) = Some y /\ s_type y = T_PROTOTYPE /\ s_parent y = cls))).
Proof.
  induction l as [|a l IH]; intros i protos k; cbn [enum_instances].
  { split; [intros []|]. intros (_ & x & X & _). rewrite nth_N_error in X. destruct (N.to_nat (k - i)); discriminate. }
  assert (Up : forall protos', (forall p, In p protos' <-> In p protos \/ (p = i /\ s_type a = T_PROTOTYPE /\ s_parent a = cls)) -> k <> i ->
    (In k (enum_instances cls protos' (i + 1) l) <->
     (i <= k /\ exists x, nth_N (a :: l) (k - i) = Some x /\ s_type x = T_INSTANCE /\ is_const x = true /\
       (s_parent x = cls \/ In (s_parent x) protos \/
        (i <= s_parent x < k /\ exists y, nth_N (a :: l) (s_parent x - i) = Some y /\ s_type y = T_PROTOTYPE /\ s_parent y = cls))))).
  { intros protos' HP NK. rewrite IH. split.
    - intros (L & x & X & TX & CX & D). split; [lia|]. exists x. rewrite nth_N_succ by lia. replace (k - i - 1) with (k - (i + 1)) by lia.
      split; [exact X|]. split; [exact TX|]. split; [exact CX|]. destruct D as [D|[D|(D & y & Y & TY)]]; [left; exact D| |].
      + apply HP in D as [D|(D & T & P)]; [right; left; exact D|]. right. right. split; [lia|]. exists a. replace (s_parent x - i) with 0 by lia. rewrite nth_N_0. auto.
      + right. right. split; [lia|]. exists y. rewrite nth_N_succ by lia. replace (s_parent x - i - 1) with (s_parent x - (i + 1)) by lia. auto.
    - intros (L & x & X & TX & CX & D). split; [lia|]. exists x. rewrite nth_N_succ in X by lia. replace (k - i - 1) with (k - (i + 1)) in X by lia.
      split; [exact X|]. split; [exact TX|]. split; [exact CX|]. destruct D as [D|[D|(D & y & Y & TY)]]; [left; exact D| |].
      + right. left. apply HP. left. exact D.
      + destruct (N.eq_dec (s_parent x) i) as [E|E].
        * right. left. apply HP. right. rewrite E, N.sub_diag, nth_N_0 in Y. injection Y as ->. auto.
        * right. right. split; [lia|]. exists y. rewrite nth_N_succ in Y by lia. replace (s_parent x - i - 1) with (s_parent x - (i + 1)) in Y by lia. auto. }
  assert (Here : forall Q : Prop, (s_type a = T_INSTANCE -> is_const a = true -> (s_parent a = cls \/ In (s_parent a) protos) -> Q) ->
    (i <= i /\ exists x, nth_N (a :: l) (i - i) = Some x /\ s_type x = T_INSTANCE /\ is_const x = true /\
     (s_parent x = cls \/ In (s_parent x) protos \/
      (i <= s_parent x < i /\ exists y, nth_N (a :: l) (s_parent x - i) = Some y /\ s_type y = T_PROTOTYPE /\ s_parent y = cls))) -> Q).
  { intros Q H (_ & x & X & TX & CX & D). rewrite N.sub_diag, nth_N_0 in X. injection X as <-. apply H; auto.
    destruct D as [D|[D|(D & _)]]; [auto|auto|lia]. }
  assert (Low : forall p, ~ In i (enum_instances cls p (i + 1) l)) by (intros p H; apply IH in H as (H & _); lia).
  destruct ((s_type a =? T_PROTOTYPE) && (s_parent a =? cls))%bool eqn:E1.
  - apply andb_true_iff in E1 as [T1 P1]. apply N.eqb_eq in T1, P1. destruct (N.eq_dec k i) as [->|NK].
    + split; [intros H; exfalso; exact (Low _ H)|]. apply Here. intros T _ _. rewrite T in T1. discriminate.
    + apply Up; [|exact NK]. intros p. rewrite in_app_iff. cbn [In]. intuition (subst; auto).
  - assert (HP : forall p, In p protos <-> In p protos \/ (p = i /\ s_type a = T_PROTOTYPE /\ s_parent a = cls)).
    { intros p. split; [auto|]. intros [H|(_ & T & P)]; [exact H|]. rewrite T, P, !N.eqb_refl in E1. discriminate. }
    destruct (_ && _ && _)%bool eqn:E2.
    + apply andb_true_iff in E2 as [E2 E3]. apply andb_true_iff in E2 as [T2 C2]. apply N.eqb_eq in T2. cbn [In].
      destruct (N.eq_dec k i) as [->|NK].
      * split; [intros _|auto]. split; [lia|]. exists a. rewrite N.sub_diag, nth_N_0. split; [reflexivity|]. split; [exact T2|]. split; [exact C2|].
        apply orb_true_iff in E3 as [E3|E3]; [right; left|left; apply N.eqb_eq, E3].
        apply existsb_exists in E3 as (p & I & E). apply N.eqb_eq in E. subst. exact I.
      * rewrite <- (Up protos HP NK). intuition congruence.
    + destruct (N.eq_dec k i) as [->|NK]; [|apply Up; assumption].
      split; [intros H; exfalso; exact (Low _ H)|]. apply Here. intros T C D. rewrite T, N.eqb_refl, C in E2. cbn [andb] in E2. apply orb_false_iff in E2 as [E2 E3].
      destruct D as [D|D]; [apply N.eqb_neq in E3; congruence|]. exfalso.
      assert (X : existsb (N.eqb (s_parent a)) protos = true) by (apply existsb_exists; exists (s_parent a); split; [exact D|apply N.eqb_refl]). congruence.
Qed.
Lemma enum_sorted cls : forall l i protos, StronglySorted N.lt (enum_instances cls protos i l).
Proof.
  induction l as [|a l IH]; intros i protos; cbn [enum_instances]; [constructor|].
  destruct (_ && _)%bool; [apply IH|]. destruct (_ && _ && _)%bool; [|apply IH]. constructor; [apply IH|].
  apply Forall_forall. intros k H. apply enum_spec in H as (H & _). lia.
Qed.

Lemma enumerated sc name cls : find_by_name (sc_names sc) name = Some cls ->
  StronglySorted N.lt (enumerate_instances sc name) /\
  forall i, In i (enumerate_instances sc name) <->
    exists x, declared (sc_syms sc) i x /\ (s_parent x = cls \/ (prototype_of (sc_syms sc) cls (s_parent x) /\ s_parent x < i)).
Proof.
  intros F. unfold enumerate_instances. rewrite F. split; [apply enum_sorted|]. intros i. rewrite enum_spec. rewrite N.sub_0_r.
  split.
  - intros (_ & x & X & T & C & D). exists x. split; [split; auto|]. destruct D as [D|[[]|(D & y & Y)]]; [auto|]. right. rewrite N.sub_0_r in Y. split; [exists y; exact Y|lia].
  - intros (x & (X & T & C) & D). split; [lia|]. exists x. split; [exact X|]. split; [exact T|]. split; [exact C|]. destruct D as [D|((y & Y) & D)]; [auto|].
    right. right. split; [lia|]. exists y. rewrite N.sub_0_r. exact Y.
Qed.
Lemma enumerated_none sc name : find_by_name (sc_names sc) name = None -> enumerate_instances sc name = [].
Proof. intros F. unfold enumerate_instances. rewrite F. reflexivity. Qed.

Lemma above_class l i c : class_above l i c -> exists y, nth_N l c = Some y /\ s_type y = T_CLASS.
Proof. induction 1; eauto. Qed.
Lemma enumerated_sound sc name cls y i : find_by_name (sc_names sc) name = Some cls ->
  nth_N (sc_syms sc) cls = Some y -> s_type y = T_CLASS ->
  In i (enumerate_instances sc name) -> declared_as (sc_syms sc) cls i.
Proof.
  intros F Y T H. apply (proj2 (enumerated sc name cls F)) in H as (x & D & P). exists x. split; [exact D|].
  destruct P as [->|((p & PN & PT & PP) & _)]; [eapply above_here; eassumption|].
  eapply above_parent; [exact PN|rewrite PT; discriminate|]. rewrite PP. eapply above_here; eassumption.
Qed.
Lemma enumerated_complete sc name cls y i : find_by_name (sc_names sc) name = Some cls ->
  nth_N (sc_syms sc) cls = Some y -> s_type y = T_CLASS -> shallow (sc_syms sc) ->
  (In i (enumerate_instances sc name) <-> declared_as (sc_syms sc) cls i).
Proof.
  intros F Y T S. split; [eapply enumerated_sound; eassumption|]. intros (x & D & A). apply (proj2 (enumerated sc name cls F)). exists x. split; [exact D|].
  destruct D as (X & TX & CX). destruct (S i x X) as [S1 _]. destruct (S1 TX CX) as (z & Z & C). clear S1.
  inversion A as [? w W TW E1 E2|? w ? W TW A' E1]; subst.
  - left. reflexivity.
  - assert (w = z) by congruence. subst w. destruct C as [C|[C L]]; [congruence|]. right. split; [|exact L].
    exists z. split; [exact Z|]. split; [exact C|]. destruct (S _ z Z) as [_ S2]. destruct (S2 C) as (u & U & TU).
    inversion A' as [? w W' TW' E1 E2|? w ? W' TW' A'' E1]; subst; [reflexivity|congruence].
Qed.
