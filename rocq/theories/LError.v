(** Lemmas about errors. *)

From Verif Require Import MBase MStream MText LBase MError SError.

Lemma cstr_clean l : clean l -> cstr l = l.
Proof.
  unfold clean, cstr. induction l as [|a l IH]; intros H; [reflexivity|]. cbn [take_while].
  destruct (beq a x00) eqn:E; [apply beq_spec in E; subst; exfalso; apply H; left; reflexivity|]. cbn [negb]. f_equal. apply IH. intros I. apply H. right. exact I.
Qed.
Lemma cstr_is_clean l : clean (cstr l).
Proof.
  unfold clean, cstr. induction l as [|a l IH]; [intros []|]. cbn [take_while]. destruct (beq a x00) eqn:E; [intros []|]. cbn [negb].
  intros [->|I]; [|exact (IH I)]. rewrite beq_refl in E. discriminate.
Qed.
Lemma clean_app a b : clean a -> clean b -> clean (a ++ b).
Proof. unfold clean. intros A B I. apply in_app_iff in I as [I|I]; auto. Qed.
Lemma occurs_refl a : occurs a a. Proof. exists [], []. rewrite app_nil_r. reflexivity. Qed.
Lemma occurs_trans a b c : occurs a b -> occurs b c -> occurs a c.
Proof. intros (p & q & ->) (r & t & ->). exists (r ++ p), (q ++ t). rewrite <- !app_assoc. reflexivity. Qed.
Lemma occurs_cons x a l : occurs a l -> occurs a (x ++ l).
Proof. intros (p & q & ->). exists (x ++ p), q. rewrite <- app_assoc. reflexivity. Qed.
Lemma occurs_here a l : occurs a (a ++ l). Proof. exists [], l. reflexivity. Qed.

Lemma made_iff f : made f = None <-> exists w, f = Other w.
Proof. destruct f as [w|t [c|]|t g [c|]]; cbn; split; intros H; try discriminate; try (destruct H; discriminate); eauto. Qed.
Lemma what_caused t g c : made (Caused t g c) = Some (match c with None => error_cause t (what g) | Some c => error_cause_context t (what g) c end).
Proof. destruct c; reflexivity. Qed.
Lemma what_made f e : made f = Some e -> what f = what_of e.
Proof. destruct f as [w|t [c|]|t g [c|]]; intros [= <-]; reflexivity. Qed.
Lemma lit_clean1 : clean (lit "failed parsing resource of type "). Proof. unfold clean. cbn. intuition discriminate. Qed.
Lemma lit_clean2 : clean (lit " due to ["). Proof. unfold clean. cbn. intuition discriminate. Qed.
Lemma lit_clean3 : clean (lit "] [context: "). Proof. unfold clean. cbn. intuition discriminate. Qed.
Lemma lit_clean4 : clean (lit " [context: "). Proof. unfold clean. cbn. intuition discriminate. Qed.
Lemma lit_clean5 : clean (lit "]"). Proof. unfold clean. cbn. intuition discriminate. Qed.
Lemma what_clean f : clean (what f).
Proof. destruct f as [w|t [c|]|t g [c|]]; apply cstr_is_clean. Qed.
#[local] Hint Resolve clean_app lit_clean1 lit_clean2 lit_clean3 lit_clean4 lit_clean5 what_clean : clean.
Lemma whole f e : clean_failure f -> made f = Some e -> what f = e_message e.
Proof.
  destruct f as [w|t [c|]|t g c]; cbn [clean_failure]; try discriminate.
  - intros [? ?] [= <-]. apply cstr_clean. cbn [e_message error_context]. auto 10 with clean.
  - intros [? ?] [= <-]. apply cstr_clean. cbn [e_message error_type]. auto 10 with clean.
  - intros (? & ? & ?). rewrite what_caused. intros [= <-]. rewrite (what_made _ _ (what_caused t g c)). apply cstr_clean. destruct c; cbn [e_message error_cause error_cause_context]; auto 12 with clean.
Qed.
Lemma chain f g : clean_failure f -> origin g f -> occurs (what g) (what f).
Proof.
  intros C O. induction O as [f|t h c g O IH]; [apply occurs_refl|]. destruct C as (C1 & C2 & C3).
  eapply occurs_trans; [apply IH, C2|]. rewrite (whole (Caused t h c) _ (conj C1 (conj C2 C3)) (what_caused t h c)).
  destruct c; cbn [e_message error_cause error_cause_context]; do 3 apply occurs_cons; apply occurs_here.
Qed.
Lemma says f e : made f = Some e -> type_of f = Some (e_type e) /\ context_of f = e_context e /\
  occurs (e_type e) (e_message e) /\ (forall c, e_context e = Some c -> occurs c (e_message e)).
Proof.
  destruct f as [w|t [c|]|t g c]; try discriminate.
  - intros [= <-]. split; [reflexivity|]. split; [reflexivity|]. cbn [e_type e_message e_context error_context].
    split; [apply occurs_cons, occurs_here|]. intros d [= <-]. do 3 apply occurs_cons. apply occurs_here.
  - intros [= <-]. split; [reflexivity|]. split; [reflexivity|]. cbn [e_type e_message e_context error_type]. split; [|discriminate]. exists (lit "failed parsing resource of type "), []. rewrite app_nil_r. reflexivity.
  - rewrite what_caused. intros [= <-]. destruct c as [c|]; (split; [reflexivity|]; split; [reflexivity|]; split; [cbn [e_type e_message error_cause error_cause_context]; apply occurs_cons, occurs_here|]); [|discriminate].
    intros d [= <-]. cbn [e_message error_cause_context]. do 5 apply occurs_cons. apply occurs_here.
Qed.
Lemma told f : clean_failure f -> (forall t, type_of f = Some t -> occurs t (what f)) /\ (forall c, context_of f = Some c -> occurs c (what f)).
Proof.
  intros C. destruct (made f) as [e|] eqn:M.
  - rewrite (whole f e C M). destruct (says f e M) as (A & B & D & E). split.
    + intros t. rewrite A. intros [= <-]. exact D.
    + intros c. rewrite B. apply E.
  - apply made_iff in M as (w & ->). split; discriminate.
Qed.
Lemma sliced t g c e : made (Caused t g c) = Some e -> e_cause e = Some std_exception.
Proof. rewrite what_caused. intros [= <-]. destruct c; reflexivity. Qed.
