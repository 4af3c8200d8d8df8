(** Lemmas for C142. *)

From Coq Require Import Lia.
From Verif Require Import MBase MStream MVfs MDaedalus MTransient STransient.
Local Open Scope N_scope.

Lemma is_int_iff : forall s, is_int s = true <-> int_symbol s.
Proof.
  intros s. unfold is_int, int_symbol. rewrite Bool.orb_true_iff, !N.eqb_eq. tauto.
Qed.

Lemma at_new : forall H (h : host H), at_host h none32 (h_type h) = true.
Proof. intros. unfold at_host. rewrite !N.eqb_refl. reflexivity. Qed.

Lemma below : forall a b, a < b -> (b <=? a) = false.
Proof. intros. apply N.leb_gt. assumption. Qed.

Ltac enter := unfold transient, t_get_int, t_get_float, t_get_string, t_set_int, t_set_float, t_set_string; cbn [negb].

Lemma reads : forall H (h : host H) s i x, member_element s i ->
  (int_symbol s -> t_get_int h s i (transient h x) = h_get_int h s i x) /\
  (s_type s = T_FLOAT -> t_get_float h s i (transient h x) = h_get_float h s i x) /\
  (s_type s = T_STRING -> t_get_string h s i (transient h x) = h_get_string h s i x).
Proof.
  intros H h s i x [M C]. enter. rewrite (below _ _ C), M, at_new.
  split; [intros T; apply is_int_iff in T; rewrite T; reflexivity |].
  split; intros T; rewrite T, N.eqb_refl; reflexivity.
Qed.

Lemma stores : forall H (h : host H) s i x, member_element s i ->
  (forall v, int_symbol s -> t_set_int h s v i (transient h x) =
     obind (h_set_int h s i v x) (fun x' => Ret (s, transient h x'))) /\
  (forall v, s_type s = T_FLOAT -> t_set_float h s v i (transient h x) =
     obind (h_set_float h s i v x) (fun x' => Ret (s, transient h x'))) /\
  (forall v, s_type s = T_STRING -> t_set_string h s v i (transient h x) =
     obind (h_set_string h s i v x) (fun x' => Ret (s, transient h x'))).
Proof.
  intros H h s i x [M C]. enter. rewrite (below _ _ C), M, at_new.
  split; [intros v T; apply is_int_iff in T; rewrite T; reflexivity |].
  split; intros v T; rewrite T, N.eqb_refl; reflexivity.
Qed.

Lemma wrong_type : forall H (h : host H) s i c,
  (~ int_symbol s -> t_get_int h s i c = Throw IllegalTypeAccess /\ forall v, t_set_int h s v i c = Throw IllegalTypeAccess) /\
  (s_type s <> T_FLOAT -> t_get_float h s i c = Throw IllegalTypeAccess /\ forall v, t_set_float h s v i c = Throw IllegalTypeAccess) /\
  (s_type s <> T_STRING -> t_get_string h s i c = Throw IllegalTypeAccess /\ forall v, t_set_string h s v i c = Throw IllegalTypeAccess).
Proof.
  intros H h s i c. enter.
  unfold sym_get_int, sym_get_float, sym_get_string, sym_set_int, sym_set_float, sym_set_string.
  change ((s_type s =? T_INT) || (s_type s =? T_FUNCTION))%bool with (is_int s).
  split.
  { intros T. assert (E : is_int s = false) by (destruct (is_int s) eqn:E; [apply is_int_iff in E; contradiction | reflexivity]).
    rewrite E. destruct c; split; intros; reflexivity. }
  split; intros T; apply N.eqb_neq in T; rewrite T; destruct c; split; intros; reflexivity.
Qed.

Lemma outside : forall H (h : host H) s i c, s_count s <= i ->
  (int_symbol s -> t_get_int h s i c = Throw IllegalIndexAccess /\ forall v, t_set_int h s v i c = Throw IllegalIndexAccess) /\
  (s_type s = T_FLOAT -> t_get_float h s i c = Throw IllegalIndexAccess /\ forall v, t_set_float h s v i c = Throw IllegalIndexAccess) /\
  (s_type s = T_STRING -> t_get_string h s i c = Throw IllegalIndexAccess /\ forall v, t_set_string h s v i c = Throw IllegalIndexAccess).
Proof.
  intros H h s i c C. apply N.leb_le in C. enter.
  unfold sym_get_int, sym_get_float, sym_get_string, sym_set_int, sym_set_float, sym_set_string.
  change ((s_type s =? T_INT) || (s_type s =? T_FUNCTION))%bool with (is_int s). rewrite C.
  split.
  { intros T. apply is_int_iff in T. rewrite T. destruct c; split; intros; reflexivity. }
  split; intros T; rewrite T, N.eqb_refl; destruct c; split; intros; reflexivity.
Qed.

Lemma upd_ctx : forall A (l : list A) i x k s c s' c', upd_cell l i x k s c = Ret (s', c') -> c' = c.
Proof. intros A l i x k s c s' c'. unfold upd_cell. destruct (i <? len l); congruence. Qed.

Lemma own_reads : forall H (h : host H) s i k t x, is_member s = false ->
  t_get_int h s i (XHost k t x) = t_get_int h s i XNone /\
  t_get_float h s i (XHost k t x) = t_get_float h s i XNone /\
  t_get_string h s i (XHost k t x) = t_get_string h s i XNone.
Proof.
  intros H h s i k t x M. enter. unfold sym_get_int, sym_get_float, sym_get_string, plain.
  change ((s_type s =? T_INT) || (s_type s =? T_FUNCTION))%bool with (is_int s). rewrite M.
  repeat apply conj;
  repeat match goal with |- context [if negb ?b then _ else _] => destruct b; cbn [negb] end;
  destruct (s_count s <=? i); reflexivity.
Qed.

Lemma lift_host : forall H k t (x : H) r s' c', lift (XHost k t x) r = Ret (s', c') -> c' = XHost k t x.
Proof. intros H k t x [[a b] | | |] s' c' E; unfold lift in E; cbn in E; congruence. Qed.

Lemma own_stores : forall H (h : host H) s i k t x s' c', is_member s = false ->
  (forall v, t_set_int h s v i (XHost k t x) = Ret (s', c') -> c' = XHost k t x /\ t_set_int h s v i XNone = Ret (s', XNone)) /\
  (forall v, t_set_float h s v i (XHost k t x) = Ret (s', c') -> c' = XHost k t x /\ t_set_float h s v i XNone = Ret (s', XNone)) /\
  (forall v, t_set_string h s v i (XHost k t x) = Ret (s', c') -> c' = XHost k t x /\ t_set_string h s v i XNone = Ret (s', XNone)).
Proof.
  intros H h s i k t x s' c' M. enter. rewrite M. unfold plain.
  split; [| split]; intros v E;
  repeat match type of E with context [if ?b then _ else _] => destruct b; try discriminate end;
  (split; [eapply lift_host; exact E |]); unfold lift in *;
  match type of E with obind ?r _ = _ => destruct r as [[a b] | | |]; cbn in *; congruence end.
Qed.

(** An object that has been given a symbol is no longer asked. *)
Lemma bound : forall H (h : host H) s i k t x, k <> none32 -> s_reg s <> Some t -> member_element s i ->
  let e := match s_reg s with None => UnboundMember | Some _ => IllegalContextType end in
  (int_symbol s -> t_get_int h s i (XHost k t x) = Throw e /\ forall v, t_set_int h s v i (XHost k t x) = Throw e) /\
  (s_type s = T_FLOAT -> t_get_float h s i (XHost k t x) = Throw e /\ forall v, t_set_float h s v i (XHost k t x) = Throw e) /\
  (s_type s = T_STRING -> t_get_string h s i (XHost k t x) = Throw e /\ forall v, t_set_string h s v i (XHost k t x) = Throw e).
Proof.
  intros H h s i k t x K R [M C] e. apply N.eqb_neq in K.
  assert (F : forall A, @host_member A s t = Throw e).
  { intros A. unfold host_member, e. destruct (s_reg s) as [r |]; [| reflexivity].
    destruct (N.eqb_spec r t); [subst; contradiction | reflexivity]. }
  enter. rewrite (below _ _ C), M. unfold at_host. rewrite K. cbn [andb].
  split; [intros T; apply is_int_iff in T; rewrite T; cbn [negb]; split; [apply F | intros; apply F] |].
  split; intros T; rewrite T, N.eqb_refl; cbn [negb]; (split; [apply F | intros; apply F]).
Qed.

Lemma history : forall H (h : host H), keeps h -> forall l x, Forall proper l ->
  exists x', puts h l (transient h x) = Ret (transient h x') /\
    (forall s i, h_get_int h s i x' = last_int l s i (h_get_int h s i x)) /\
    (forall s i, h_get_float h s i x' = last_float l s i (h_get_float h s i x)) /\
    (forall s i, h_get_string h s i x' = last_string l s i (h_get_string h s i x)).
Proof.
  intros H h K l. induction l as [| o l IH]; intros x F; [exists x; cbn; auto |].
  inversion F as [| ? ? P F']; subst. cbn [puts]. unfold put.
  destruct o as [s i v | s i v | s i v]; cbn in P; destruct P as [T M];
    destruct (stores H h s i x M) as (S1 & S2 & S3).
  - rewrite (S1 v T). destruct (k_int h K s i v x) as (x1 & E & G1 & G2 & G3). rewrite E. cbn [obind snd].
    destruct (IH x1 F') as (x' & E' & A1 & A2 & A3). exists x'. split; [exact E' |].
    cbn [last_int last_float last_string].
    split; [intros; rewrite A1, G1; reflexivity |]. split; intros; [rewrite A2, G2 | rewrite A3, G3]; reflexivity.
  - rewrite (S2 v T). destruct (k_float h K s i v x) as (x1 & E & G1 & G2 & G3). rewrite E. cbn [obind snd].
    destruct (IH x1 F') as (x' & E' & A1 & A2 & A3). exists x'. split; [exact E' |].
    cbn [last_int last_float last_string].
    split; [intros; rewrite A1, G2; reflexivity |]. split; intros; [rewrite A2, G1 | rewrite A3, G3]; reflexivity.
  - rewrite (S3 v T). destruct (k_string h K s i v x) as (x1 & E & G1 & G2 & G3). rewrite E. cbn [obind snd].
    destruct (IH x1 F') as (x' & E' & A1 & A2 & A3). exists x'. split; [exact E' |].
    cbn [last_int last_float last_string].
    split; [intros; rewrite A1, G2; reflexivity |]. split; intros; [rewrite A2, G3 | rewrite A3, G1]; reflexivity.
Qed.

Lemma kept : forall H (h : host H) l x, keeps h -> Forall proper l ->
  exists c, puts h l (transient h x) = Ret c /\ forall s i, member_element s i ->
    (int_symbol s -> t_get_int h s i c = last_int l s i (t_get_int h s i (transient h x))) /\
    (s_type s = T_FLOAT -> t_get_float h s i c = last_float l s i (t_get_float h s i (transient h x))) /\
    (s_type s = T_STRING -> t_get_string h s i c = last_string l s i (t_get_string h s i (transient h x))).
Proof.
  intros H h l x K F. destruct (history H h K l x F) as (x' & E & A1 & A2 & A3).
  exists (transient h x'). split; [exact E |]. intros s i M.
  destruct (reads H h s i x' M) as (R1 & R2 & R3). destruct (reads H h s i x M) as (Q1 & Q2 & Q3).
  split; [intros T; rewrite (R1 T), (Q1 T); apply A1 |].
  split; intros T; [rewrite (R2 T), (Q2 T); apply A2 | rewrite (R3 T), (Q3 T); apply A3].
Qed.

Lemma last_int_app : forall l m s i o, last_int (l ++ m) s i o = last_int m s i (last_int l s i o).
Proof. induction l as [| [] l IH]; intros; cbn; auto. Qed.
Lemma last_float_app : forall l m s i o, last_float (l ++ m) s i o = last_float m s i (last_float l s i o).
Proof. induction l as [| [] l IH]; intros; cbn; auto. Qed.
Lemma last_string_app : forall l m s i o, last_string (l ++ m) s i o = last_string m s i (last_string l s i o).
Proof. induction l as [| [] l IH]; intros; cbn; auto. Qed.

Lemma log_keeps : keeps log_host.
Proof.
  split; intros s i v x; cbn; eexists; (split; [reflexivity |]);
  (split; [| split]); intros; rewrite ?last_int_app, ?last_float_app, ?last_string_app; reflexivity.
Qed.
