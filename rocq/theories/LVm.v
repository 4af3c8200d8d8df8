(** What every computation of the virtual machine preserves: the shape of the symbol table,
    the stack below the running function, the bounds of the stack. *)

From Coq Require Import Lia.
From Verif Require Import MBase LBase MStream MDaedalus MVm.
Local Open Scope N_scope.
Local Open Scope v_scope.
Ltac Zify.zify_post_hook ::= idtac.

(* ------------------------------------------------------------------ *)
(** * Relations *)

Definition shape1 (x : sym) : sym := with_val x (SInts []).
Definition shape2 (x : sym) : sym := with_grown x (SInts []) 0.

Record static (s s' : vm) : Prop := mkStatic {
  st_len : len (v_syms s') = len (v_syms s);
  st_sym : forall i, i <> v_tmp s -> option_map shape1 (nth_N (v_syms s') i) = option_map shape1 (nth_N (v_syms s) i);
  st_tmp : option_map shape2 (nth_N (v_syms s') (v_tmp s)) = option_map shape2 (nth_N (v_syms s) (v_tmp s));
  st_tmpi : v_tmp s' = v_tmp s;
  st_names : v_names s' = v_names s;
  st_addrs : v_addrs s' = v_addrs s;
  st_flags : v_flags s' = v_flags s;
  st_glob : v_glob s' = v_glob s;
  st_data : rdata (v_text s') = rdata (v_text s) }.

(** A function that returns something has the type of a value. *)
Definition value_type (t : N) : Prop := t = T_FLOAT \/ t = T_INT \/ t = T_STRING \/ t = T_FUNCTION \/ t = T_INSTANCE.
Definition table_ok (s : vm) : Prop :=
  len (v_syms s) < 2 ^ 19 /\
  (forall i x, nth_N (v_syms s) i = Some x -> i <> v_tmp s -> s_count x <= 4095) /\
  (forall i x, nth_N (v_syms s) i = Some x -> has_return x = true -> value_type (s_rtype x)) /\
  (exists x, nth_N (v_syms s) (v_tmp s) = Some x /\ s_name x = s_name temp_symbol).

Record Inv (s : vm) : Prop := mkInv {
  inv_table : table_ok s;
  inv_sp : v_sp s <= stack_size;
  inv_slots : forall i, i < v_sp s -> v_slots s i <> None;
  inv_calls : forall c, In c (v_calls s) -> c_sp c <= stack_size /\ forall i, i < c_sp c -> v_slots s i <> None }.

Definition clean (s : vm) : Prop := under s = false /\ wrapped s = false /\ stale s = false.
Record Framed (s : vm) : Prop := mkFramed {
  fr_inv : Inv s;
  fr_floor : floor s <= v_sp s;
  fr_calls : forall c, In c (v_calls s) -> c_floor c <= c_sp c }.

Record mono (s s' : vm) : Prop := mkMono {
  mo_static : static s s';
  mo_slots : forall i, v_slots s i <> None -> v_slots s' i <> None;
  mo_under : under s = true -> under s' = true;
  mo_wrap : wrapped s = true -> wrapped s' = true;
  mo_stale : stale s = true -> stale s' = true;
  mo_inv : Inv s -> wrapped s' = false -> Inv s' }.

Definition below (s s' : vm) : Prop := forall i, i < floor s -> v_slots s' i = v_slots s i.

Definition Rn (s s' : vm) : Prop :=
  mono s s' /\
  (clean s' -> Framed s ->
   Framed s' /\ v_calls s' = v_calls s /\ floor s' = floor s /\ below s s').
Definition Rx (s s' : vm) : Prop :=
  mono s s' /\
  (clean s' -> Framed s ->
   Framed s' /\ floor s <= floor s' /\ below s s' /\
   exists extra, v_calls s' = extra ++ v_calls s /\ (extra = [] -> floor s' = floor s)).
Definition Ru (k : ub) (s s' : vm) : Prop :=
  mono s s' /\
  (Inv s -> wrapped s' = false -> k <> StackIndet /\ (k = StackOob -> under s' = true)).

Definition okr {A} (s : vm) (r : vres A) : Prop :=
  match r with
  | VRet _ s' => Rn s s'
  | VExc _ s' => Rx s s'
  | VUndef k s' => Ru k s s'
  | VFuel => True
  end.
Definition keeps {A} (m : V A) : Prop := forall s, okr s (m s).

(* ------------------------------------------------------------------ *)
(** * Algebra *)

Lemma static_refl s : static s s.
Proof. constructor; reflexivity. Qed.
Lemma static_trans a b c : static a b -> static b c -> static a c.
Proof.
  intros [] []. constructor; try congruence.
  intros i H. rewrite st_sym1, st_sym0; congruence.
Qed.

Lemma mono_refl s : mono s s.
Proof. constructor; auto using static_refl. Qed.
Lemma not_true b : b <> true -> b = false. Proof. destruct b; congruence. Qed.
Lemma mono_wrap_false s s' : mono s s' -> wrapped s' = false -> wrapped s = false.
Proof. intros [] H. destruct (wrapped s) eqn:E; auto. rewrite mo_wrap0 in H; auto. Qed.
Lemma mono_clean s s' : mono s s' -> clean s' -> clean s.
Proof.
  intros [] (H1 & H2 & H3). split; [|split].
  - destruct (under s) eqn:E; auto. rewrite mo_under0 in H1; auto.
  - destruct (wrapped s) eqn:E; auto. rewrite mo_wrap0 in H2; auto.
  - destruct (stale s) eqn:E; auto. rewrite mo_stale0 in H3; auto.
Qed.
Lemma mono_trans a b c : mono a b -> mono b c -> mono a c.
Proof.
  intros H1 H2. pose proof (mono_wrap_false _ _ H2) as W. destruct H1, H2.
  constructor; eauto using static_trans.
Qed.

Lemma below_trans a b c : below a b -> below b c -> floor a <= floor b -> below a c.
Proof. unfold below. intros H1 H2 L i Hi. rewrite H2 by lia. auto. Qed.

Lemma Rn_refl s : Rn s s.
Proof. split; [apply mono_refl|]. intros _ H. split; [exact H|]. repeat split; auto. Qed.
Lemma Rn_Rx s s' : Rn s s' -> Rx s s'.
Proof.
  intros [M H]. split; [exact M|]. intros C L. destruct (H C L) as (a & b & c & d).
  split; [exact a|]. split; [lia|]. split; [exact d|]. exists []. auto.
Qed.
Lemma Rn_trans a b c : Rn a b -> Rn b c -> Rn a c.
Proof.
  intros [M1 H1] [M2 H2]. split; [eauto using mono_trans|]. intros C L.
  destruct (H1 (mono_clean _ _ M2 C) L) as (A1 & A2 & A3 & A4).
  destruct (H2 C A1) as (B1 & B2 & B3 & B4).
  split; [exact B1|]. repeat split; try congruence. eapply below_trans; eauto; lia.
Qed.
Lemma Rx_trans a b c : Rx a b -> Rx b c -> Rx a c.
Proof.
  intros [M1 H1] [M2 H2]. split; [eauto using mono_trans|]. intros C L.
  destruct (H1 (mono_clean _ _ M2 C) L) as (A1 & A2 & A3 & e1 & A4 & A5).
  destruct (H2 C A1) as (B1 & B2 & B3 & e2 & B4 & B5).
  split; [exact B1|]. split; [lia|]. split; [eapply below_trans; eauto|].
  exists (e2 ++ e1). split.
  - rewrite B4, A4, app_assoc. reflexivity.
  - intros E. apply app_eq_nil in E as [-> ->]. rewrite B5, A5; auto.
Qed.
Lemma Rnx_trans a b c : Rn a b -> Rx b c -> Rx a c.
Proof. eauto using Rx_trans, Rn_Rx. Qed.
Lemma Rxn_trans a b c : Rx a b -> Rn b c -> Rx a c.
Proof. eauto using Rx_trans, Rn_Rx. Qed.
Lemma Ru_mono a b c k : mono a b -> Ru k b c -> Ru k a c.
Proof.
  intros M [M2 H]. split; [eauto using mono_trans|]. intros I W. apply H; auto.
  apply (mo_inv _ _ M I). apply (mono_wrap_false _ _ M2 W).
Qed.

Lemma keeps_ret {A} (a : A) : keeps (vret a).
Proof. intro s. apply Rn_refl. Qed.
Lemma keeps_throw {A} e : keeps (@vthrow A e).
Proof. intro s. apply Rn_Rx, Rn_refl. Qed.
Lemma keeps_undef {A} k : k <> StackOob -> k <> StackIndet -> keeps (@vundef A k).
Proof. intros H1 H2 s. split; [apply mono_refl|]. intros. split; congruence. Qed.
Lemma keeps_get : keeps vget.
Proof. intro s. apply Rn_refl. Qed.
Lemma keeps_fuel {A} : keeps (fun _ => @VFuel A).
Proof. intro s. exact I. Qed.

Lemma okr_seq {A} s s' (r : vres A) : Rn s s' -> okr s' r -> okr s r.
Proof.
  intros H. destruct r; cbn; intros H'; auto.
  - eauto using Rn_trans.
  - eauto using Rnx_trans.
  - eapply Ru_mono; eauto. apply H.
Qed.
Lemma okr_bind {A B} (m : V A) (k : A -> V B) s :
  okr s (m s) -> (forall a s', m s = VRet a s' -> okr s' (k a s')) -> okr s (vbind m k s).
Proof.
  unfold vbind. destruct (m s) eqn:E; cbn; intros H H'; auto.
  eapply okr_seq; eauto.
Qed.
Lemma keeps_bind {A B} (m : V A) (k : A -> V B) : keeps m -> (forall a, keeps (k a)) -> keeps (vbind m k).
Proof. intros H1 H2 s. apply okr_bind; [apply H1|]. intros. apply H2. Qed.
Lemma keeps_if {A} (b : bool) (m n : V A) : keeps m -> keeps n -> keeps (if b then m else n).
Proof. destruct b; auto. Qed.
Lemma keeps_iter {A} (f : A -> V unit) l : (forall a, keeps (f a)) -> keeps (viter f l).
Proof. intros H. induction l; cbn; [apply keeps_ret|]. apply keeps_bind; auto. Qed.
Lemma keeps_lift {A} (o : outcome A) : keeps (vlift o).
Proof.
  intro s. unfold vlift. destruct o; cbn.
  - apply Rn_refl.
  - apply Rn_Rx, Rn_refl.
  - split; [apply mono_refl|]. split; congruence.
  - exact I.
Qed.

(* ------------------------------------------------------------------ *)
(** * Computations that leave the stack alone *)

Record quiet (s s' : vm) : Prop := mkQuiet {
  q_static : static s s';
  q_slots : v_slots s' = v_slots s;
  q_sp : v_sp s' = v_sp s;
  q_calls : v_calls s' = v_calls s;
  q_ghost : v_ghost s' = v_ghost s }.

Lemma quiet_refl s : quiet s s.
Proof. constructor; auto using static_refl. Qed.
Lemma quiet_trans a b c : quiet a b -> quiet b c -> quiet a c.
Proof. intros [] []. constructor; try congruence. eauto using static_trans. Qed.

Lemma static_table s s' : static s s' -> table_ok s -> table_ok s'.
Proof.
  intros S (T1 & T2 & T3 & T4).
  assert (F : forall i x', nth_N (v_syms s') i = Some x' ->
             exists x, nth_N (v_syms s) i = Some x /\ shape2 x' = shape2 x /\
               (i <> v_tmp s -> s_count x' = s_count x)).
  { intros i x' H. destruct (N.eq_dec i (v_tmp s)) as [->|E].
    - pose proof (st_tmp _ _ S) as Q. rewrite H in Q.
      destruct (nth_N (v_syms s) (v_tmp s)) as [x|]; [|discriminate].
      exists x. injection Q. intros; repeat split; congruence || (unfold shape2, with_grown; congruence).
    - pose proof (st_sym _ _ S i E) as Q. rewrite H in Q.
      destruct (nth_N (v_syms s) i) as [x|]; [|discriminate].
      exists x. injection Q. intros; repeat split; congruence || (unfold shape2, with_grown; congruence). }
  repeat split.
  - rewrite (st_len _ _ S). exact T1.
  - intros i x' H E. rewrite (st_tmpi _ _ S) in E. destruct (F _ _ H) as (x & A & B & C).
    rewrite C by auto. eauto.
  - intros i x' H E. destruct (F _ _ H) as (x & A & B & C). injection B. intros.
    assert (Q : s_rtype x' = s_rtype x) by congruence. rewrite Q. eapply T3; eauto.
    revert E. unfold has_return, has_flag. congruence.
  - destruct T4 as (x & A & B). rewrite (st_tmpi _ _ S). pose proof (st_tmp _ _ S) as Q. rewrite A in Q.
    destruct (nth_N (v_syms s') (v_tmp s)) as [x'|]; [|discriminate]. exists x'.
    injection Q. intros. split; congruence.
Qed.

Lemma quiet_Rn s s' : quiet s s' -> Rn s s'.
Proof.
  intros [S A B C D]. unfold Rn.
  assert (G : under s' = under s /\ wrapped s' = wrapped s /\ stale s' = stale s /\ floor s' = floor s)
    by (unfold under, wrapped, stale, floor; rewrite D; auto).
  destruct G as (G1 & G2 & G3 & G4).
  assert (II : Inv s -> Inv s').
  { intros []. constructor; rewrite ?A, ?B, ?C; eauto using static_table. }
  split.
  - constructor; try congruence; auto.
  - intros _ [L1 L2 L3]. unfold below. rewrite A, C, G4. split; auto.
    constructor; auto; [rewrite B, G4; auto|rewrite C; auto].
Qed.

Definition calm {A} (m : V A) : Prop := forall s,
  match m s with
  | VRet _ s' | VExc _ s' => quiet s s'
  | VUndef k s' => quiet s s' /\ k <> StackOob /\ k <> StackIndet
  | VFuel => True
  end.
Lemma calm_keeps {A} (m : V A) : calm m -> keeps m.
Proof.
  intros H s. specialize (H s). destruct (m s); cbn; auto using quiet_Rn, Rn_Rx.
  destruct H as (Q & H1 & H2). split; [apply (quiet_Rn _ _ Q)|]. intros. split; [exact H2|congruence].
Qed.
Lemma calm_ret {A} (a : A) : calm (vret a). Proof. intro s. apply quiet_refl. Qed.
Lemma calm_throw {A} e : calm (@vthrow A e). Proof. intro s. apply quiet_refl. Qed.
Lemma calm_undef {A} k : k <> StackOob -> k <> StackIndet -> calm (@vundef A k).
Proof. intros H1 H2 s. cbn. auto using quiet_refl. Qed.
Lemma calm_get : calm vget. Proof. intro s. apply quiet_refl. Qed.
Lemma calm_lift {A} (o : outcome A) : calm (vlift o).
Proof. intro s. destruct o; cbn; auto using quiet_refl. split; [apply quiet_refl|split; discriminate]. Qed.
Lemma calm_bind_at {A B} (m : V A) (k : A -> V B) s :
  calm m -> (forall a s', m s = VRet a s' ->
     match k a s' with
     | VRet _ s'' | VExc _ s'' => quiet s' s''
     | VUndef u s'' => quiet s' s'' /\ u <> StackOob /\ u <> StackIndet
     | VFuel => True end) ->
  match vbind m k s with
  | VRet _ s' | VExc _ s' => quiet s s'
  | VUndef u s' => quiet s s' /\ u <> StackOob /\ u <> StackIndet
  | VFuel => True
  end.
Proof.
  intros H1 H2. unfold vbind. specialize (H1 s). destruct (m s) eqn:E; auto.
  specialize (H2 _ _ eq_refl). destruct (k a s0); eauto using quiet_trans.
  destruct H2 as (Q & ? & ?). split; [eauto using quiet_trans|split; assumption].
Qed.
Lemma calm_bind {A B} (m : V A) (k : A -> V B) : calm m -> (forall a, calm (k a)) -> calm (vbind m k).
Proof. intros H1 H2 s. apply calm_bind_at; auto. intros. apply H2. Qed.
Lemma calm_if {A} (b : bool) (m n : V A) : calm m -> calm n -> calm (if b then m else n).
Proof. destruct b; auto. Qed.
Lemma calm_iter {A} (f : A -> V unit) l : (forall a, calm (f a)) -> calm (viter f l).
Proof. intros H. induction l; cbn; [apply calm_ret|]. apply calm_bind; auto. Qed.
Lemma calm_mod f : (forall s, quiet s (f s)) -> calm (vmod f).
Proof. intros H s. cbn. auto. Qed.

Lemma calm_sym i : calm (the_sym i).
Proof. intro s. unfold the_sym. destruct (nth_N _ _); [apply quiet_refl|]. split; [apply quiet_refl|split; discriminate]. Qed.
Lemma calm_ctx c : calm (the_ctx c).
Proof.
  intro s. unfold the_ctx. destruct c; [|apply quiet_refl].
  destruct (nth_N _ _); [apply quiet_refl|]. split; [apply quiet_refl|split; discriminate].
Qed.
Lemma quiet_inst x s : quiet s (set_inst x s). Proof. constructor; auto. constructor; auto. Qed.
Lemma quiet_pc x s : quiet s (set_pc x s). Proof. constructor; auto. constructor; auto. Qed.
Lemma quiet_free x s : quiet s (set_free x s). Proof. constructor; auto. constructor; auto. Qed.
Lemma quiet_heap x s : quiet s (set_heap x s). Proof. constructor; auto. constructor; auto. Qed.
Lemma quiet_text x s : rdata x = rdata (v_text s) -> quiet s (set_text x s).
Proof. intros. constructor; auto. constructor; auto. Qed.

Lemma nth_set_nth {A} (l : list A) n m x :
  nth_error (set_nth l n x) m = if Nat.eqb m n then (if Nat.ltb n (length l) then Some x else None) else nth_error l m.
Proof.
  revert n m. induction l as [|a l IH]; intros n m.
  - cbn. destruct m, n; cbn; auto; destruct (Nat.eqb m n); auto.
  - destruct n, m; cbn; auto. rewrite IH. reflexivity.
Qed.
Lemma set_nth_length {A} (l : list A) n x : length (set_nth l n x) = length l.
Proof. revert n. induction l; intros [|n]; cbn; auto. Qed.
Lemma set_N_len {A} (l : list A) n x : len (set_N l n x) = len l.
Proof. unfold set_N, len. destruct (n <? _); rewrite ?set_nth_length; auto. Qed.
Lemma nth_set_N {A} (l : list A) n m x :
  nth_N (set_N l n x) m = if m =? n then (if n <? len l then Some x else None) else nth_N l m.
Proof.
  unfold nth_N. rewrite set_N_len. unfold set_N.
  destruct (n <? len l) eqn:E.
  - rewrite nth_set_nth. destruct (m =? n) eqn:F.
    + apply N.eqb_eq in F. subst. rewrite E, Nat.eqb_refl.
      replace (Nat.ltb _ _) with true; auto. symmetry. apply Nat.ltb_lt. apply N.ltb_lt in E. unfold len in E. lia.
    + apply N.eqb_neq in F. replace (Nat.eqb _ _) with false by (symmetry; apply Nat.eqb_neq; lia). reflexivity.
  - destruct (m =? n) eqn:F; auto. apply N.eqb_eq in F. subst. rewrite E. reflexivity.
Qed.
Lemma nth_N_lt {A} (l : list A) n x : nth_N l n = Some x -> n < len l.
Proof. unfold nth_N. destruct (n <? len l) eqn:E; [|discriminate]. intros. apply N.ltb_lt, E. Qed.

Lemma quiet_put_sym s i x x' :
  nth_N (v_syms s) i = Some x -> (if i =? v_tmp s then shape2 x' = shape2 x else shape1 x' = shape1 x) ->
  quiet s (set_syms (set_N (v_syms s) i x') s).
Proof.
  intros H1 H2. constructor; auto. pose proof (nth_N_lt _ _ _ H1) as L. apply N.ltb_lt in L.
  constructor; auto; cbn [v_syms set_syms].
  - apply set_N_len.
  - intros j E. rewrite nth_set_N. destruct (j =? i) eqn:F; auto. apply N.eqb_eq in F. subst.
    rewrite L, H1. apply N.eqb_neq in E. rewrite E in H2. cbn. congruence.
  - rewrite nth_set_N. destruct (v_tmp s =? i) eqn:F; auto. apply N.eqb_eq in F. subst.
    rewrite L, H1. rewrite N.eqb_refl in H2. cbn. congruence.
Qed.

Lemma shape_with_val x v : shape1 (with_val x v) = shape1 x. Proof. reflexivity. Qed.
Lemma shape12 x y : shape1 x = shape1 y -> shape2 x = shape2 y.
Proof. unfold shape1, shape2, with_val, with_grown. intros H. injection H. intros. congruence. Qed.

Lemma obind_ret {A B} (o : outcome A) (k : A -> outcome B) b : obind o k = Ret b -> exists a, o = Ret a /\ k a = Ret b.
Proof. destruct o; cbn; try discriminate. eauto. Qed.

Definition keeps_shape (f : sym -> option inst -> outcome (sym * option inst)) : Prop :=
  forall x n x' n', f x n = Ret (x', n') -> shape1 x' = shape1 x.
Lemma set_int_shape v idx : keeps_shape (fun x n => sym_set_int x v idx n).
Proof.
  intros x n x' n'. unfold sym_set_int, upd_cell.
  repeat (match goal with |- context [if ?b then _ else _] => destruct b | |- context [match ?b with _ => _ end] => destruct b end; try discriminate).
  1: intros H; apply obind_ret in H as (? & ? & H); apply obind_ret in H as (? & ? & H); injection H; intros; subst; auto.
  all: intros H; injection H; intros; subst; reflexivity.
Qed.
Lemma set_float_shape v idx : keeps_shape (fun x n => sym_set_float x v idx n).
Proof.
  intros x n x' n'. unfold sym_set_float, upd_cell.
  repeat (match goal with |- context [if ?b then _ else _] => destruct b | |- context [match ?b with _ => _ end] => destruct b end; try discriminate).
  1: intros H; apply obind_ret in H as (? & ? & H); apply obind_ret in H as (? & ? & H); injection H; intros; subst; auto.
  all: intros H; injection H; intros; subst; reflexivity.
Qed.
Lemma set_string_shape v idx : keeps_shape (fun x n => sym_set_string x v idx n).
Proof.
  intros x n x' n'. unfold sym_set_string, upd_cell.
  repeat (match goal with |- context [if ?b then _ else _] => destruct b | |- context [match ?b with _ => _ end] => destruct b end; try discriminate).
  1: intros H; apply obind_ret in H as (? & ? & H); apply obind_ret in H as (? & ? & H); injection H; intros; subst; auto.
  all: intros H; injection H; intros; subst; reflexivity.
Qed.

Lemma calm_put_ctx c n : calm (put_ctx c n).
Proof. unfold put_ctx. destruct c, n; try apply calm_ret. apply calm_mod. intros. apply quiet_heap. Qed.
Lemma calm_wr_sym i c f : keeps_shape f -> calm (wr_sym i c f).
Proof.
  intros K s. unfold wr_sym. apply calm_bind_at; [apply calm_sym|]. intros x s1 E1.
  apply calm_bind_at; [apply calm_ctx|]. intros n s2 E2.
  apply calm_bind_at; [apply calm_lift|]. intros [x' n'] s3 E3.
  unfold the_sym in E1. destruct (nth_N (v_syms s) i) as [y|] eqn:Y; [|discriminate]. injection E1. intros; subst.
  assert (s2 = s1). { unfold the_ctx in E2. destruct c; [destruct (nth_N (v_heap s1) n0)|]; congruence. } subst.
  unfold vlift in E3. destruct (f x n) eqn:F; try discriminate. injection E3. intros; subst.
  cbn [fst snd]. unfold vbind at 1, put_sym, vmod.
  assert (Q : quiet s3 (set_syms (set_N (v_syms s3) i x') s3)).
  { apply (quiet_put_sym s3 i x); auto. apply K in F. destruct (i =? v_tmp s3); auto using shape12. }
  pose proof (calm_put_ctx c n' (set_syms (set_N (v_syms s3) i x') s3)) as P.
  destruct (put_ctx c n' _); eauto using quiet_trans. destruct P as (? & ? & ?). eauto using quiet_trans.
Qed.
Lemma calm_wr_int i v idx c : calm (wr_int i v idx c). Proof. apply calm_wr_sym, set_int_shape. Qed.
Lemma calm_wr_float i v idx c : calm (wr_float i v idx c). Proof. apply calm_wr_sym, set_float_shape. Qed.
Lemma calm_wr_string i v idx c : calm (wr_string i v idx c). Proof. apply calm_wr_sym, set_string_shape. Qed.
Lemma calm_wr_inst i v : calm (wr_inst i v).
Proof.
  intro s. unfold wr_inst. apply calm_bind_at; [apply calm_sym|]. intros x s1 E1.
  unfold the_sym in E1. destruct (nth_N (v_syms s) i) as [y|] eqn:Y; [|discriminate]. injection E1. intros; subst.
  apply calm_bind_at; [apply calm_lift|]. intros x' s3 E3.
  unfold vlift in E3. destruct (sym_set_inst x v) eqn:F; try discriminate. injection E3. intros; subst.
  cbn. apply (quiet_put_sym _ i x); auto.
  unfold sym_set_inst in F. destruct (negb _); [discriminate|]. destruct (s_val x); try discriminate.
  injection F. intros; subst. destruct (i =? _); reflexivity.
Qed.

Ltac calms :=
  repeat first
    [ apply calm_ret | apply calm_throw | apply calm_get | apply calm_lift | apply calm_sym | apply calm_ctx
    | apply calm_wr_int | apply calm_wr_float | apply calm_wr_string | apply calm_wr_inst
    | (apply calm_undef; discriminate)
    | (apply calm_iter; intros) | (apply calm_bind; [|intros]) | apply calm_if
    | match goal with |- calm (match ?x with _ => _ end) => destruct x end ].

Lemma calm_rd_int i idx c : calm (rd_int i idx c). Proof. unfold rd_int. calms. Qed.
Lemma calm_rd_float i idx c : calm (rd_float i idx c). Proof. unfold rd_float. calms. Qed.
Lemma calm_rd_string i idx c : calm (rd_string i idx c). Proof. unfold rd_string. calms. Qed.
Lemma calm_rd_inst i : calm (rd_inst i). Proof. unfold rd_inst. calms. Qed.
Lemma calm_get_int c i idx : calm (vm_get_int c i idx).
Proof. unfold vm_get_int. calms; apply calm_rd_int. Qed.
Lemma calm_get_float c i idx : calm (vm_get_float c i idx).
Proof. unfold vm_get_float. calms; apply calm_rd_float. Qed.
Lemma calm_guarded c i w : calm w -> calm (guarded_write c i w).
Proof. intros. unfold guarded_write. calms; auto. Qed.
Lemma calm_mark i : calm (mark_free_string i).
Proof. apply calm_mod. intros. apply quiet_free. Qed.

Lemma grow_shape x n x' : sym_grow x n = Ret x' -> shape2 x' = shape2 x.
Proof.
  unfold sym_grow. destruct (s_val x); try discriminate;
  destruct (_ && _); try discriminate; intros H; injection H; intros; subst; reflexivity.
Qed.
Lemma calm_get_free : calm get_free_string.
Proof.
  intro s. unfold get_free_string.
  assert (T : forall t : vm, calm (let! s0 := vget in
     match v_free s0 with [] => vundef ValueUB | i :: r => vmod (set_free r) ;! vret i end)).
  { intros _. calms. apply calm_mod. intros. apply quiet_free. }
  apply calm_bind_at; [apply calm_get|]. intros t s1 E. injection E as <- <-.
  destruct (v_free s) eqn:F.
  - assert (P : match (let! t := the_sym (v_tmp s) in
       let! t' := vlift (sym_grow t (u32 (s_count t * 2))) in
       put_sym (v_tmp s) t' ;!
       vmod (fun s => set_free (rev (map (fun k => s_count t + N.of_nat k) (seq 0 (N.to_nat (s_count t' - s_count t)))) ++ v_free s) s)) s with
       | VRet _ s' | VExc _ s' => quiet s s'
       | VUndef u s' => quiet s s' /\ u <> StackOob /\ u <> StackIndet
       | VFuel => True end).
    { apply calm_bind_at; [apply calm_sym|]. intros x s2 E2. unfold the_sym in E2.
      destruct (nth_N (v_syms s) (v_tmp s)) eqn:Y; [|discriminate]. injection E2 as -> <-.
      apply calm_bind_at; [apply calm_lift|]. intros x' s3 E3. unfold vlift in E3.
      destruct (sym_grow x _) eqn:G; try discriminate. injection E3 as -> <-.
      cbn. eapply quiet_trans; [apply (quiet_put_sym _ (v_tmp s) x x'); auto; rewrite N.eqb_refl; eapply grow_shape; eauto|].
      apply quiet_free. }
    cbv zeta. unfold vbind at 1. match type of P with match ?m with _ => _ end => change m with ((fun s => m) s) in P end.
    match goal with |- match match ?m with _ => _ end with _ => _ end => destruct m eqn:E end; auto.
    pose proof (T s0 s0) as T1. cbv beta. match goal with |- match ?m with _ => _ end => destruct m eqn:E' end; eauto using quiet_trans.
    destruct T1 as (? & ? & ?). eauto using quiet_trans.
  - unfold vbind at 1, vret at 1. apply (T s s).
Qed.

(* ------------------------------------------------------------------ *)
(** * The stack *)

(** States that differ in the stack only. *)
Lemma static_stack x p s : static s (set_stack x p s). Proof. constructor; auto. Qed.

Lemma keeps_push f : keeps (push_frame f).
Proof.
  intro s. unfold push_frame. destruct (v_sp s =? stack_size) eqn:E; [apply Rn_Rx, Rn_refl|].
  apply N.eqb_neq in E. destruct (stack_size <=? v_sp s) eqn:F.
  - split; [apply mono_refl|]. intros I _. apply N.leb_le in F. destruct I. lia.
  - apply N.leb_gt in F.
    assert (U : u16 (v_sp s + 1) = v_sp s + 1).
    { unfold u16. apply N.mod_small. unfold stack_size in F. change (2 ^ 16) with 65536. lia. }
    assert (W : forall i, v_slots s i <> None -> upd (v_slots s) (v_sp s) (Some f) i <> None).
    { intros i. unfold upd. destruct (i =? _); congruence. }
    assert (II : Inv s -> Inv (set_stack (upd (v_slots s) (v_sp s) (Some f)) (u16 (v_sp s + 1)) s)).
    { intros [T1 T2 T3 T4]. rewrite U. constructor; cbn.
      * exact (static_table _ _ (static_stack _ _ _) T1).
      * lia.
      * intros i Hi. unfold upd. destruct (i =? v_sp s) eqn:G; [congruence|]. apply N.eqb_neq in G. apply T3. lia.
      * intros c Hc. destruct (T4 c Hc). split; auto. }
    split.
    + constructor; auto using static_stack.
    + intros _ [L1 L L3]. split; [constructor; auto|]. { cbn. rewrite U. unfold floor in *. cbn. lia. }
      cbn. repeat split; auto.
      intros i Hi. cbn in *. unfold upd. replace (i =? v_sp s) with false; auto. symmetry. apply N.eqb_neq. lia.
Qed.

Lemma keeps_slot i : (forall s, Inv s -> i < v_sp s) -> keeps (slot i).
Proof.
  intros H s. unfold slot. destruct (stack_size <=? i) eqn:E.
  - split; [apply mono_refl|]. intros I _. apply N.leb_le in E. specialize (H s I). destruct I. lia.
  - destruct (v_slots s i) eqn:F; [apply Rn_refl|].
    split; [apply mono_refl|]. intros I _. destruct (inv_slots _ I i (H s I) F).
Qed.

Lemma okr_pop s : v_sp s <> 0 -> okr s (pop_frame s).
Proof.
  intros Z. unfold pop_frame, vbind at 1, note_pop, vmod at 1, vbind at 1, vget.
  unfold vbind at 1, slot. cbn [v_sp note_under set_ghost v_slots].
  assert (SP : forall b, static s (note_under b s)) by (intros; constructor; auto).
  assert (M : mono s (note_under (v_sp s <=? floor s) s)).
  { constructor; auto.
    - unfold under; cbn; intros ->. reflexivity.
    - intros [T1 T2 T3 T4] W. constructor; auto. }
  destruct (stack_size <=? v_sp s - 1) eqn:E.
  { split; [exact M|]. intros I _. apply N.leb_le in E. destruct I. lia. }
  destruct (v_slots s (v_sp s - 1)) as [f|] eqn:F.
  - set (s' := set_stack (upd (v_slots s) (v_sp s - 1) (Some (moved f))) (v_sp s - 1) (note_under (v_sp s <=? floor s) s)).
    assert (IP : Inv s -> Inv s').
    { intros [T1 T2 T3 T4]. constructor; cbn.
        -- exact (static_table s _ (ltac:(constructor; auto)) T1).
        -- lia.
        -- intros i Hi. unfold upd. destruct (i =? _); [congruence|]. apply T3. lia.
        -- intros c Hc. destruct (T4 c Hc) as [A B]. split; auto. intros i Hi. unfold upd. destruct (i =? _); [congruence|]. auto. }
    change (Rn s s'). split.
    + constructor; cbn.
      * constructor; auto.
      * intros i. unfold upd. destruct (i =? _); congruence.
      * unfold under; cbn; intros ->. reflexivity.
      * auto.
      * auto.
      * intros II W. apply (IP II).
    + intros C [L1 L L3]. unfold clean, under, wrapped, stale in C. cbn in C. destruct C as (C & _). apply orb_false_iff in C as [_ C].
      unfold floor in C. apply N.leb_gt in C. split; [constructor; auto|]. { cbn. unfold floor in *. cbn. lia. }
      cbn. repeat split; auto. intros i Hi. cbn. unfold upd. replace (i =? v_sp s - 1) with false; auto.
      symmetry. apply N.eqb_neq. unfold floor in Hi. lia.
  - split; [exact M|]. intros I _. destruct (inv_slots _ I (v_sp s - 1)); auto. lia.
Qed.

Lemma keeps_unless_empty {A} (m : V A) (d : V A) :
  (forall s, v_sp s <> 0 -> okr s (m s)) -> keeps d ->
  keeps (let! e := is_empty in if e then d else m).
Proof.
  intros H D s. unfold vbind, is_empty. destruct (v_sp s =? 0) eqn:E; [apply D|]. apply N.eqb_neq in E. auto.
Qed.
Lemma okr_pop_bind {A} (k : frame -> V A) s : v_sp s <> 0 -> (forall f, keeps (k f)) -> okr s (vbind pop_frame k s).
Proof. intros Z K. apply okr_bind; [apply okr_pop, Z|]. intros. apply K. Qed.

Lemma keeps_push_int v : keeps (push_int v). Proof. apply keeps_push. Qed.
Lemma keeps_push_float v : keeps (push_float v). Proof. apply keeps_push. Qed.
Lemma keeps_push_instance v : keeps (push_instance v). Proof. apply keeps_push. Qed.
Lemma keeps_push_reference i x : keeps (push_reference i x).
Proof. apply keeps_bind; [apply keeps_get|]. intros. apply keeps_push. Qed.
Lemma keeps_push_string v : keeps (push_string v).
Proof.
  apply keeps_bind; [apply calm_keeps, calm_get_free|]. intros.
  apply keeps_bind; [apply keeps_get|]. intros.
  apply keeps_bind; [apply calm_keeps, calm_wr_string|]. intros. apply keeps_push_reference.
Qed.
Lemma calm_as_sym f : calm (as_sym f). Proof. unfold as_sym. calms. Qed.

Lemma keeps_pop_int : keeps pop_int.
Proof.
  apply keeps_unless_empty; [|apply keeps_ret]. intros s Z. apply okr_pop_bind; auto. intros f.
  apply calm_keeps. calms; auto using calm_as_sym, calm_get_int.
Qed.
Lemma keeps_pop_float : keeps pop_float.
Proof.
  apply keeps_unless_empty; [|apply keeps_ret]. intros s Z. apply okr_pop_bind; auto. intros f.
  apply calm_keeps. calms; auto using calm_as_sym, calm_get_float.
Qed.
Lemma keeps_pop_instance : keeps pop_instance.
Proof.
  apply keeps_unless_empty; [|apply keeps_throw]. intros s Z. apply okr_pop_bind; auto. intros f.
  apply calm_keeps. calms; auto using calm_as_sym, calm_rd_inst.
Qed.
Lemma keeps_pop_reference : keeps pop_reference.
Proof.
  apply keeps_unless_empty; [|apply keeps_throw]. intros s Z. apply okr_pop_bind; auto. intros f.
  apply calm_keeps. calms; auto using calm_as_sym, calm_mark.
Qed.
Lemma keeps_pop_string : keeps pop_string.
Proof.
  apply keeps_bind; [apply keeps_pop_reference|]. intros [[i x] c].
  apply calm_keeps. calms; apply calm_rd_string.
Qed.
Lemma calm_jump a : calm (jump a).
Proof. intro s. unfold jump. destruct (_ <=? a); [apply quiet_refl|apply quiet_pc]. Qed.
Lemma keeps_fix t : keeps (fix_stack t).
Proof.
  unfold fix_stack. repeat apply keeps_if;
  auto using keeps_push_int, keeps_push_float, keeps_push_instance, keeps_push_string, keeps_ret.
Qed.
Lemma keeps_guarded t m : keeps m -> keeps (guarded t m).
Proof.
  intros K s. unfold guarded. specialize (K s). destruct (m s) as [a s'|e s'|k s'|]; auto.
  cbn in K. pose proof (keeps_fix t s') as F. destruct (fix_stack t s') as [b s2|e2 s2|k s2|]; cbn in *; auto.
  - eauto using Rxn_trans.
  - split; [eapply mono_trans; [apply K|apply F]|]. intros _ _. split; congruence.
  - eapply Ru_mono; [apply K|exact F].
Qed.
