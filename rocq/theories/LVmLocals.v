(** Recursive calls keep the caller's local variables. *)

From Coq Require Import ZArith Lia FinFun.
From Verif Require Import MBase LBase MStream MDaedalus MVm LVm LVmCall LVmRun LVmExact SVm SVmOps LVmOps SVmLocals.
Local Open Scope N_scope.
Local Open Scope v_scope.
Ltac Zify.zify_post_hook ::= idtac.

(* ------------------------------------------------------------------ *)
(** * Symbols that stay *)

(** [m] changes no symbol but [i]. *)
Definition only_sym {A} (i : N) (m : V A) : Prop := forall s a s', m s = VRet a s' -> forall j, j <> i -> nth_N (v_syms s') j = nth_N (v_syms s) j.
(** [m] changes no symbol but the one with the temporary strings. *)
Definition only_tmp {A} (m : V A) : Prop := forall s a s', m s = VRet a s' -> v_tmp s' = v_tmp s /\ forall j, j <> v_tmp s -> nth_N (v_syms s') j = nth_N (v_syms s) j.
Definition no_sym {A} (m : V A) : Prop := forall s a s', m s = VRet a s' -> v_syms s' = v_syms s /\ v_tmp s' = v_tmp s.

Lemma no_sym_bind {A B} (m : V A) (k : A -> V B) : no_sym m -> (forall a, no_sym (k a)) -> no_sym (vbind m k).
Proof. intros H1 H2 s b s' E. apply vbind_ret in E as (a & s1 & E1 & E2). destruct (H1 _ _ _ E1), (H2 _ _ _ _ E2). split; congruence. Qed.
Lemma no_sym_ret {A} (a : A) : no_sym (vret a). Proof. intros s b s' E. injection E as <- <-. auto. Qed.
Lemma no_sym_throw {A} e : no_sym (@vthrow A e). Proof. intros s b s' E. discriminate. Qed.
Lemma no_sym_undef {A} e : no_sym (@vundef A e). Proof. intros s b s' E. discriminate. Qed.
Lemma no_sym_get : no_sym vget. Proof. intros s b s' E. injection E as <- <-. auto. Qed.
Lemma no_sym_lift {A} (o : outcome A) : no_sym (vlift o). Proof. intros s b s' E. unfold vlift in E. destruct o; try discriminate. injection E as <- <-. auto. Qed.
Lemma no_sym_sym i : no_sym (the_sym i). Proof. intros s b s' E. unfold the_sym in E. destruct (nth_N _ _); [|discriminate]. injection E as <- <-. auto. Qed.
Lemma no_sym_ctx c : no_sym (the_ctx c). Proof. intros s b s' E. unfold the_ctx in E. destruct c; [destruct (nth_N _ _)|]; try discriminate; injection E as <- <-; auto. Qed.
Lemma no_sym_if {A} (b : bool) (m n : V A) : no_sym m -> no_sym n -> no_sym (if b then m else n). Proof. destruct b; auto. Qed.
Lemma no_sym_empty : no_sym is_empty. Proof. intros s b s' E. injection E as <- <-. auto. Qed.
Lemma no_sym_pop : no_sym pop_frame. Proof. intros s f s' E. apply pop_frame_eq in E as (_ & _ & _ & A & _ & _ & B). auto. Qed.
Lemma no_sym_push f : no_sym (push_frame f). Proof. intros s a s' E. apply push_frame_eq in E as [_ ->]. auto. Qed.
Lemma no_sym_pop_reference : no_sym pop_reference.
Proof.
  unfold pop_reference. apply no_sym_bind; [apply no_sym_empty|]. intros e. apply no_sym_if; [apply no_sym_throw|].
  apply no_sym_bind; [apply no_sym_pop|]. intros f. apply no_sym_if; [apply no_sym_throw|].
  apply no_sym_bind; [unfold as_sym; destruct (f_val f); try apply no_sym_throw; apply no_sym_ret|]. intros i.
  apply no_sym_bind; [apply no_sym_get|]. intros s.
  apply no_sym_bind; [|intros; apply no_sym_ret].
  apply no_sym_if; [|apply no_sym_ret]. intros s0 a s' E. injection E as <- <-. auto.
Qed.
Lemma no_sym_pop_string : no_sym pop_string.
Proof.
  unfold pop_string. apply no_sym_bind; [apply no_sym_pop_reference|]. intros [[i idx] c].
  apply no_sym_bind; [apply no_sym_sym|]. intros x. apply no_sym_bind; [apply no_sym_get|]. intros s.
  apply no_sym_if; [apply no_sym_if; [apply no_sym_ret|apply no_sym_throw]|]. unfold rd_string. apply no_sym_bind; [apply no_sym_sym|]. intros. apply no_sym_bind; [apply no_sym_ctx|]. intros. apply no_sym_lift.
Qed.

Lemma tmp_no_sym {A} (m : V A) : no_sym m -> only_tmp m.
Proof. intros H s a s' E. destruct (H _ _ _ E) as [-> ->]. auto. Qed.
Lemma tmp_bind {A B} (m : V A) (k : A -> V B) : only_tmp m -> (forall a, only_tmp (k a)) -> only_tmp (vbind m k).
Proof.
  intros H1 H2 s b s' E. apply vbind_ret in E as (a & s1 & E1 & E2). destruct (H1 _ _ _ E1) as [A1 A2]. destruct (H2 _ _ _ _ E2) as [B1 B2].
  split; [congruence|]. intros j J. rewrite B2 by congruence. apply A2, J.
Qed.
Lemma tmp_iter {A} (f : A -> V unit) l : (forall a, only_tmp (f a)) -> only_tmp (viter f l).
Proof. intros H. induction l; cbn [viter]; [apply tmp_no_sym, no_sym_ret|]. apply tmp_bind; auto. Qed.
Lemma tmp_push_string v : only_tmp (push_string v).
Proof.
  assert (P : forall s t s' a, put_sym (v_tmp s) t s = VRet a s' -> v_tmp s' = v_tmp s /\ forall j, j <> v_tmp s -> nth_N (v_syms s') j = nth_N (v_syms s) j).
  { intros s t s' a E. injection E as <- <-. cbn. split; auto. intros j J. rewrite nth_set_N. apply N.eqb_neq in J. rewrite J. reflexivity. }
  unfold push_string. apply tmp_bind.
  - intros s a s' E. unfold get_free_string in E. rewrite vbind_get in E.
    apply vbind_ret in E as (u & s1 & E1 & E). rewrite vbind_get in E.
    assert (Q : v_tmp s1 = v_tmp s /\ forall j, j <> v_tmp s -> nth_N (v_syms s1) j = nth_N (v_syms s) j).
    { destruct (v_free s); [|injection E1 as <- <-; auto].
      apply vbind_ret in E1 as (t & s2 & E2 & E1). destruct (no_sym_sym _ _ _ _ E2) as [X1 X2].
      apply vbind_ret in E1 as (t' & s3 & E3 & E1). destruct (no_sym_lift _ _ _ _ E3) as [Y1 Y2].
      apply vbind_ret in E1 as (w & s4 & E4 & E1). injection E1 as <- <-. cbn [v_tmp v_syms set_free].
      rewrite <- X2, <- Y2 in E4. apply P in E4. destruct E4 as [E4 E5]. split; [congruence|]. intros j J. rewrite E5 by congruence. congruence. }
    destruct Q as [Q1 Q2]. destruct (v_free s1); [discriminate|]. rewrite vbind_mod in E. injection E as <- <-. auto.
  - intros i s a s' E. rewrite vbind_get in E. apply vbind_ret in E as (u & s1 & E1 & E).
    unfold push_reference in E. rewrite vbind_get in E. destruct (no_sym_push _ _ _ _ E) as [Z1 Z2]. rewrite Z1, Z2.
    unfold wr_string, wr_sym in E1. apply vbind_ret in E1 as (x & s2 & E2 & E1). destruct (no_sym_sym _ _ _ _ E2) as [X1 X2].
    apply vbind_ret in E1 as (n & s3 & E3 & E1). destruct (no_sym_ctx _ _ _ _ E3) as [Y1 Y2].
    apply vbind_ret in E1 as (r & s4 & E4 & E1). destruct (no_sym_lift _ _ _ _ E4) as [W1 W2].
    apply vbind_ret in E1 as (w & s5 & E5 & E1). cbn [put_ctx] in E1. injection E1 as <- <-.
    replace (v_tmp s) with (v_tmp s4) in E5 by congruence. apply P in E5. destruct E5 as [E5 E6]. split; [congruence|].
    intros j J. rewrite E6 by congruence. congruence.
Qed.
Lemma no_sym_rd_int i k c : no_sym (rd_int i k c).
Proof. unfold rd_int. apply no_sym_bind; [apply no_sym_sym|]. intros. apply no_sym_bind; [apply no_sym_ctx|]. intros. apply no_sym_lift. Qed.
Lemma no_sym_rd_float i k c : no_sym (rd_float i k c).
Proof. unfold rd_float. apply no_sym_bind; [apply no_sym_sym|]. intros. apply no_sym_bind; [apply no_sym_ctx|]. intros. apply no_sym_lift. Qed.
Lemma no_sym_rd_string i k c : no_sym (rd_string i k c).
Proof. unfold rd_string. apply no_sym_bind; [apply no_sym_sym|]. intros. apply no_sym_bind; [apply no_sym_ctx|]. intros. apply no_sym_lift. Qed.
Lemma no_sym_rd_inst i : no_sym (rd_inst i).
Proof. unfold rd_inst. apply no_sym_bind; [apply no_sym_sym|]. intros. apply no_sym_lift. Qed.
Lemma tmp_save i : only_tmp (save_local i).
Proof.
  apply tmp_bind; [apply tmp_no_sym, no_sym_sym|]. intros x.
  destruct (_ =? _); [|destruct (_ || _); [|destruct (_ =? _); [|destruct (_ =? _)]]].
  - apply tmp_iter. intros. apply tmp_bind; [apply tmp_no_sym, no_sym_rd_float|]. intros. apply tmp_no_sym, no_sym_push.
  - apply tmp_iter. intros. apply tmp_bind; [apply tmp_no_sym, no_sym_rd_int|]. intros. apply tmp_no_sym, no_sym_push.
  - apply tmp_iter. intros. apply tmp_bind; [apply tmp_no_sym, no_sym_rd_string|]. intros. apply tmp_push_string.
  - apply tmp_bind; [apply tmp_no_sym, no_sym_rd_inst|]. intros. apply tmp_no_sym, no_sym_push.
  - apply tmp_no_sym, no_sym_ret.
Qed.

Lemma sym_no {A} i (m : V A) : no_sym m -> only_sym i m.
Proof. intros H s a s' E j J. destruct (H _ _ _ E) as [-> _]. auto. Qed.
Lemma sym_bind {A B} i (m : V A) (k : A -> V B) : only_sym i m -> (forall a, only_sym i (k a)) -> only_sym i (vbind m k).
Proof. intros H1 H2 s b s' E j J. apply vbind_ret in E as (a & s1 & E1 & E2). rewrite (H2 _ _ _ _ E2 j J). apply (H1 _ _ _ E1 j J). Qed.
Lemma sym_iter {A} i (f : A -> V unit) l : (forall a, only_sym i (f a)) -> only_sym i (viter f l).
Proof. intros H. induction l; cbn [viter]; [apply sym_no, no_sym_ret|]. apply sym_bind; auto. Qed.
Lemma sym_put i y : only_sym i (put_sym i y).
Proof. intros s a s' E j J. injection E as <- <-. cbn. rewrite nth_set_N. apply N.eqb_neq in J. rewrite J. reflexivity. Qed.
Lemma sym_wr i c f : only_sym i (wr_sym i c f).
Proof.
  unfold wr_sym. apply sym_bind; [apply sym_no, no_sym_sym|]. intros x. apply sym_bind; [apply sym_no, no_sym_ctx|]. intros n.
  apply sym_bind; [apply sym_no, no_sym_lift|]. intros r. apply sym_bind; [apply sym_put|]. intros _.
  unfold put_ctx. destruct c, (snd r); apply sym_no; try apply no_sym_ret. intros s a s' E. injection E as <- <-. auto.
Qed.

(* ------------------------------------------------------------------ *)
(** * The values on the stack *)

(** A frame holds element [k] of the symbol. *)
Definition value_frame (x : sym) (k : N) (fr : frame) : Prop :=
  if s_type x =? T_FLOAT then exists v, sym_get_float x k None = Ret v /\ fr = mkFrame None false (FFloat v) 0
  else if (s_type x =? T_FUNCTION) || (s_type x =? T_INT) then exists v, sym_get_int x k None = Ret v /\ fr = mkFrame None false (FInt v) 0
  else if s_type x =? T_STRING then True
  else if s_type x =? T_INSTANCE then exists v, sym_get_inst x = Ret v /\ fr = mkFrame None false (FInst v) 0
  else True.
Definition held (sl : N -> option frame) (base : N) (x : sym) : Prop :=
  forall k, k < saved_size x -> s_type x <> T_STRING -> exists fr, sl (base + k) = Some fr /\ value_frame x k fr.

Lemma save_cells {A} (rd : N -> V A) (mk : A -> fval) (get : N -> outcome A) i x :
  (forall k s a s', rd k s = VRet a s' -> s' = s /\ (nth_N (v_syms s) i = Some x -> get k = Ret a)) ->
  forall n a s u s', N.of_nat (a + n) <= 65536 -> nth_N (v_syms s) i = Some x ->
  viter (fun k => let! v := rd (u16 k) in push_frame (mkFrame None false (mk v) 0)) (map N.of_nat (seq a n)) s = VRet u s' ->
  forall k, (a <= k < a + n)%nat -> exists v, get (N.of_nat k) = Ret v /\ v_slots s' (v_sp s + N.of_nat k - N.of_nat a) = Some (mkFrame None false (mk v) 0).
Proof.
  intros R. induction n as [|n IH]; intros a s u s' L X E k K; [lia|]. cbn [seq map viter] in E.
  apply vbind_ret in E as (u1 & s1 & E1 & E). apply vbind_ret in E1 as (v & s2 & E1 & E2).
  destruct (R _ _ _ _ E1) as [-> G]. specialize (G X). rewrite u16_small in G by lia.
  pose proof (push_frame_eq _ _ _ _ E2) as [_ ->].
  destruct (Nat.eq_dec k a) as [->|NE].
  - exists v. split; [exact G|].
    assert (P : piles (viter (fun k => let! v := rd (u16 k) in push_frame (mkFrame None false (mk v) 0)) (map N.of_nat (seq (S a) n)))).
    { apply piles_iter. intros b. apply piles_bind; [|intros; apply piles_push]. intros t w t' Q. destruct (R _ _ _ _ Q) as [-> _]. split; auto. lia. }
    destruct (P _ _ _ E) as [_ P2]. rewrite P2 by (cbn; lia). cbn. unfold upd.
    replace (v_sp s + N.of_nat a - N.of_nat a =? v_sp s) with true by (symmetry; apply N.eqb_eq; lia). reflexivity.
  - destruct (IH (S a) (set_stack (upd (v_slots s) (v_sp s) (Some (mkFrame None false (mk v) 0))) (v_sp s + 1) s) u s' ltac:(lia) X E k ltac:(lia)) as (w & H1 & H2). exists w. split; [exact H1|].
    cbn [v_sp set_stack] in H2. replace (v_sp s + N.of_nat k - N.of_nat a) with (v_sp s + 1 + N.of_nat k - N.of_nat (S a)) by lia. exact H2.
Qed.

Lemma save_held i x s a s' : nth_N (v_syms s) i = Some x -> s_count x <= 4095 -> save_local i s = VRet a s' -> held (v_slots s') (v_sp s) x.
Proof.
  intros X CB E k K NS. unfold save_local in E. unfold vbind at 1, the_sym in E. rewrite X in E. unfold saved_size, value_frame in *.
  assert (LT : N.of_nat (0 + N.to_nat (s_count x)) <= 65536) by lia.
  destruct (s_type x =? T_FLOAT) eqn:T1.
  { cbn [orb] in K. unfold upto in E.
    assert (R : forall k s a s', rd_float i k None s = VRet a s' -> s' = s /\ (nth_N (v_syms s) i = Some x -> sym_get_float x k None = Ret a)).
    { intros k0 s0 a0 s0' E0. unfold rd_float, vbind, the_sym in E0. destruct (nth_N (v_syms s0) i) as [y|] eqn:Y; [|discriminate].
      unfold the_ctx, vlift in E0. destruct (sym_get_float y k0 None) eqn:G; try discriminate. injection E0 as <- <-. split; auto. congruence. }
    destruct (save_cells (fun k => rd_float i k None) FFloat (fun k => sym_get_float x k None) i x R _ 0%nat s a s' LT X E (N.to_nat k) ltac:(lia)) as (v & H1 & H2).
    rewrite N2Nat.id in H1, H2. exists (mkFrame None false (FFloat v) 0). split; [|exists v; split; [exact H1|reflexivity]]. rewrite <- H2. f_equal. lia. }
  destruct ((s_type x =? T_FUNCTION) || (s_type x =? T_INT)) eqn:T2.
  { cbn [orb] in K. rewrite T2 in K. cbn [orb] in K. unfold upto in E.
    assert (R : forall k s a s', rd_int i k None s = VRet a s' -> s' = s /\ (nth_N (v_syms s) i = Some x -> sym_get_int x k None = Ret a)).
    { intros k0 s0 a0 s0' E0. unfold rd_int, vbind, the_sym in E0. destruct (nth_N (v_syms s0) i) as [y|] eqn:Y; [|discriminate].
      unfold the_ctx, vlift in E0. destruct (sym_get_int y k0 None) eqn:G; try discriminate. injection E0 as <- <-. split; auto. congruence. }
    destruct (save_cells (fun k => rd_int i k None) FInt (fun k => sym_get_int x k None) i x R _ 0%nat s a s' LT X E (N.to_nat k) ltac:(lia)) as (v & H1 & H2).
    rewrite N2Nat.id in H1, H2. exists (mkFrame None false (FInt v) 0). split; [|exists v; split; [exact H1|reflexivity]]. rewrite <- H2. f_equal. lia. }
  cbn [orb] in K. rewrite T2 in K. cbn [orb] in K.
  destruct (N.eqb_spec (s_type x) T_STRING) as [TS|_]; [contradiction|].
  destruct (s_type x =? T_INSTANCE) eqn:T4; [|lia]. assert (k = 0) by lia. subst k. rewrite N.add_0_r.
  unfold rd_inst, vbind, the_sym in E. rewrite X in E. unfold vlift in E. destruct (sym_get_inst x) as [v| | |] eqn:G; try discriminate.
  unfold push_instance in E. apply push_frame_eq in E as [_ ->]. cbn. unfold upd. rewrite N.eqb_refl.
  eexists. split; [reflexivity|]. exists v. auto.
Qed.

(** The frames of a list of locals, one after the other. *)
Fixpoint held_all (s : vm) (sl : N -> option frame) (base : N) (l : list N) : Prop :=
  match l with
  | [] => True
  | i :: r => (exists x, nth_N (v_syms s) i = Some x /\ held sl base x) /\ held_all s sl (base + size_at s i) r
  end.
Lemma held_all_same s sl sl' l : forall base, (forall i, base <= i < base + total_size s l -> sl' i = sl i) -> held_all s sl base l -> held_all s sl' base l.
Proof.
  induction l as [|i l IH]; intros base H; [auto|]. cbn [held_all]. change (total_size s (i :: l)) with (size_at s i + total_size s l) in H.
  intros [(x & X & HX) HR]. split.
  - exists x. split; [exact X|]. intros k K NS. destruct (HX k K NS) as (fr & F1 & F2). exists fr. split; [|exact F2].
    rewrite H; [exact F1|]. unfold size_at. rewrite X. lia.
  - apply IH; [|exact HR]. intros j J. apply H. lia.
Qed.
Lemma saves_held s l : table_ok s -> (forall i, In i l -> i <> v_tmp s) ->
  forall t a t', static s t -> v_tmp t = v_tmp s -> (forall j, j <> v_tmp s -> nth_N (v_syms t) j = nth_N (v_syms s) j) ->
  viter save_local l t = VRet a t' -> held_all s (v_slots t') (v_sp t) l.
Proof.
  intros TO. induction l as [|i l IH]; intros NT t a t' S TM SY E; [exact I|]. cbn [viter] in E.
  apply vbind_ret in E as (u & t1 & E1 & E). cbn [held_all].
  assert (NI : i <> v_tmp s) by (apply NT; left; reflexivity).
  pose proof (save_local_sp _ _ _ _ E1) as (x & X & SP).
  destruct (tmp_save i _ _ _ E1) as [TM1 SY1].
  assert (X' : nth_N (v_syms s) i = Some x) by (rewrite <- SY by exact NI; exact X).
  assert (CB : s_count x <= 4095) by (destruct TO as (_ & TO & _); apply (TO _ _ X' NI)).
  assert (SZ : size_at s i = saved_size x) by (unfold size_at; rewrite X'; reflexivity).
  destruct (piles_iter _ _ piles_save _ _ _ E) as [_ PL].
  split.
  - exists x. split; [exact X'|]. intros k K NS. destruct (save_held i x t u t1 X CB E1 k K NS) as (fr & F1 & F2). exists fr. split; [|exact F2].
    rewrite PL; [exact F1|]. rewrite SP. lia.
  - rewrite SZ, <- SP. eapply IH; [intros j J; apply NT; right; exact J| | | |exact E].
    + eapply static_trans; [exact S|]. eapply keeps_static; [apply keeps_save_local|exact E1].
    + congruence.
    + intros j J. rewrite SY1 by congruence. apply SY, J.
Qed.

(* ------------------------------------------------------------------ *)
(** * Taking them back *)

Lemma rev_upto n : rev (map N.of_nat (seq 0 (S n))) = N.of_nat n :: rev (map N.of_nat (seq 0 n)).
Proof. rewrite seq_S, map_app, rev_app_distr. reflexivity. Qed.
Lemma popped_top s f : from_top s 0 f -> v_sp (popped s) = v_sp s - 1 /\ v_syms (popped s) = v_syms s /\ forall i, i <> v_sp s - 1 -> v_slots (popped s) i = v_slots s i.
Proof.
  intros F. rewrite (popped_eq _ _ F). cbn. split; [reflexivity|]. split; [reflexivity|]. intros i NI. unfold upd. apply N.eqb_neq in NI. rewrite NI. reflexivity.
Qed.
Lemma restore_cells {A} (pop : V A) (wr : A -> N -> V unit) (get : sym -> N -> outcome A) (mk : A -> fval) i :
  (forall s v, from_top s 0 (mkFrame None false (mk v) 0) -> pop s = VRet v (popped s)) ->
  (forall s v k y a s', wr v k s = VRet a s' -> nth_N (v_syms s) i = Some y -> exists w, s' = set_syms (set_N (v_syms s) i (with_val y w)) s /\
     get (with_val y w) k = Ret v /\ forall j, j <> k -> get (with_val y w) j = get y j) ->
  forall n (val : N -> A) s y a s', N.of_nat n <= 65536 -> N.of_nat n <= v_sp s -> v_sp s <= stack_size ->
  (forall k, k < N.of_nat n -> v_slots s (v_sp s - N.of_nat n + k) = Some (mkFrame None false (mk (val k)) 0)) ->
  nth_N (v_syms s) i = Some y ->
  viter (fun k => let! v := pop in wr v (u16 k)) (rev (map N.of_nat (seq 0 n))) s = VRet a s' ->
  exists w, nth_N (v_syms s') i = Some (with_val y w) /\ (forall k, k < N.of_nat n -> get (with_val y w) k = Ret (val k)) /\
    (forall k, N.of_nat n <= k -> get (with_val y w) k = get y k).
Proof.
  intros HP HW. induction n as [|n IH]; intros val s y a s' L1 L2 L3 F Y E.
  - cbn in E. injection E as <- <-. exists (s_val y). replace (with_val y (s_val y)) with y by (destruct y; reflexivity).
    split; [exact Y|]. split; [lia|auto].
  - rewrite rev_upto in E. cbn [viter] in E. apply vbind_ret in E as (u & s1 & E1 & E). apply vbind_ret in E1 as (v & s2 & E1 & E2).
    assert (FT : from_top s 0 (mkFrame None false (mk (val (N.of_nat n))) 0)).
    { unfold from_top. split; [lia|]. split; [exact L3|]. rewrite <- F by lia. f_equal. lia. }
    rewrite (HP _ _ FT) in E1. injection E1 as <- <-. destruct (popped_top _ _ FT) as (P1 & P2 & P3).
    rewrite u16_small in E2 by lia.
    destruct (HW _ _ _ y _ _ E2 ltac:(rewrite P2; exact Y)) as (w & -> & G1 & G2).
    pose proof (nth_N_lt _ _ _ Y) as YL.
    edestruct (IH val (set_syms (set_N (v_syms (popped s)) i (with_val y w)) (popped s)) (with_val y w) a s') as (w' & A1 & A2 & A3); [| | | | |exact E|].
    + lia.
    + cbn. rewrite P1. lia.
    + cbn. rewrite P1. lia.
    + intros k K. cbn. rewrite P1. rewrite P3 by lia. rewrite <- F by lia. f_equal. lia.
    + cbn. rewrite P2, nth_set_N, N.eqb_refl. apply N.ltb_lt in YL. rewrite YL. reflexivity.
    + exists w'. replace (with_val (with_val y w) w') with (with_val y w') in * by reflexivity. split; [exact A1|]. split.
      * intros k K. destruct (N.eq_dec k (N.of_nat n)) as [->|NE]; [rewrite A3 by lia; exact G1|]. apply A2. lia.
      * intros k K. rewrite A3 by lia. apply G2. lia.
Qed.

Ltac nosym := repeat match goal with
  | |- no_sym (vbind _ _) => apply no_sym_bind; [|intros]
  | |- no_sym (if _ then _ else _) => apply no_sym_if
  | |- no_sym (vret _) => apply no_sym_ret
  | |- no_sym (vthrow _) => apply no_sym_throw
  | |- no_sym (vundef _) => apply no_sym_undef
  | |- no_sym vget => apply no_sym_get
  | |- no_sym (the_sym _) => apply no_sym_sym
  | |- no_sym (the_ctx _) => apply no_sym_ctx
  | |- no_sym (vlift _) => apply no_sym_lift
  | |- no_sym is_empty => apply no_sym_empty
  | |- no_sym pop_frame => apply no_sym_pop
  | |- no_sym (as_sym ?f) => unfold as_sym
  | |- no_sym (rd_int _ _ _) => apply no_sym_rd_int
  | |- no_sym (rd_float _ _ _) => apply no_sym_rd_float
  | |- no_sym (rd_inst _) => apply no_sym_rd_inst
  | |- no_sym (match ?x with _ => _ end) => destruct x
  end.
Lemma no_sym_pop_int : no_sym pop_int. Proof. unfold pop_int, vm_get_int. nosym. Qed.
Lemma no_sym_pop_float : no_sym pop_float. Proof. unfold pop_float, vm_get_float. nosym. Qed.
Lemma no_sym_pop_instance : no_sym pop_instance. Proof. unfold pop_instance. nosym. Qed.
Lemma sym_restore i : only_sym i (restore_local i).
Proof.
  apply sym_bind; [apply sym_no, no_sym_sym|]. intros x.
  destruct (_ =? _); [|destruct (_ || _); [|destruct (_ =? _); [|destruct (_ =? _)]]].
  - apply sym_iter. intros. apply sym_bind; [apply sym_no, no_sym_pop_float|]. intros. apply sym_wr.
  - apply sym_iter. intros. apply sym_bind; [apply sym_no, no_sym_pop_int|]. intros. apply sym_wr.
  - apply sym_iter. intros. apply sym_bind; [apply sym_no, no_sym_pop_string|]. intros. apply sym_wr.
  - apply sym_bind; [apply sym_no, no_sym_pop_instance|]. intros. unfold wr_inst. apply sym_bind; [apply sym_no, no_sym_sym|]. intros.
    apply sym_bind; [apply sym_no, no_sym_lift|]. intros. apply sym_put.
  - apply sym_no, no_sym_ret.
Qed.

Lemma same_numbers_string x y : s_type x <> T_INT -> s_type x <> T_FUNCTION -> s_type x <> T_FLOAT -> s_type x <> T_INSTANCE -> same_numbers x y.
Proof. intros A B C D. split; [intros []; contradiction|]. split; intros; contradiction. Qed.
Lemma restore_held i x v t a t' : i <> v_tmp t -> nth_N (v_syms t) i = Some (with_val x v) -> s_count x <= 4095 -> saved_size x <= v_sp t -> v_sp t <= stack_size ->
  held (v_slots t) (v_sp t - saved_size x) x -> restore_local i t = VRet a t' ->
  exists w, nth_N (v_syms t') i = Some (with_val x w) /\ same_numbers x (with_val x w).
Proof.
  intros NT X CB L1 L2 H E. pose proof E as E0. unfold restore_local in E. unfold vbind at 1, the_sym in E. rewrite X in E.
  change (s_type (with_val x v)) with (s_type x) in E. change (s_count (with_val x v)) with (s_count x) in E.
  unfold held, value_frame in H. unfold saved_size in *.
  destruct (s_type x =? T_FLOAT) eqn:T1.
  { apply N.eqb_eq in T1. cbn [orb] in *. unfold upto in E.
    assert (NS : s_type x <> T_STRING) by (rewrite T1; discriminate).
    edestruct (restore_cells pop_float (fun v k => wr_float i v k None) (fun y k => sym_get_float y k None) FFloat i) with (n := N.to_nat (s_count x))
      (val := fun k => match sym_get_float x k None with Ret v => v | _ => 0 end) as (w & A1 & A2 & _); [| | | | | |exact X|exact E|].
    - intros s v0 FT. unfold pop_float, vbind, is_empty. rewrite (not_empty _ _ _ FT), (pop_frame_at _ _ FT). reflexivity.
    - intros s v0 k y b s' W Y. unfold wr_float, wr_sym, vbind, the_sym in W. rewrite Y in W. unfold the_ctx, vlift in W.
      destruct (sym_set_float y v0 k None) as [r| | |] eqn:G; try discriminate. unfold put_sym, vmod, put_ctx, vret in W. injection W as _ <-.
      unfold sym_set_float in G. unfold sym_get_float. destruct (negb _) eqn:G1; [discriminate|]. destruct (s_count y <=? k) eqn:G2; [discriminate|].
      destruct (is_member y) eqn:G3; [discriminate|]. destruct (s_val y) as [l|l|l|l] eqn:G4; try discriminate. unfold upd_cell in G.
      destruct (k <? len l) eqn:G5; [|discriminate]. injection G as <-. cbn [fst]. eexists. split; [reflexivity|].
      change (s_type (with_val y ?q)) with (s_type y). change (s_count (with_val y ?q)) with (s_count y). change (is_member (with_val y ?q)) with (is_member y).
      cbn [s_val with_val]. rewrite G1, G2, G3. split.
      + rewrite nth_set_N, N.eqb_refl, G5. reflexivity.
      + intros j J. destruct (s_count y <=? j); auto. rewrite nth_set_N. apply N.eqb_neq in J. rewrite J. reflexivity.
    - lia.
    - lia.
    - exact L2.
    - rewrite N2Nat.id. intros k K. destruct (H k K NS) as (fr & F1 & (v0 & F2 & ->)). rewrite F1, F2. reflexivity.
    - rewrite N2Nat.id in A2. change (with_val (with_val x v) w) with (with_val x w) in *. exists w. split; [exact A1|]. unfold same_numbers. rewrite T1. split; [intros []; discriminate|]. split; [|discriminate].
      intros _ k K. rewrite (A2 k K). destruct (H k K NS) as (fr & _ & (v0 & F2 & _)). rewrite F2. reflexivity. }
  destruct ((s_type x =? T_FUNCTION) || (s_type x =? T_INT)) eqn:T2.
  { cbn [orb] in *. rewrite T2 in *. cbn [orb] in *. unfold upto in E.
    assert (TT : s_type x = T_FUNCTION \/ s_type x = T_INT) by (apply orb_true_iff in T2; rewrite !N.eqb_eq in T2; exact T2).
    assert (NS : s_type x <> T_STRING) by (destruct TT as [->| ->]; discriminate).
    edestruct (restore_cells pop_int (fun v k => wr_int i v k None) (fun y k => sym_get_int y k None) FInt i) with (n := N.to_nat (s_count x))
      (val := fun k => match sym_get_int x k None with Ret v => v | _ => 0%Z end) as (w & A1 & A2 & _); [| | | | | |exact X|exact E|].
    - intros s v0 FT. unfold pop_int, vbind, is_empty. rewrite (not_empty _ _ _ FT), (pop_frame_at _ _ FT). reflexivity.
    - intros s v0 k y b s' W Y. unfold wr_int, wr_sym, vbind, the_sym in W. rewrite Y in W. unfold the_ctx, vlift in W.
      destruct (sym_set_int y v0 k None) as [r| | |] eqn:G; try discriminate. unfold put_sym, vmod, put_ctx, vret in W. injection W as _ <-.
      unfold sym_set_int in G. unfold sym_get_int. destruct (negb _) eqn:G1; [discriminate|]. destruct (s_count y <=? k) eqn:G2; [discriminate|].
      destruct (is_member y) eqn:G3; [discriminate|]. destruct (s_val y) as [l|l|l|l] eqn:G4; try discriminate. unfold upd_cell in G.
      destruct (k <? len l) eqn:G5; [|discriminate]. injection G as <-. cbn [fst]. eexists. split; [reflexivity|].
      change (s_type (with_val y ?q)) with (s_type y). change (s_count (with_val y ?q)) with (s_count y). change (is_member (with_val y ?q)) with (is_member y).
      cbn [s_val with_val]. rewrite G1, G2, G3. split.
      + rewrite nth_set_N, N.eqb_refl, G5. reflexivity.
      + intros j J. destruct (s_count y <=? j); auto. rewrite nth_set_N. apply N.eqb_neq in J. rewrite J. reflexivity.
    - lia.
    - lia.
    - exact L2.
    - rewrite N2Nat.id. intros k K. destruct (H k K NS) as (fr & F1 & (v0 & F2 & ->)). rewrite F1, F2. reflexivity.
    - rewrite N2Nat.id in A2. change (with_val (with_val x v) w) with (with_val x w) in *. exists w. split; [exact A1|]. split; [|split; [intros T; rewrite T in TT; destruct TT; discriminate|intros T; rewrite T in TT; destruct TT; discriminate]].
      intros _ k K. rewrite (A2 k K). destruct (H k K NS) as (fr & _ & (v0 & F2 & _)). rewrite F2. reflexivity. }
  cbn [orb] in *. rewrite T2 in *. cbn [orb] in *. apply N.eqb_neq in T1. apply orb_false_iff in T2 as [T2 T3]. apply N.eqb_neq in T2, T3.
  destruct (s_type x =? T_STRING) eqn:T4.
  { apply N.eqb_eq in T4. pose proof (keeps_static _ _ _ _ (keeps_restore_local i) E0) as S.
    assert (exists w, nth_N (v_syms t') i = Some (with_val (with_val x v) w)) as (w & W).
    { eapply shape1_static; eauto. }
    exists w. split; [exact W|]. apply same_numbers_string; auto. rewrite T4. discriminate. }
  apply N.eqb_neq in T4.
  destruct (s_type x =? T_INSTANCE) eqn:T5.
  { destruct (H 0 ltac:(lia) T4) as (fr & F1 & (v0 & F2 & ->)).
    assert (FT : from_top t 0 (mkFrame None false (FInst v0) 0)) by (unfold from_top; split; [lia|split; [exact L2|rewrite <- F1; f_equal; lia]]).
    unfold vbind at 1 in E. unfold pop_instance, vbind at 1, is_empty in E. rewrite (not_empty _ _ _ FT) in E. unfold vbind at 1 in E. rewrite (pop_frame_at _ _ FT) in E.
    cbn in E. unfold wr_inst, vbind, the_sym in E. rewrite popped_syms, X in E. unfold vlift in E.
    destruct (sym_set_inst (with_val x v) v0) as [r| | |] eqn:G; try discriminate. injection E as _ <-. unfold sym_set_inst in G.
    destruct (negb _) eqn:G1; [discriminate|]. destruct (s_val _); try discriminate. injection G as <-.
    exists (SInst v0). cbn. rewrite popped_syms, nth_set_N, N.eqb_refl. pose proof (nth_N_lt _ _ _ X) as XL. apply N.ltb_lt in XL. rewrite XL.
    split; [reflexivity|]. split; [intros []; contradiction|]. split; [contradiction|]. intros T. rewrite F2. unfold sym_get_inst.
    change (s_type (with_val x ?q)) with (s_type x) in *. rewrite T. reflexivity. }
  injection E as _ <-. exists v. split; [exact X|]. apply same_numbers_string; auto. apply N.eqb_neq, T5.
Qed.

Lemma held_app s sl l m : forall base, held_all s sl base (l ++ m) <-> held_all s sl base l /\ held_all s sl (base + total_size s l) m.
Proof.
  induction l as [|i l IH]; intros base; cbn [app held_all].
  - replace (base + total_size s []) with base by (cbn; lia). tauto.
  - rewrite IH. change (total_size s (i :: l)) with (size_at s i + total_size s l). rewrite N.add_assoc. tauto.
Qed.
(** Every symbol of [l] reads in [t'] as it did in [s]. *)
Definition back (s t' : vm) (l : list N) : Prop := forall i, In i l -> exists x y, nth_N (v_syms s) i = Some x /\ nth_N (v_syms t') i = Some y /\ same_numbers x y.
Lemma restores_back s l : table_ok s -> (forall i, In i l -> i <> v_tmp s) -> NoDup l ->
  forall t a t', static s t -> v_tmp t = v_tmp s -> total_size s l <= v_sp t -> v_sp t <= stack_size ->
  held_all s (v_slots t) (v_sp t - total_size s l) l -> viter restore_local (rev l) t = VRet a t' -> back s t' l.
Proof.
  intros TO. induction l as [|i l IH] using rev_ind; intros NT ND t a t' ST TM L1 L2 H E; [intros j []|].
  rewrite rev_app_distr in E. cbn [rev app viter] in E. apply vbind_ret in E as (u & t1 & E1 & E).
  rewrite total_app in *. cbn [total_size map fold_right] in L1, H. rewrite N.add_0_r in L1, H.
  apply held_app in H as [H1 H2]. cbn [held_all] in H2. destruct H2 as [(x & X & HX) _].
  assert (NI : i <> v_tmp s) by (apply NT, in_or_app; right; left; reflexivity).
  assert (SZ : size_at s i = saved_size x) by (unfold size_at; rewrite X; reflexivity).
  assert (CB : s_count x <= 4095) by (destruct TO as (_ & TO' & _); apply (TO' _ _ X NI)).
  destruct (shape1_static _ _ _ _ ST X NI) as (v & XT).
  assert (SP1 : v_sp t1 = v_sp t - size_at s i).
  { destruct (restore_local_sp _ _ _ _ E1) as (y & Y & SP). rewrite XT in Y. injection Y as <-. rewrite SZ. apply SP. change (saved_size (with_val x v)) with (saved_size x). lia. }
  destruct (digs_restore i _ _ _ E1) as [_ DG].
  assert (ND' : NoDup l /\ ~ In i l).
  { apply NoDup_remove in ND. rewrite app_nil_r in ND. exact ND. }
  destruct ND' as [ND1 ND2].
  assert (ST1 : static s t1) by (eapply static_trans; [exact ST|]; eapply keeps_static; [apply keeps_restore_local|exact E1]).
  assert (BK : back s t' l).
  { eapply IH; [| |exact ST1| | | | |exact E]; auto.
    - intros j J. apply NT, in_or_app. left. exact J.
    - apply (st_tmpi _ _ ST1).
    - lia.
    - lia.
    - rewrite SP1. replace (v_sp t - size_at s i - total_size s l) with (v_sp t - (total_size s l + size_at s i)) by lia.
      apply (held_all_same s (v_slots t)); [|exact H1]. intros k K. apply DG. lia. }
  destruct (restore_held i x v t u t1) as (w & W & SN); auto.
  { congruence. }
  { lia. }
  { replace (v_sp t - saved_size x) with (v_sp t - (total_size s l + size_at s i) + total_size s l) by lia. exact HX. }
  intros j J. apply in_app_or in J. destruct J as [J|[<-|[]]]; [apply BK, J|].
  exists x, (with_val x w). split; [exact X|]. split; [|exact SN]. rewrite <- W.
  assert (Q : forall m s0 a0 s0', ~ In i m -> viter restore_local m s0 = VRet a0 s0' -> nth_N (v_syms s0') i = nth_N (v_syms s0) i).
  { induction m as [|j m IHm]; intros s0 a0 s0' NM EM; cbn [viter] in EM.
    - injection EM as <- <-. reflexivity.
    - apply vbind_ret in EM as (u0 & s1 & EM1 & EM). rewrite (IHm _ _ _ (fun K => NM (or_intror K)) EM).
      apply (sym_restore j _ _ _ EM1). intros ->. apply NM. left. reflexivity. }
  apply (Q _ _ _ _ (fun K => ND2 (proj2 (in_rev _ _) K)) E).
Qed.

(* ------------------------------------------------------------------ *)
(** * Entering *)

(** Pushes change nothing above the new top. *)
Definition caps {A} (m : V A) : Prop := forall s a s', m s = VRet a s' -> v_sp s <= v_sp s' /\ forall i, v_sp s' <= i -> v_slots s' i = v_slots s i.
Lemma caps_calm {A} (m : V A) : calm m -> caps m.
Proof. intros C s a s' E. specialize (C s). rewrite E in C. rewrite (q_sp _ _ C), (q_slots _ _ C). split; [lia|auto]. Qed.
Lemma caps_bind {A B} (m : V A) (k : A -> V B) : caps m -> (forall a, caps (k a)) -> caps (vbind m k).
Proof.
  intros H1 H2 s b s' E. apply vbind_ret in E as (a & s1 & E1 & E2).
  destruct (H1 _ _ _ E1) as [A1 A2]. destruct (H2 _ _ _ _ E2) as [B1 B2].
  split; [lia|]. intros i Hi. rewrite B2, A2; auto. lia.
Qed.
Lemma caps_iter {A} (f : A -> V unit) l : (forall a, caps (f a)) -> caps (viter f l).
Proof. intros H. induction l; cbn [viter]; [apply caps_calm, calm_ret|]. apply caps_bind; auto. Qed.
Lemma caps_push f : caps (push_frame f).
Proof.
  intros s a s' E. apply push_frame_eq in E as [_ ->]. cbn. split; [lia|]. intros i Hi. unfold upd.
  replace (i =? v_sp s) with false; auto. symmetry. apply N.eqb_neq. lia.
Qed.
Lemma caps_push_string v : caps (push_string v).
Proof.
  apply caps_bind; [apply caps_calm, calm_get_free|]. intros. apply caps_bind; [apply caps_calm, calm_get|]. intros.
  apply caps_bind; [apply caps_calm, calm_wr_string|]. intros. apply caps_bind; [apply caps_calm, calm_get|]. intros. apply caps_push.
Qed.
Lemma caps_save i : caps (save_local i).
Proof.
  apply caps_bind; [apply caps_calm, calm_sym|]. intros x.
  destruct (_ =? _); [|destruct (_ || _); [|destruct (_ =? _); [|destruct (_ =? _)]]].
  - apply caps_iter. intros. apply caps_bind; [apply caps_calm, calm_rd_float|]. intros. apply caps_push.
  - apply caps_iter. intros. apply caps_bind; [apply caps_calm, calm_rd_int|]. intros. apply caps_push.
  - apply caps_iter. intros. apply caps_bind; [apply caps_calm, calm_rd_string|]. intros. apply caps_push_string.
  - apply caps_bind; [apply caps_calm, calm_rd_inst|]. intros. apply caps_push.
  - apply caps_calm, calm_ret.
Qed.

(** Moving the arguments over at least their own number keeps them. *)
Lemma moves_far b d n : (d = 0 \/ n <= d) -> forall l t u t', NoDup l -> (forall k, In k l -> k < n) ->
  viter (fun k => move_slot (b + k) (b + d + k)) l t = VRet u t' ->
  (forall k, In k l -> v_slots t' (b + d + k) = v_slots t (b + k)) /\
  (forall j, j < n -> ~ In j l -> v_slots t' (b + d + j) = v_slots t (b + d + j)) /\
  exists sl, t' = set_stack sl (v_sp t) t.
Proof.
  intros D. induction l as [|k l IH]; intros t u t' ND LT E.
  - cbn in E. injection E as <- <-. split; [intros k []|]. split; [auto|]. exists (v_slots t). destruct t; reflexivity.
  - cbn [viter] in E. apply vbind_ret in E as (u1 & t1 & E1 & E). unfold move_slot, vbind, slot in E1.
    destruct (stack_size <=? b + k); [discriminate|]. destruct (v_slots t (b + k)) as [f|] eqn:F; [|discriminate].
    destruct (stack_size <=? b + d + k); [discriminate|]. unfold vmod in E1. injection E1 as _ <-.
    inversion ND as [|? ? ND1 ND2]. subst.
    destruct (IH _ u t' ND2 (fun j J => LT j (or_intror J)) E) as (A1 & A2 & (sl & A3)). pose proof (LT k (or_introl eq_refl)) as KN.
    cbn [v_slots set_stack] in A1, A2. split; [|split].
    + intros j [<-|J].
      * rewrite A2 by auto. unfold upd. rewrite N.eqb_refl. symmetry. exact F.
      * assert (NE : j <> k) by (intros ->; contradiction). pose proof (LT j (or_intror J)) as JN. rewrite (A1 j J). unfold upd.
        replace (b + j =? b + d + k) with false by (symmetry; apply N.eqb_neq; lia).
        destruct (b + k =? b + d + k); [reflexivity|]. replace (b + j =? b + k) with false by (symmetry; apply N.eqb_neq; lia). reflexivity.
    + intros j JN NJ. assert (NE : j <> k) by (intros ->; apply NJ; left; reflexivity). rewrite A2 by (auto; intros J; apply NJ; right; exact J). unfold upd.
      replace (b + d + j =? b + d + k) with false by (symmetry; apply N.eqb_neq; lia).
      destruct (b + k =? b + d + k) eqn:E0; [reflexivity|]. apply N.eqb_neq in E0. replace (b + d + j =? b + k) with false by (symmetry; apply N.eqb_neq; lia). reflexivity.
    + exists sl. rewrite A3. reflexivity.
Qed.

Lemma push_locals_full f x s a s' : push_local_variables f x s = VRet a s' -> Inv s -> recursions s f <> 0 ->
  let L := locals_of (v_syms s) f x in let b := v_sp s - s_count x in
  held_all s (v_slots s') b L /\
  (total_size s L = 0 \/ s_count x <= total_size s L -> forall k, k < s_count x -> v_slots s' (b + total_size s L + k) = v_slots s (b + k)).
Proof.
  intros E I R L b. unfold push_local_variables in E. rewrite vbind_get in E. apply N.eqb_neq in R. rewrite R in E. fold L in E.
  change (fold_right N.add 0 (map _ L)) with (total_size s L) in E. cbv zeta in E.
  destruct (stack_size <? u32 (v_sp s + u32 (total_size s L))) eqn:C1; [discriminate|]. destruct (v_sp s <? s_count x) eqn:C2; [discriminate|].
  apply N.ltb_ge in C1, C2.
  assert (NT : forall i, In i L -> i <> v_tmp s) by (intros i Hi; eapply local_not_tmp; [apply I|exact Hi]).
  assert (D : u32 (total_size s L) = total_size s L).
  { pose proof (total_bound s L (inv_table _ I) NT) as T. pose proof (locals_len (v_syms s) f x) as T'. fold L in T'.
    destruct (inv_table _ I) as (T1 & _). change (2 ^ 19) with 524288 in T1. apply u32_small. clear - T T' T1. lia. }
  rewrite D in E. rewrite !vbind_mod in E. fold b in E. apply vbind_ret in E as (u1 & t1 & E1 & E). apply vbind_ret in E as (u2 & t2 & E2 & E).
  injection E as _ <-. cbn [v_slots set_stack].
  assert (SL : exists sl, t1 = set_stack sl b (note_under (b <? floor s) s)).
  { match type of E1 with viter (fun k => move_slot (?b + k) (?b + ?d + k)) ?l ?t = _ => pose proof (moves_any b d l t) as M end.
    rewrite E1 in M. destruct M as (sl & -> & _). exists sl. reflexivity. }
  destruct SL as (sl & ->).
  split.
  - eapply saves_held in E2; [exact E2|apply I|exact NT| | |].
    + constructor; auto.
    + reflexivity.
    + reflexivity.
  - intros FAR k K. destruct (caps_iter save_local L caps_save _ _ _ E2) as [_ CP].
    assert (SP : v_sp t2 = b + total_size s L).
    { assert (ST : static s (set_stack sl b (note_under (b <? floor s) s))) by (constructor; auto). rewrite (save_locals_sp s L NT _ _ _ ST E2). reflexivity. }
    rewrite CP by lia. cbn [v_slots set_stack].
    pose proof (moves_far b (total_size s L) (s_count x) FAR (upto (s_count x)) _ _ _ (FinFun.Injective_map_NoDup (fun a b => Nat2N.inj a b) (seq_NoDup _ _)) (fun k => proj1 (in_upto _ k)) E1) as M.
    destruct M as (M & _). specialize (M k (proj2 (in_upto _ k) K)). exact M.
Qed.

Lemma locals_NoDup l f x : NoDup (locals_of l f x).
Proof.
  unfold locals_of. destruct (locals_from _ _); [|constructor]. apply FinFun.Injective_map_NoDup; [intros a b; lia|apply seq_NoDup].
Qed.

(** The numbers in the local variables of a function are the same after a recursive call. *)
Theorem call_locals m f x s s' :
  keeps m -> nth_N (v_syms s) f = Some x -> f <> v_tmp s -> Framed s -> has_locals x = true -> recursions s f <> 0 ->
  call_with m f s = VRet tt s' -> clean s' -> back s s' (locals_of (v_syms s) f x).
Proof.
  intros K X FT F HL RC E C. unfold call_with in E.
  apply vbind_ret in E as (u1 & s1 & E1 & E). apply vbind_ret in E as (y & s1' & E2 & E).
  apply vbind_ret in E as (u3 & s3 & E3 & E). apply vbind_ret in E as (u4 & s4 & E4 & E5). destruct u4.
  assert (s1' = s1) by (unfold the_sym in E2; destruct (nth_N (v_syms s1) f); [|discriminate]; congruence). subst s1'.
  pose proof (push_call_Rx f s) as P. rewrite E1 in P. destruct P as [P P'].
  unfold jump in E3. destruct (_ <=? s_addr y); [discriminate|]. injection E3 as _ <-.
  pose proof (K (set_pc (s_addr y) s1)) as K1. rewrite E4 in K1. cbn in K1.
  assert (Q13 : Rn s1 (set_pc (s_addr y) s1)) by (apply quiet_Rn, quiet_pc).
  pose proof (Rn_trans _ _ _ Q13 K1) as R14.
  destruct (v_calls s4) as [|c r] eqn:HC; [unfold pop_call in E5; rewrite HC in E5; discriminate|].
  pose proof (pop_call_spec s4 c r HC) as PS. rewrite E5 in PS. destruct PS as [M45 PS].
  assert (C4 : clean s4) by (eapply mono_clean; eauto).
  assert (C1 : clean s1) by (eapply mono_clean; [apply R14|exact C4]).
  destruct (proj2 P C1 F) as (F1 & _).
  destruct (proj2 R14 C4 F1) as (F4 & G1 & G2 & G3).
  destruct (push_call_exact f s u1 s1 x X E1 (fr_inv _ F) (proj1 (proj2 C1))) as (A1 & A2 & A3 & (fl & A4) & A5 & A6 & A7 & A8).
  rewrite HC, A4 in G1. injection G1 as -> ->.
  assert (S14 : static s s4) by (eapply static_trans; [apply P|apply R14]).
  destruct (shape1_static s s4 f x S14 X FT) as (v4 & X4).
  set (L := locals_of (v_syms s) f x) in *. set (b := v_sp s - s_count x).
  assert (SV : saved s f x = total_size s L).
  { unfold saved. rewrite HL. apply N.eqb_neq in RC. rewrite RC. reflexivity. }
  rewrite SV in *.
  (* the values are on the stack when the code starts *)
  assert (HD1 : held_all s (v_slots s1) b L).
  { rewrite push_call_eq in E1. unfold vbind at 1 in E1. unfold the_sym in E1. rewrite X, HL in E1.
    apply vbind_ret in E1 as (w & t & E1 & E1'). injection E1' as _ <-. exact (proj1 (push_locals_full f x s w t E1 (fr_inv _ F) RC)). }
  assert (HD4 : held_all s (v_slots s4) b L).
  { apply (held_all_same s (v_slots s1)); [|exact HD1]. intros i Hi. apply G3. rewrite A5. unfold b in Hi. lia. }
  (* leaving *)
  unfold pop_call in E5. rewrite HC in E5. cbn [c_fun] in E5. unfold vbind at 1, the_sym in E5. rewrite X4, vbind_mod in E5.
  match type of E5 with _ ?u = _ => set (t := u) in * end.
  change (has_locals (with_val x v4)) with (has_locals x) in E5. rewrite HL in E5.
  set (c := mkCall f (v_pc s) (v_sp s + total_size s L - s_count x) (v_inst s) fl) in *.
  apply vbind_ret in E5 as (w1 & t1 & E6 & E5). apply vbind_ret in E5 as (w2 & t2 & E7 & E5). injection E5 as <-.
  assert (CSP : c_sp c = b + total_size s L) by (unfold c, b; cbn; lia).
  assert (K1' : okr t (reset_stack c (with_val x v4) t)).
  { apply okr_reset; auto; [exists f; exact X4|cbn; rewrite HC; left; reflexivity|]. intros H. unfold under. cbn. apply N.ltb_lt in H.
    change (v_sp t) with (v_sp s4) in H. cbn in H. rewrite H. apply orb_true_r. }
  rewrite E6 in K1'. pose proof (keeps_pop_local f (with_val x v4) t1) as K2.
  change (has_locals (with_val x v4)) with (has_locals x) in K2. rewrite HL, E7 in K2. cbn in K1', K2.
  assert (C2 : clean t2) by exact C.
  assert (C1' : clean t1) by (eapply mono_clean; [apply K2|exact C2]).
  assert (C0 : clean t) by (eapply mono_clean; [apply K1'|exact C1']).
  assert (LE : c_sp c <= v_sp s4).
  { destruct C0 as (U0 & _). unfold under in U0. cbn in U0. apply orb_false_iff in U0 as [_ U0]. apply N.ltb_ge in U0. exact U0. }
  assert (F0 : Framed t) by (apply lower_framed; [rewrite HC; left; reflexivity|exact C0|exact F4]).
  destruct (proj2 K1' C1' F0) as (F1' & G1' & _).
  assert (HIn : In c (v_calls t)) by (cbn; rewrite HC; left; reflexivity).
  destruct (reset_exact c (with_val x v4) t w1 t1 f X4 (fr_inv _ F0) HIn LE E6) as (B1 & B2 & B3).
  assert (S1 : static s t1).
  { eapply static_trans; [exact S14|]. eapply static_trans; [apply (lower_mono c)|]. apply K1'. }
  assert (HDt : held_all s (v_slots t1) b L).
  { apply (held_all_same s (v_slots s4)); [|exact HD4]. intros i Hi. rewrite B2 by lia. reflexivity. }
  unfold pop_local_variables in E7. rewrite vbind_get in E7.
  assert (LT : locals_of (v_syms t1) f (with_val x v4) = L).
  { change (locals_of (v_syms t1) f (with_val x v4)) with (locals_of (v_syms t1) f x). apply (locals_static _ _ _ _ S1). }
  rewrite LT in E7.
  assert (RR : (recursions t1 f <=? 1) = false).
  { assert (Q : v_calls t1 = c :: v_calls s) by (rewrite G1'; cbn; exact HC).
    pose proof (recursions_cons s t1 c (v_calls s) Q eq_refl) as RQ. cbn [c_fun c] in RQ. rewrite RQ. apply N.eqb_neq, RC. }
  rewrite RR in E7. apply vbind_ret in E7 as (ret & t3 & E8 & E7). apply vbind_ret in E7 as (w3 & t4 & E9 & E7).
  assert (NT : forall i, In i L -> i <> v_tmp s) by (intros i Hi; eapply local_not_tmp; [apply F|exact Hi]).
  assert (TB : v_sp t1 <= stack_size) by apply F1'.
  assert (Z : back s t4 L).
  { change (has_return (with_val x v4)) with (has_return x) in *. change (rets (with_val x v4)) with (rets x) in *. unfold rets in B1. destruct (has_return x) eqn:HR.
    - replace (v_sp t1 =? 0) with false in E8 by (symmetry; apply N.eqb_neq; lia).
      apply vbind_ret in E8 as (rr & t3' & E8 & E8'). injection E8' as <- <-.
      pose proof (pop_frame_eq _ _ _ E8) as (D1 & D2 & D3 & D4 & D5 & D6 & D7). destruct (digs_pop _ _ _ E8) as [_ D8].
      assert (S12 : static t1 t3').
      { pose proof (okr_pop t1 ltac:(lia)) as KK. rewrite E8 in KK. apply KK. }
      eapply restores_back; [apply F|exact NT|apply locals_NoDup|eapply static_trans; [exact S1|exact S12]| | | | |exact E9].
      + rewrite D7. apply (st_tmpi _ _ S1).
      + rewrite D2. lia.
      + lia.
      + rewrite D2. replace (v_sp t1 - 1 - total_size s L) with b by lia. apply (held_all_same s (v_slots t1)); [|exact HDt]. intros i Hi. apply D8. lia.
    - injection E8 as <- <-. eapply restores_back; [apply F|exact NT|apply locals_NoDup|exact S1| | | | |exact E9].
      + apply (st_tmpi _ _ S1).
      + lia.
      + lia.
      + replace (v_sp t1 - total_size s L) with b by lia. exact HDt. }
  assert (Y : v_syms t2 = v_syms t4).
  { destruct ret; [|injection E7 as _ <-; reflexivity]. destruct (stack_size <=? v_sp t4); [discriminate|]. injection E7 as _ <-. reflexivity. }
  intros i Hi. destruct (Z i Hi) as (xa & xb & Z1 & Z2 & Z3). exists xa, xb. split; [exact Z1|]. split; [|exact Z3]. cbn. rewrite Y. exact Z2.
Qed.

(** The callee finds its arguments, unless fewer locals than arguments are moved over. *)
Theorem call_arguments f x s a s1 : nth_N (v_syms s) f = Some x -> Framed s -> push_call f s = VRet a s1 -> wrapped s1 = false ->
  (has_locals x = true -> recursions s f <> 0 -> locals_size s f x = 0 \/ s_count x <= locals_size s f x) ->
  forall k, k < s_count x -> v_slots s1 (v_sp s1 - s_count x + k) = v_slots s (v_sp s - s_count x + k).
Proof.
  intros X F E W H k KN. destruct (push_call_exact f s a s1 x X E (fr_inv _ F) W) as (A1 & A2 & _). rewrite A2.
  rewrite push_call_eq in E. unfold vbind at 1 in E. unfold the_sym in E. rewrite X in E. apply vbind_ret in E as (w & t & E & E'). injection E' as _ <-.
  unfold enter. cbn [v_slots set_ghost set_calls]. unfold saved. destruct (has_locals x) eqn:HL.
  2:{ injection E as _ <-. f_equal. lia. }
  destruct (recursions s f =? 0) eqn:R.
  { unfold push_local_variables in E. rewrite vbind_get, R in E. injection E as _ <-. f_equal. lia. }
  apply N.eqb_neq in R. destruct (push_locals_full f x s w t E (fr_inv _ F) R) as [_ Q].
  rewrite <- Q; [|exact (H eq_refl R)|exact KN]. f_equal. lia.
Qed.
