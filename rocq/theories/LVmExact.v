(** What a call leaves behind, exactly. *)

From Coq Require Import Lia.
From Verif Require Import MBase LBase MStream MDaedalus MVm LVm LVmCall LVmRun.
Local Open Scope N_scope.
Local Open Scope v_scope.
Ltac Zify.zify_post_hook ::= idtac.

(* ------------------------------------------------------------------ *)
(** * Program counter and context *)

Definition still {A} (m : V A) : Prop := forall s a s', m s = VRet a s' ->
  v_pc s' = v_pc s /\ v_inst s' = v_inst s /\ v_calls s' = v_calls s.
Lemma still_ret {A} (a : A) : still (vret a). Proof. intros s b s' E. injection E as <- <-. auto. Qed.
Lemma still_throw {A} e : still (@vthrow A e). Proof. intros s b s' E. discriminate. Qed.
Lemma still_undef {A} e : still (@vundef A e). Proof. intros s b s' E. discriminate. Qed.
Lemma still_get : still vget. Proof. intros s b s' E. injection E as <- <-. auto. Qed.
Lemma still_lift {A} (o : outcome A) : still (vlift o).
Proof. intros s b s' E. unfold vlift in E. destruct o; try discriminate. injection E as <- <-. auto. Qed.
Lemma still_bind {A B} (m : V A) (k : A -> V B) : still m -> (forall a, still (k a)) -> still (vbind m k).
Proof.
  intros H1 H2 s b s' E. apply vbind_ret in E as (a & s1 & E1 & E2).
  destruct (H1 _ _ _ E1) as (<- & <- & <-). eapply H2; eauto.
Qed.
Lemma still_if {A} (b : bool) (m n : V A) : still m -> still n -> still (if b then m else n).
Proof. destruct b; auto. Qed.
Lemma still_iter {A} (f : A -> V unit) l : (forall a, still (f a)) -> still (viter f l).
Proof. intros H. induction l; cbn; [apply still_ret|]. apply still_bind; auto. Qed.
Lemma still_mod f : (forall s, v_pc (f s) = v_pc s /\ v_inst (f s) = v_inst s /\ v_calls (f s) = v_calls s) -> still (vmod f).
Proof. intros H s b s' E. injection E as <- <-. auto. Qed.
Lemma still_sym i : still (the_sym i).
Proof. intros s b s'. unfold the_sym. destruct (nth_N _ _); [|discriminate]. intros E. injection E as <- <-. auto. Qed.
Lemma still_ctx c : still (the_ctx c).
Proof.
  intros s b s'. unfold the_ctx. destruct c as [i|]; [destruct (nth_N _ _); [|discriminate]|];
  intros E; injection E as <- <-; auto.
Qed.
Lemma still_push f : still (push_frame f).
Proof.
  intros s b s'. unfold push_frame. destruct (_ =? _); [discriminate|]. destruct (_ <=? _); [discriminate|].
  intros E. injection E as <- <-. auto.
Qed.
Lemma still_slot i : still (slot i).
Proof.
  intros s b s'. unfold slot. destruct (_ <=? _); [discriminate|]. destruct (v_slots _ _); [|discriminate].
  intros E. injection E as <- <-. auto.
Qed.
Lemma still_put_ctx c n : still (put_ctx c n).
Proof. unfold put_ctx. destruct c, n; try apply still_ret. apply still_mod. auto. Qed.
Ltac stills :=
  repeat first
    [ apply still_ret | apply still_throw | apply still_undef | apply still_get | apply still_lift | apply still_sym
    | apply still_ctx | apply still_push | apply still_slot | apply still_put_ctx
    | (apply still_mod; intros; cbn; auto)
    | (apply still_iter; intros) | (apply still_bind; [|intros]) | apply still_if
    | match goal with |- still (match ?x with _ => _ end) => destruct x end ].
Lemma still_get_free : still get_free_string. Proof. unfold get_free_string. cbv zeta. stills. Qed.
Lemma still_push_string v : still (push_string v).
Proof.
  unfold push_string, wr_string, wr_sym, put_sym. apply still_bind; [apply still_get_free|]. intros. stills.
Qed.
Lemma still_save i : still (save_local i).
Proof.
  unfold save_local. apply still_bind; [apply still_sym|]. intros x. repeat apply still_if; try apply still_ret.
  - apply still_iter. intros. unfold rd_float, push_float. stills.
  - apply still_iter. intros. unfold rd_int, push_int. stills.
  - apply still_iter. intros. apply still_bind; [unfold rd_string; stills|]. intros. apply still_push_string.
  - unfold rd_inst, push_instance. stills.
Qed.
Lemma still_move a b : still (move_slot a b).
Proof. unfold move_slot. stills. Qed.
Lemma still_push_locals f x : still (push_local_variables f x).
Proof.
  unfold push_local_variables. apply still_bind; [apply still_get|]. intros s. apply still_if; [apply still_ret|].
  cbv zeta. apply still_if; [apply still_throw|]. apply still_if; [apply still_throw|].
  apply still_bind; [apply still_mod; auto|]. intros _. apply still_bind; [apply still_mod; auto|]. intros _.
  apply still_bind; [apply still_iter; intros; apply still_move|]. intros _.
  apply still_bind; [apply still_iter; intros; apply still_save|]. intros _. apply still_mod; auto.
Qed.

(* ------------------------------------------------------------------ *)
(** * What is below *)

(** Pops change only what is above the new top. *)
Definition digs {A} (m : V A) : Prop := forall s a s', m s = VRet a s' ->
  v_sp s' <= v_sp s /\ forall i, i < v_sp s' -> v_slots s' i = v_slots s i.
Lemma digs_calm {A} (m : V A) : calm m -> digs m.
Proof. intros C s a s' E. specialize (C s). rewrite E in C. rewrite (q_sp _ _ C), (q_slots _ _ C). split; [lia|auto]. Qed.
Lemma digs_bind {A B} (m : V A) (k : A -> V B) : digs m -> (forall a, digs (k a)) -> digs (vbind m k).
Proof.
  intros H1 H2 s b s' E. apply vbind_ret in E as (a & s1 & E1 & E2).
  destruct (H1 _ _ _ E1) as [A1 A2]. destruct (H2 _ _ _ _ E2) as [B1 B2].
  split; [lia|]. intros i Hi. rewrite B2, A2; auto. lia.
Qed.
Lemma digs_iter {A} (f : A -> V unit) l : (forall a, digs (f a)) -> digs (viter f l).
Proof. intros H. induction l; cbn [viter]; [apply digs_calm, calm_ret|]. apply digs_bind; auto. Qed.
Lemma pop_frame_eq s f s' : pop_frame s = VRet f s' ->
  v_slots s (v_sp s - 1) = Some f /\ v_sp s' = v_sp s - 1 /\
  v_slots s' = upd (v_slots s) (v_sp s - 1) (Some (moved f)) /\ v_syms s' = v_syms s /\ v_calls s' = v_calls s /\ v_heap s' = v_heap s /\ v_tmp s' = v_tmp s.
Proof.
  unfold pop_frame, vbind, note_pop, vmod, vget, slot. cbn. destruct (_ <=? _); [discriminate|].
  destruct (v_slots s _) eqn:F; [|discriminate]. intros E. injection E as <- <-. cbn. auto 10.
Qed.
Lemma digs_pop : digs pop_frame.
Proof.
  intros s f s' E. apply pop_frame_eq in E as (A & B & C & _). rewrite B, C. split; [lia|].
  intros i Hi. unfold upd. replace (i =? v_sp s - 1) with false; auto. symmetry. apply N.eqb_neq. lia.
Qed.
Lemma digs_unless_empty {A} (d : V A) (k : frame -> V A) :
  calm d -> (forall f, calm (k f)) -> digs (let! e := is_empty in if e then d else vbind pop_frame k).
Proof.
  intros D K. apply digs_bind; [apply digs_calm; intro s; apply quiet_refl|]. intros [|].
  - apply digs_calm, D.
  - apply digs_bind; [apply digs_pop|]. intros. apply digs_calm, K.
Qed.
Lemma digs_pop_int : digs pop_int. Proof. apply digs_unless_empty; [apply calm_ret|apply calm_int_tail]. Qed.
Lemma digs_pop_float : digs pop_float. Proof. apply digs_unless_empty; [apply calm_ret|apply calm_float_tail]. Qed.
Lemma digs_pop_instance : digs pop_instance. Proof. apply digs_unless_empty; [apply calm_throw|apply calm_inst_tail]. Qed.
Lemma digs_pop_reference : digs pop_reference. Proof. apply digs_unless_empty; [apply calm_throw|apply calm_ref_tail]. Qed.
Lemma digs_pop_string : digs pop_string.
Proof. apply digs_bind; [apply digs_pop_reference|]. intros. apply digs_calm, calm_string_tail. Qed.
Lemma digs_restore i : digs (restore_local i).
Proof.
  apply digs_bind; [apply digs_calm, calm_sym|]. intros x.
  destruct (_ =? _); [|destruct (_ || _); [|destruct (_ =? _); [|destruct (_ =? _)]]].
  - apply digs_iter. intros. apply digs_bind; [apply digs_pop_float|]. intros. apply digs_calm, calm_wr_float.
  - apply digs_iter. intros. apply digs_bind; [apply digs_pop_int|]. intros. apply digs_calm, calm_wr_int.
  - apply digs_iter. intros. apply digs_bind; [apply digs_pop_string|]. intros. apply digs_calm, calm_wr_string.
  - apply digs_bind; [apply digs_pop_instance|]. intros. apply digs_calm, calm_wr_inst.
  - apply digs_calm, calm_ret.
Qed.

(** Pushes change only what is above the old top. *)
Definition piles {A} (m : V A) : Prop := forall s a s', m s = VRet a s' ->
  v_sp s <= v_sp s' /\ forall i, i < v_sp s -> v_slots s' i = v_slots s i.
Lemma piles_calm {A} (m : V A) : calm m -> piles m.
Proof. intros C s a s' E. specialize (C s). rewrite E in C. rewrite (q_sp _ _ C), (q_slots _ _ C). split; [lia|auto]. Qed.
Lemma piles_bind {A B} (m : V A) (k : A -> V B) : piles m -> (forall a, piles (k a)) -> piles (vbind m k).
Proof.
  intros H1 H2 s b s' E. apply vbind_ret in E as (a & s1 & E1 & E2).
  destruct (H1 _ _ _ E1) as [A1 A2]. destruct (H2 _ _ _ _ E2) as [B1 B2].
  split; [lia|]. intros i Hi. rewrite B2, A2; auto. lia.
Qed.
Lemma piles_iter {A} (f : A -> V unit) l : (forall a, piles (f a)) -> piles (viter f l).
Proof. intros H. induction l; cbn [viter]; [apply piles_calm, calm_ret|]. apply piles_bind; auto. Qed.
Lemma push_frame_eq f s a s' : push_frame f s = VRet a s' ->
  v_sp s < stack_size /\ s' = set_stack (upd (v_slots s) (v_sp s) (Some f)) (v_sp s + 1) s.
Proof.
  unfold push_frame. destruct (_ =? _); [discriminate|]. destruct (stack_size <=? v_sp s) eqn:F; [discriminate|].
  apply N.leb_gt in F. intros E. injection E as <- <-. split; auto. rewrite u16_small; auto. unfold stack_size in F. lia.
Qed.
Lemma piles_push f : piles (push_frame f).
Proof.
  intros s a s' E. apply push_frame_eq in E as [_ ->]. cbn. split; [lia|]. intros i Hi. unfold upd.
  replace (i =? v_sp s) with false; auto. symmetry. apply N.eqb_neq. lia.
Qed.
Lemma piles_push_reference i x : piles (push_reference i x).
Proof. apply piles_bind; [apply piles_calm, calm_get|]. intros. apply piles_push. Qed.
Lemma piles_push_string v : piles (push_string v).
Proof.
  apply piles_bind; [apply piles_calm, calm_get_free|]. intros. apply piles_bind; [apply piles_calm, calm_get|]. intros.
  apply piles_bind; [apply piles_calm, calm_wr_string|]. intros. apply piles_push_reference.
Qed.
Lemma piles_save i : piles (save_local i).
Proof.
  apply piles_bind; [apply piles_calm, calm_sym|]. intros x.
  destruct (_ =? _); [|destruct (_ || _); [|destruct (_ =? _); [|destruct (_ =? _)]]].
  - apply piles_iter. intros. apply piles_bind; [apply piles_calm, calm_rd_float|]. intros. apply piles_push.
  - apply piles_iter. intros. apply piles_bind; [apply piles_calm, calm_rd_int|]. intros. apply piles_push.
  - apply piles_iter. intros. apply piles_bind; [apply piles_calm, calm_rd_string|]. intros. apply piles_push_string.
  - apply piles_bind; [apply piles_calm, calm_rd_inst|]. intros. apply piles_push.
  - apply piles_calm, calm_ret.
Qed.
Lemma piles_fix t : piles (fix_stack t).
Proof.
  unfold fix_stack. repeat (match goal with |- context [if ?b then _ else _] => destruct b end);
    try apply piles_push; try apply piles_push_string. apply piles_calm, calm_ret.
Qed.

(* ------------------------------------------------------------------ *)
(** * Entering *)

Definition saved (s : vm) (f : N) (x : sym) : N :=
  if has_locals x then if recursions s f =? 0 then 0 else total_size s (locals_of (v_syms s) f x) else 0.

(** Below the arguments nothing changes when the locals are saved. *)
Lemma push_locals_below f x s a s' : push_local_variables f x s = VRet a s' ->
  forall i, i < v_sp s - s_count x -> v_slots s' i = v_slots s i.
Proof.
  unfold push_local_variables. rewrite vbind_get. destruct (_ =? 0).
  { intros E. injection E as <- <-. auto. }
  cbv zeta. destruct (_ <? _); [discriminate|]. destruct (v_sp s <? s_count x); [discriminate|].
  rewrite !vbind_mod. intros E i Hi. apply vbind_ret in E as (u & s1 & E1 & E).
  apply vbind_ret in E as (v & s2 & E2 & E). injection E as <- <-. cbn.
  match type of E1 with viter (fun k => move_slot (?b + k) (?b + ?d + k)) ?l ?t = _ => pose proof (moves_any b d l t) as M end.
  rewrite E1 in M. destruct M as (sl & -> & _ & B). cbn in *.
  pose proof (piles_iter save_local (locals_of (v_syms s) f x) piles_save _ _ _ E2) as [_ P]. cbn in P.
  rewrite P by exact Hi. apply B, Hi.
Qed.

Lemma push_call_exact f s a s' x : nth_N (v_syms s) f = Some x -> push_call f s = VRet a s' -> Inv s -> wrapped s' = false ->
  s_count x <= v_sp s /\ v_sp s' = v_sp s + saved s f x /\ v_sp s' <= stack_size /\
  (exists fl, v_calls s' = mkCall f (v_pc s) (v_sp s + saved s f x - s_count x) (v_inst s) fl :: v_calls s) /\
  floor s' = v_sp s + saved s f x - s_count x /\
  v_pc s' = v_pc s /\ v_inst s' = v_inst s /\
  forall i, i < v_sp s - s_count x -> v_slots s' i = v_slots s i.
Proof.
  intros X E I W. rewrite push_call_eq in E. unfold vbind at 1 in E. unfold the_sym in E. rewrite X in E.
  apply vbind_ret in E as (u & s1 & E1 & E). injection E as _ <-.
  unfold wrapped in W. cbn in W. apply orb_false_iff in W as [_ W]. apply N.ltb_ge in W.
  assert (S : v_pc s1 = v_pc s /\ v_inst s1 = v_inst s /\ v_calls s1 = v_calls s).
  { destruct (has_locals x); [eapply still_push_locals; eauto|eapply still_ret; eauto]. }
  destruct S as (S1 & S2 & S3).
  assert (P : v_sp s1 = v_sp s + saved s f x /\ v_sp s1 <= stack_size).
  { unfold saved. destruct (has_locals x).
    - exact (proj2 (push_local_cases f x s) _ _ E1 I).
    - injection E1 as _ <-. split; [lia|apply I]. }
  destruct P as [P1 P2].
  assert (B : forall i, i < v_sp s - s_count x -> v_slots s1 i = v_slots s i).
  { destruct (has_locals x); [eapply push_locals_below; eauto|]. injection E1 as _ <-. auto. }
  assert (L : s_count x <= v_sp s).
  { unfold saved in P1. destruct (has_locals x); [|lia]. destruct (recursions s f =? 0) eqn:R; [lia|].
    unfold push_local_variables in E1. rewrite vbind_get, R in E1. cbv zeta in E1.
    destruct (_ <? u32 _); [discriminate|]. destruct (v_sp s <? s_count x) eqn:Q; [discriminate|]. apply N.ltb_ge in Q. exact Q. }
  assert (Q : uint 32 (Z.of_N (v_sp s1) - Z.of_N (s_count x)) = v_sp s + saved s f x - s_count x).
  { rewrite uint_sub; [rewrite P1; reflexivity|lia|unfold stack_size in P2; lia]. }
  split; [exact L|]. split; [exact P1|]. split; [exact P2|].
  split; [exists (floor s1); cbn; unfold the_call; rewrite Q, S1, S2, S3; reflexivity|].
  split; [unfold floor; cbn; exact Q|]. auto.
Qed.

(* ------------------------------------------------------------------ *)
(** * Leaving *)

(** The frame of the value a function returns when it left none. *)
Definition default_frame (ty tmp : N) (fr : frame) : Prop :=
  if ty =? T_FLOAT then fr = mkFrame None false (FFloat 0) 0
  else if (ty =? T_INT) || (ty =? T_FUNCTION) then fr = mkFrame None false (FInt 0) 0
  else if ty =? T_INSTANCE then fr = mkFrame None false (FInst None) 0
  else f_ref fr = true /\ f_val fr = FSym tmp.
(** The frame a function returns, given the state its code ends in. *)
Definition result_frame (x : sym) (base : N) (s : vm) (fr : frame) : Prop :=
  if base <? v_sp s then v_slots s (v_sp s - 1) = Some fr else default_frame (s_rtype x) (v_tmp s) fr.

Lemma push_string_top v s a s' : push_string v s = VRet a s' ->
  exists fr, v_slots s' (v_sp s) = Some fr /\ f_ref fr = true /\ f_val fr = FSym (v_tmp s).
Proof.
  unfold push_string. intros E. apply vbind_ret in E as (i & s1 & E1 & E). rewrite vbind_get in E.
  apply vbind_ret in E as (u & s2 & E2 & E). unfold push_reference in E. rewrite vbind_get in E.
  pose proof (calm_get_free s) as C1. rewrite E1 in C1. pose proof (calm_wr_string (v_tmp s1) v (u16 i) None s1) as C2. rewrite E2 in C2.
  apply push_frame_eq in E as [_ ->]. cbn. rewrite (q_sp _ _ C2), (q_sp _ _ C1).
  eexists. unfold upd. rewrite N.eqb_refl. split; [reflexivity|]. cbn. split; auto.
  rewrite (st_tmpi _ _ (q_static _ _ C1)). reflexivity.
Qed.
Lemma fix_top ty s a s' : value_type ty -> fix_stack ty s = VRet a s' ->
  exists fr, v_slots s' (v_sp s) = Some fr /\ default_frame ty (v_tmp s) fr.
Proof.
  assert (P : forall fr, push_frame fr s = VRet a s' -> v_slots s' (v_sp s) = Some fr).
  { intros fr E. apply push_frame_eq in E as [_ ->]. cbn. unfold upd. rewrite N.eqb_refl. reflexivity. }
  unfold value_type, fix_stack, default_frame. intros [->|[->|[->|[->| ->]]]] E; cbn in *.
  - apply P in E. eauto.
  - apply P in E. eauto.
  - apply push_string_top in E as (fr & A & B). eauto.
  - apply P in E. eauto.
  - apply P in E. eauto.
Qed.

Definition rets (x : sym) : N := if has_return x then 1 else 0.

Lemma reset_exact c x t a t1 ix : nth_N (v_syms t) ix = Some x -> Inv t -> In c (v_calls t) -> c_sp c <= v_sp t ->
  reset_stack c x t = VRet a t1 ->
  v_sp t1 = c_sp c + rets x /\ (forall i, i < c_sp c -> v_slots t1 i = v_slots t i) /\
  (has_return x = true -> exists fr, v_slots t1 (c_sp c) = Some fr /\ result_frame x (c_sp c) t fr).
Proof.
  intros X I HC L. pose proof (inv_sp _ I) as Q1. destruct (inv_calls _ I c HC) as [Q2 _]. unfold stack_size in Q1, Q2.
  unfold reset_stack, rets. destruct (has_return x) eqn:HR; cbn [negb].
  2:{ intros E. injection E as _ <-. cbn. rewrite u16_small by lia. split; [lia|]. split; [auto|discriminate]. }
  rewrite uint_sub by lia. unfold result_frame.
  destruct (v_sp t - c_sp c =? 0) eqn:R0.
  - apply N.eqb_eq in R0. assert (E0 : v_sp t = c_sp c) by lia. intros E.
    assert (VT : value_type (s_rtype x)) by (eapply (proj1 (proj2 (proj2 (inv_table _ I)))); eauto).
    pose proof (add_fix _ VT _ _ _ E) as A. destruct (piles_fix _ _ _ _ E) as [_ B].
    destruct (fix_top _ _ _ _ VT E) as (fr & F1 & F2).
    rewrite E0 in *. split; [exact A|]. split; [exact B|]. intros _. exists fr. rewrite N.ltb_irrefl. auto.
  - apply N.eqb_neq in R0. replace (c_sp c <? v_sp t) with true by (symmetry; apply N.ltb_lt; lia).
    destruct (1 <? v_sp t - c_sp c) eqn:R1.
    + destruct (v_sp t =? 0) eqn:Z0; [discriminate|]. unfold vbind, slot.
      destruct (stack_size <=? v_sp t - 1); [discriminate|]. destruct (v_slots t (v_sp t - 1)) as [fr|] eqn:F; [|discriminate].
      destruct (stack_size <=? u16 (c_sp c)); [discriminate|]. intros E. injection E as _ <-. cbn.
      rewrite (u16_small (c_sp c)) by lia. rewrite u16_small by lia. split; [lia|]. split.
      * intros i Hi. unfold upd. replace (i =? c_sp c) with false; auto. symmetry. apply N.eqb_neq. lia.
      * intros _. exists fr. unfold upd. rewrite N.eqb_refl. auto.
    + apply N.ltb_ge in R1. intros E. injection E as _ <-. split; [lia|]. split; auto. intros _.
      assert (v_slots t (c_sp c) <> None) by (apply (inv_slots _ I); lia).
      destruct (v_slots t (c_sp c)) as [fr|] eqn:F; [|congruence]. exists fr.
      replace (v_sp t - 1) with (c_sp c) by lia. auto.
Qed.

Definition restored (s : vm) (f : N) (x : sym) : N :=
  if has_locals x then if recursions s f <=? 1 then 0 else total_size s (locals_of (v_syms s) f x) else 0.

Lemma pop_local_exact f x t a t1 base : Inv t -> v_sp t = base + rets x -> restored t f x <= base ->
  (if has_locals x then pop_local_variables f x else vret tt) t = VRet a t1 ->
  v_sp t1 = base - restored t f x + rets x /\
  (forall i, i < base - restored t f x -> v_slots t1 i = v_slots t i) /\
  (has_return x = true -> v_slots t1 (v_sp t1 - 1) = v_slots t (v_sp t - 1)).
Proof.
  intros I P L. unfold restored in *. destruct (has_locals x).
  2:{ intros E. injection E as _ <-. split; [lia|]. split; auto. }
  unfold pop_local_variables. rewrite vbind_get. destruct (recursions t f <=? 1).
  { intros E. injection E as _ <-. split; [lia|]. split; auto. }
  intros E. apply vbind_ret in E as (ret & t2 & E1 & E). apply vbind_ret in E as (u & t3 & E2 & E).
  set (l := locals_of (v_syms t) f x) in *.
  assert (NT : forall i, In i (rev l) -> i <> v_tmp t).
  { intros i Hi. apply in_rev in Hi. eapply local_not_tmp; [apply I|exact Hi]. }
  unfold rets in *. destruct (has_return x) eqn:HR.
  - replace (v_sp t =? 0) with false in E1 by (symmetry; apply N.eqb_neq; lia).
    apply vbind_ret in E1 as (r & t2' & E1 & E1'). injection E1' as <- <-.
    assert (S12 : static t t2').
    { pose proof (okr_pop t ltac:(lia)) as K. rewrite E1 in K. apply K. }
    pose proof (pop_frame_eq _ _ _ E1) as (A1 & A2 & A3 & _).
    assert (P3 : v_sp t3 = v_sp t2' - total_size t (rev l)).
    { eapply restore_locals_sp; [exact NT|exact S12|exact E2|]. rewrite total_rev, A2. lia. }
    rewrite total_rev, A2 in P3.
    destruct (digs_iter _ _ digs_restore _ _ _ E2) as [_ D].
    destruct (digs_pop _ _ _ E1) as [_ D'].
    destruct (stack_size <=? v_sp t3) eqn:Z; [discriminate|]. apply N.leb_gt in Z. unfold stack_size in Z.
    injection E as _ <-. cbn. rewrite u16_small by lia. split; [lia|]. split.
    + intros i Hi. unfold upd. replace (i =? v_sp t3) with false by (symmetry; apply N.eqb_neq; lia).
      rewrite D by lia. apply D'. lia.
    + intros _. unfold upd. replace (v_sp t3 + 1 - 1) with (v_sp t3) by lia. rewrite N.eqb_refl. congruence.
  - injection E1 as <- <-. injection E as _ <-.
    assert (P3 : v_sp t3 = v_sp t - total_size t (rev l)).
    { eapply restore_locals_sp; [exact NT|apply static_refl|exact E2|]. rewrite total_rev. lia. }
    rewrite total_rev in P3. destruct (digs_iter _ _ digs_restore _ _ _ E2) as [_ D].
    split; [lia|]. split; [|discriminate]. intros i Hi. apply D. lia.
Qed.

Lemma nth_N_ext {A} (l l' : list A) : (forall i, nth_N l i = nth_N l' i) -> l = l'.
Proof.
  intros H. assert (G : forall n, nth_error l n = nth_error l' n).
  { intros n. specialize (H (N.of_nat n)). unfold nth_N in H. rewrite Nat2N.id in H.
    destruct (N.of_nat n <? len l) eqn:E, (N.of_nat n <? len l') eqn:F; auto.
    - rewrite H. symmetry. apply nth_error_None. apply N.ltb_ge in F. unfold len in F. lia.
    - rewrite <- H. apply nth_error_None. apply N.ltb_ge in E. unfold len in E. lia.
    - apply N.ltb_ge in E, F. unfold len in *. transitivity (@None A); [|symmetry]; apply nth_error_None; lia. }
  clear H. revert l' G. induction l as [|a l IH]; intros [|b l'] G; auto.
  - specialize (G O). discriminate.
  - specialize (G O). discriminate.
  - f_equal; [specialize (G O); cbn in G; congruence|]. apply IH. intros n. apply (G (S n)).
Qed.
Lemma nth_N_map {A B} (f : A -> B) l i : nth_N (map f l) i = option_map f (nth_N l i).
Proof. unfold nth_N. rewrite len_map. destruct (_ <? _); auto. apply nth_error_map. Qed.
Lemma static_names s t : static s t -> map s_name (v_syms t) = map s_name (v_syms s).
Proof.
  intros S. apply nth_N_ext. intros i. rewrite !nth_N_map.
  destruct (N.eq_dec i (v_tmp s)) as [->|E].
  - pose proof (st_tmp _ _ S) as Q. destruct (nth_N (v_syms t) _), (nth_N (v_syms s) _); try discriminate; auto.
    cbn. injection Q. intros. congruence.
  - pose proof (st_sym _ _ S i E) as Q. destruct (nth_N (v_syms t) _), (nth_N (v_syms s) _); try discriminate; auto.
    cbn. injection Q. intros. congruence.
Qed.
Lemma locals_from_names fn l l' : map s_name l = map s_name l' -> locals_from fn l = locals_from fn l'.
Proof.
  revert l'. induction l as [|a l IH]; intros [|b l'] E; try discriminate; auto. cbn in *. injection E as E1 E2.
  rewrite E1, (IH l' E2). reflexivity.
Qed.
Lemma map_drop {A B} (f : A -> B) n l : map f (drop n l) = drop n (map f l).
Proof. rewrite !drop_skipn. revert l. induction (N.to_nat n); intros [|]; cbn; auto. Qed.
Lemma locals_static s t f x : static s t -> locals_of (v_syms t) f x = locals_of (v_syms s) f x.
Proof.
  intros S. unfold locals_of. rewrite (locals_from_names _ _ (drop (u32 (f + 1 + s_count x)) (v_syms s))); auto.
  rewrite !map_drop, (static_names _ _ S). reflexivity.
Qed.
Lemma total_static s t l : static s t -> (forall i, In i l -> i <> v_tmp s) -> total_size t l = total_size s l.
Proof.
  intros S. induction l as [|i l IH]; intros H; auto.
  change (total_size t (i :: l)) with (size_at t i + total_size t l).
  change (total_size s (i :: l)) with (size_at s i + total_size s l).
  rewrite IH by (intros; apply H; right; auto). rewrite (size_static s t i S); auto. apply H. left. reflexivity.
Qed.

Lemma pop_call_exact s c r x a s' : v_calls s = c :: r -> nth_N (v_syms s) (c_fun c) = Some x -> Framed s ->
  pop_call s = VRet a s' -> clean s' -> restored s (c_fun c) x <= c_sp c ->
  v_sp s' = c_sp c - restored s (c_fun c) x + rets x /\
  v_pc s' = c_pc c /\ v_inst s' = c_ctx c /\ c_sp c <= v_sp s /\
  (forall i, i < c_sp c - restored s (c_fun c) x -> v_slots s' i = v_slots s i) /\
  (has_return x = true -> exists fr, v_slots s' (v_sp s' - 1) = Some fr /\ result_frame x (c_sp c) s fr).
Proof.
  intros HC X FR E C L. unfold pop_call in E. rewrite HC in E. unfold vbind at 1, the_sym in E. rewrite X, vbind_mod in E.
  set (t := lower_floor c s) in *.
  assert (HIn : In c (v_calls t)) by (cbn; rewrite HC; left; reflexivity).
  apply vbind_ret in E as (u1 & t1 & E1 & E). apply vbind_ret in E as (u2 & t2 & E2 & E). injection E as _ <-.
  assert (K1 : okr t (reset_stack c x t)).
  { apply okr_reset; auto; [exists (c_fun c); exact X|]. intros H. unfold under. cbn. apply N.ltb_lt in H.
    change (v_sp t) with (v_sp s) in H. rewrite H. apply orb_true_r. }
  rewrite E1 in K1. pose proof (keeps_pop_local (c_fun c) x t1) as K2. rewrite E2 in K2. cbn in K1, K2.
  assert (C2 : clean t2) by exact C.
  assert (C1 : clean t1) by (eapply mono_clean; [apply K2|exact C2]).
  assert (C0 : clean t) by (eapply mono_clean; [apply K1|exact C1]).
  assert (LE : c_sp c <= v_sp s).
  { destruct C0 as (U0 & _). unfold under in U0. cbn in U0. apply orb_false_iff in U0 as [_ U0]. apply N.ltb_ge in U0. exact U0. }
  assert (F0 : Framed t) by (apply lower_framed; auto).
  destruct (proj2 K1 C1 F0) as (F1 & G1 & _).
  destruct (reset_exact c x t u1 t1 (c_fun c) X (fr_inv _ F0) HIn LE E1) as (A1 & A2 & A3).
  assert (RR : restored t1 (c_fun c) x = restored s (c_fun c) x).
  { unfold restored, recursions. rewrite G1. change (v_calls t) with (v_calls s).
    assert (S : static s t1) by (eapply static_trans; [|apply K1]; apply lower_mono).
    destruct (has_locals x); auto. destruct (_ <=? 1); auto. rewrite (locals_static _ _ _ _ S).
    apply total_static; auto. intros i. apply local_not_tmp. apply FR. }
  destruct (pop_local_exact (c_fun c) x t1 u2 t2 (c_sp c) (fr_inv _ F1) A1 ltac:(rewrite RR; exact L) E2) as (B1 & B2 & B3).
  rewrite RR in *. split; [exact B1|]. split; [reflexivity|]. split; [reflexivity|]. split; [exact LE|]. split.
  - intros i Hi. cbn. rewrite B2 by exact Hi. rewrite A2 by lia. reflexivity.
  - intros HR. destruct (A3 HR) as (fr & D1 & D2). exists fr. cbn. rewrite (B3 HR).
    replace (v_sp t1 - 1) with (c_sp c) by (rewrite A1; unfold rets; rewrite HR; lia). split; auto.
Qed.

(* ------------------------------------------------------------------ *)
(** * A whole call *)

Lemma recursions_cons s t c r : v_calls t = c :: r -> r = v_calls s ->
  (recursions t (c_fun c) <=? 1) = (recursions s (c_fun c) =? 0).
Proof.
  intros E ->. unfold recursions. rewrite E. cbn [filter]. rewrite N.eqb_refl, len_cons.
  destruct (N.eqb_spec (len (filter (fun c0 => c_fun c0 =? c_fun c) (v_calls s))) 0) as [->|H]; [reflexivity|].
  apply N.leb_gt. lia.
Qed.

Lemma shape1_static s t i x : static s t -> nth_N (v_syms s) i = Some x -> i <> v_tmp s ->
  exists v, nth_N (v_syms t) i = Some (with_val x v).
Proof.
  intros S X E. pose proof (st_sym _ _ S i E) as Q. rewrite X in Q.
  destruct (nth_N (v_syms t) i) as [y|]; [|discriminate]. exists (s_val y). f_equal.
  injection Q. intros. destruct y. unfold with_val. cbn in *. congruence.
Qed.

(** The callee's code runs from [s1] to [s2]. *)
Lemma call_exact m f x s s' :
  keeps m -> nth_N (v_syms s) f = Some x -> f <> v_tmp s -> Framed s -> call_with m f s = VRet tt s' -> clean s' ->
  s_count x <= v_sp s /\
  v_calls s' = v_calls s /\ v_pc s' = v_pc s /\ v_inst s' = v_inst s /\
  v_sp s' = v_sp s - s_count x + rets x /\
  (forall i, i < v_sp s - s_count x -> v_slots s' i = v_slots s i) /\
  exists s1 s2, m s1 = VRet tt s2 /\ v_pc s1 = s_addr x /\ v_inst s1 = v_inst s /\
    v_sp s1 = v_sp s + saved s f x /\
    (has_return x = true -> exists fr, v_slots s' (v_sp s' - 1) = Some fr /\
       result_frame x (v_sp s1 - s_count x) s2 fr).
Proof.
  intros K X FT F E C. pose proof E as E'. unfold call_with in E.
  apply vbind_ret in E as (u1 & s1 & E1 & E). apply vbind_ret in E as (y & s1' & E2 & E).
  apply vbind_ret in E as (u3 & s3 & E3 & E). apply vbind_ret in E as (u4 & s4 & E4 & E5). destruct u4.
  assert (s1' = s1) by (unfold the_sym in E2; destruct (nth_N (v_syms s1) f); [|discriminate]; congruence). subst s1'.
  pose proof (push_call_Rx f s) as P. rewrite E1 in P. destruct P as [P P'].
  unfold jump in E3. destruct (_ <=? s_addr y); [discriminate|]. injection E3 as _ <-.
  pose proof (K (set_pc (s_addr y) s1)) as K1. rewrite E4 in K1. cbn in K1.
  assert (Q13 : Rn s1 (set_pc (s_addr y) s1)) by (apply quiet_Rn, quiet_pc).
  pose proof (Rn_trans _ _ _ Q13 K1) as R14.
  destruct (v_calls s4) as [|c r] eqn:HC; [unfold pop_call in E5; rewrite HC in E5; discriminate|].
  pose proof (pop_call_spec s4 c r HC) as PS. rewrite E5 in PS. destruct PS as [M45 PS].
  assert (C4 : clean s4) by (eapply mono_clean; eauto).
  assert (C1 : clean s1) by (eapply mono_clean; [apply R14|exact C4]).
  destruct (proj2 P C1 F) as (F1 & _).
  destruct (proj2 R14 C4 F1) as (F4 & G1 & G2 & G3).
  destruct (push_call_exact f s u1 s1 x X E1 (fr_inv _ F) (proj1 (proj2 C1))) as (A1 & A2 & A3 & (fl & A4) & A5 & A6 & A7 & A8).
  rewrite HC, A4 in G1. injection G1 as -> ->.
  assert (S14 : static s s4) by (eapply static_trans; [apply P|apply R14]).
  destruct (shape1_static s s4 f x S14 X FT) as (v4 & X4).
  destruct (shape1_static s s1 f x (mo_static _ _ (proj1 P)) X FT) as (v1 & X1).
  unfold the_sym in E2. rewrite X1 in E2. injection E2 as <-.
  assert (RE : restored s4 f (with_val x v4) = saved s f x).
  { unfold restored, saved. change (has_locals (with_val x v4)) with (has_locals x). destruct (has_locals x); auto.
    pose proof (recursions_cons s s4 _ _ HC eq_refl) as RC. cbn [c_fun] in RC. rewrite RC. destruct (_ =? 0); auto.
    rewrite (locals_static _ _ _ _ S14). apply (total_static s s4); auto. intros i. apply local_not_tmp. apply F. }
  destruct (pop_call_exact s4 _ _ _ _ _ HC X4 F4 E5 C) as (B1 & B2 & B3 & B4 & B5 & B6).
  { cbn [c_fun c_sp]. rewrite RE. lia. }
  cbn [c_fun c_sp c_pc c_ctx] in *. rewrite RE in *.
  change (rets (with_val x v4)) with (rets x) in *. change (has_return (with_val x v4)) with (has_return x) in *.
  destruct (PS C F4) as (_ & D1 & _).
  assert (EQ : v_sp s + saved s f x - s_count x - saved s f x = v_sp s - s_count x) by lia.
  rewrite EQ in *.
  split; [exact A1|]. split; [exact D1|]. split; [exact B2|]. split; [exact B3|]. split; [exact B1|]. split.
  - intros i Hi. rewrite B5 by exact Hi. rewrite G3 by (rewrite A5; lia). apply A8, Hi.
  - exists (set_pc (s_addr x) s1), s4. split; [exact E4|]. split; [reflexivity|]. split; [exact A7|]. split; [exact A2|].
    intros HR. destruct (B6 HR) as (fr & H1 & H2). exists fr. split; [exact H1|]. cbn. rewrite A2. exact H2.
Qed.
