(** Constants. *)

From Coq Require Import ZArith Lia.
From Verif Require Import MBase LBase MStream MDaedalus MVm LVm LVmCall LVmRun LVmExact SVm SVmConst LVmApi.
Local Open Scope N_scope.
Local Open Scope v_scope.
Ltac Zify.zify_post_hook ::= idtac.

(** Computations that do not touch symbols. *)
Definition hush {A} (m : V A) : Prop := forall s,
  match m s with VRet _ s' | VExc _ s' | VUndef _ s' => v_syms s' = v_syms s | VFuel => True end.
Lemma hush_ret {A} (a : A) : hush (vret a). Proof. intro s. reflexivity. Qed.
Lemma hush_throw {A} e : hush (@vthrow A e). Proof. intro s. reflexivity. Qed.
Lemma hush_undef {A} e : hush (@vundef A e). Proof. intro s. reflexivity. Qed.
Lemma hush_get : hush vget. Proof. intro s. reflexivity. Qed.
Lemma hush_lift {A} (o : outcome A) : hush (vlift o). Proof. intro s. destruct o; cbn; auto. Qed.
Lemma hush_mod f : (forall s, v_syms (f s) = v_syms s) -> hush (vmod f). Proof. intros H s. apply H. Qed.
Lemma hush_bind {A B} (m : V A) (k : A -> V B) : hush m -> (forall a, hush (k a)) -> hush (vbind m k).
Proof.
  intros H1 H2 s. unfold vbind. specialize (H1 s). destruct (m s) as [a t|e t|u t|]; auto. specialize (H2 a t). destruct (k a t); congruence.
Qed.
Lemma hush_if {A} (b : bool) (m n : V A) : hush m -> hush n -> hush (if b then m else n). Proof. destruct b; auto. Qed.
Lemma hush_iter {A} (f : A -> V unit) l : (forall a, hush (f a)) -> hush (viter f l).
Proof. intros H. induction l; cbn; [apply hush_ret|]. apply hush_bind; auto. Qed.
Lemma hush_sym j : hush (the_sym j). Proof. intro s. unfold the_sym. destruct (nth_N _ _); reflexivity. Qed.
Lemma hush_ctx c : hush (the_ctx c). Proof. intro s. unfold the_ctx. destruct c; [destruct (nth_N _ _)|]; reflexivity. Qed.
Lemma hush_slot j : hush (slot j). Proof. intro s. unfold slot. destruct (_ <=? _); [|destruct (v_slots s j)]; reflexivity. Qed.
Lemma hush_push f : hush (push_frame f). Proof. intro s. unfold push_frame. destruct (_ =? _); [|destruct (_ <=? _)]; reflexivity. Qed.
Lemma hush_empty : hush is_empty. Proof. intro s. reflexivity. Qed.
Lemma hush_jump a : hush (jump a). Proof. intro s. unfold jump. destruct (_ <=? _); reflexivity. Qed.
Ltac hushs :=
  repeat first
    [ apply hush_ret | apply hush_throw | apply hush_undef | apply hush_get | apply hush_lift | apply hush_sym | apply hush_ctx
    | apply hush_slot | apply hush_push | apply hush_empty | apply hush_jump
    | (apply hush_mod; intros; reflexivity)
    | (apply hush_iter; intros) | (apply hush_bind; [|intros]) | apply hush_if
    | match goal with |- hush (match ?x with _ => _ end) => destruct x end ].
Lemma hush_pop : hush pop_frame. Proof. unfold pop_frame, note_pop. hushs. Qed.
Lemma hush_pop_int : hush pop_int. Proof. unfold pop_int, vm_get_int, as_sym, rd_int. hushs; try apply hush_pop. Qed.
Lemma hush_pop_float : hush pop_float. Proof. unfold pop_float, vm_get_float, as_sym, rd_float. hushs; try apply hush_pop. Qed.
Lemma hush_pop_reference : hush pop_reference. Proof. unfold pop_reference, as_sym, mark_free_string. hushs; try apply hush_pop. Qed.
Lemma hush_pop_instance : hush pop_instance. Proof. unfold pop_instance, as_sym, rd_inst. hushs; try apply hush_pop. Qed.
Lemma hush_pop_string : hush pop_string. Proof. unfold pop_string, rd_string. apply hush_bind; [apply hush_pop_reference|intros; hushs]. Qed.
Lemma hush_push_ref i k : hush (push_reference i k). Proof. unfold push_reference. hushs. Qed.
Lemma hush_fetch : hush fetch. Proof. intro s. unfold fetch. destruct (instruction_at _ _) as [[]| | |]; reflexivity. Qed.
Lemma hush_trace : hush print_stack_trace.
Proof. intro s. pose proof (trace_spec s) as T. destruct (print_stack_trace s); auto; try (rewrite T; reflexivity). destruct T as [-> _]. reflexivity. Qed.

Section Const.
  Variables (s0 : vm) (i : N) (x : sym).
  Hypothesis (Hx : nth_N (v_syms s0) i = Some x) (Hc : is_const x = true) (Hi : s_type x <> T_INSTANCE) (Ht : i <> v_tmp s0)
    (Hf : flag_on s0 IGNORE_CONST = false) (Hl : not_local s0 i) (Hn : forall y, nth_N (v_syms s0) (v_tmp s0) = Some y -> has_locals y = false).

  Definition J (s : vm) : Prop := static s0 s /\ nth_N (v_syms s) i = Some x.
  Definition pres {A} (m : V A) : Prop := forall s, J s -> match m s with VRet _ s' | VExc _ s' | VUndef _ s' => J s' | VFuel => True end.

  Lemma pres_of {A} (m : V A) : keeps m ->
    (forall s, J s -> match m s with VRet _ s' | VExc _ s' | VUndef _ s' => nth_N (v_syms s') i = nth_N (v_syms s) i | VFuel => True end) -> pres m.
  Proof.
    intros K H s Js. specialize (K s). specialize (H s Js). destruct Js as [J1 J2].
    destruct (m s) as [a t|e t|u t|]; auto; (split; [eapply static_trans; [exact J1|apply mo_static, K]|congruence]).
  Qed.
  Lemma pres_hush {A} (m : V A) : keeps m -> hush m -> pres m.
  Proof. intros K H. apply pres_of; auto. intros s _. specialize (H s). destruct (m s); congruence. Qed.
  Lemma pres_bind {A B} (m : V A) (k : A -> V B) : pres m -> (forall a, pres (k a)) -> pres (vbind m k).
  Proof. intros H1 H2 s Js. unfold vbind. specialize (H1 s Js). destruct (m s) as [a t|e t|u t|]; auto. apply H2, H1. Qed.
  Lemma pres_get {B} (k : vm -> V B) : (forall s, J s -> pres (k s)) -> pres (vbind vget k).
  Proof. intros H s Js. rewrite vbind_get. apply H; auto. Qed.
  Lemma pres_iter {A} (f : A -> V unit) l : (forall a, In a l -> pres (f a)) -> pres (viter f l).
  Proof.
    induction l as [|a l IH]; intros H; cbn; [intros s Js; exact Js|]. apply pres_bind; [apply H; left; reflexivity|].
    intros _. apply IH. intros b B. apply H. right. exact B.
  Qed.
  Lemma pres_if {A} (b : bool) (m n : V A) : pres m -> pres n -> pres (if b then m else n). Proof. destruct b; auto. Qed.
  Lemma pres_ret {A} (a : A) : pres (vret a). Proof. intros s Js. exact Js. Qed.
  Lemma pres_throw {A} e : pres (@vthrow A e). Proof. intros s Js. exact Js. Qed.
  Lemma pres_undef {A} e : pres (@vundef A e). Proof. intros s Js. exact Js. Qed.
  Lemma pres_lift {A} (o : outcome A) : pres (vlift o). Proof. intros s Js. destruct o; exact Js || exact I. Qed.

  Lemma pres_put j y : j <> i -> calm (put_sym j y) -> pres (put_sym j y).
  Proof.
    intros N K. apply pres_of; [apply calm_keeps, K|]. intros s _. cbn. rewrite nth_set_N.
    replace (i =? j) with false by (symmetry; apply N.eqb_neq; congruence). reflexivity.
  Qed.
  Lemma syms_put_ctx c n s : match put_ctx c n s with VRet _ s' | VExc _ s' | VUndef _ s' => v_syms s' = v_syms s | VFuel => True end.
  Proof. destruct c, n; reflexivity. Qed.
  Lemma pres_wr_sym j c f : j <> i -> keeps_shape f -> pres (wr_sym j c f).
  Proof.
    intros N K. apply pres_of; [apply calm_keeps, calm_wr_sym, K|]. intros s _.
    unfold wr_sym, vbind, the_sym. destruct (nth_N (v_syms s) j) as [y|]; [|reflexivity]. unfold the_ctx.
    assert (Q : forall n, match match vlift (f y n) s with
       | VRet a s' => match put_sym j (fst a) s' with VRet _ s'0 => put_ctx c (snd a) s'0 | VExc e s'0 => VExc e s'0 | VUndef u s'0 => VUndef u s'0 | VFuel => VFuel end
       | VExc e s' => VExc e s' | VUndef u s' => VUndef u s' | VFuel => VFuel end
      with VRet _ s' | VExc _ s' | VUndef _ s' => nth_N (v_syms s') i = nth_N (v_syms s) i | VFuel => True end).
    { intros n. unfold vlift. destruct (f y n) as [[x' n']| | |]; auto. unfold put_sym, vmod.
      pose proof (syms_put_ctx c (snd (x', n')) (set_syms (set_N (v_syms s) j (fst (x', n'))) s)) as P.
      destruct (put_ctx c _ _); auto; rewrite P; cbn; rewrite nth_set_N;
        replace (i =? j) with false by (symmetry; apply N.eqb_neq; congruence); reflexivity. }
    destruct c as [c|]; [destruct (nth_N (v_heap s) c); [apply Q|reflexivity]|apply Q].
  Qed.
  Lemma pres_wr_int j v idx c : j <> i -> pres (wr_int j v idx c). Proof. intros. apply pres_wr_sym; auto. apply set_int_shape. Qed.
  Lemma pres_wr_float j v idx c : j <> i -> pres (wr_float j v idx c). Proof. intros. apply pres_wr_sym; auto. apply set_float_shape. Qed.
  Lemma pres_wr_string j v idx c : j <> i -> pres (wr_string j v idx c). Proof. intros. apply pres_wr_sym; auto. apply set_string_shape. Qed.
  Lemma pres_wr_inst j v : pres (wr_inst j v).
  Proof.
    apply pres_of; [apply calm_keeps, calm_wr_inst|]. intros s [J1 J2].
    unfold wr_inst, vbind, the_sym. destruct (nth_N (v_syms s) j) as [y|] eqn:Y; [|reflexivity].
    destruct (N.eq_dec j i) as [->|N].
    - rewrite J2 in Y. injection Y as <-. unfold sym_set_inst. apply N.eqb_neq in Hi. rewrite Hi. reflexivity.
    - unfold vlift. destruct (sym_set_inst y v); auto. cbn. rewrite nth_set_N.
      replace (i =? j) with false by (symmetry; apply N.eqb_neq; congruence). reflexivity.
  Qed.
  Lemma J_flags s : J s -> flag_on s IGNORE_CONST = false.
  Proof. intros [J1 _]. unfold flag_on. rewrite (st_flags _ _ J1). exact Hf. Qed.
  Lemma J_tmp s : J s -> v_tmp s = v_tmp s0.
  Proof. intros [J1 _]. apply J1. Qed.
  Lemma pres_guarded_write c j w : (j <> i -> pres w) -> pres (guarded_write c j w).
  Proof.
    intros H s Js. unfold guarded_write, vbind at 1, the_sym. destruct (nth_N (v_syms s) j) as [y|] eqn:Y; [|exact Js]. rewrite vbind_get.
    destruct (N.eq_dec j i) as [->|N].
    - destruct Js as [J1 J2]. pose proof (J_flags s (conj J1 J2)) as F. rewrite J2 in Y. injection Y as <-. rewrite Hc, F. split; assumption.
    - destruct (is_const y && _)%bool; [exact Js|]. destruct (negb _ || _ || _)%bool; [apply H; auto|exact Js].
  Qed.

  Lemma pres_get_free : pres get_free_string.
  Proof.
    apply pres_of; [apply calm_keeps, calm_get_free|]. intros s Js. pose proof (J_tmp s Js) as T. unfold get_free_string.
    rewrite vbind_get. destruct (v_free s) as [|a r] eqn:F.
    - unfold vbind at 1 2, the_sym. destruct (nth_N (v_syms s) (v_tmp s)) as [t|]; [|reflexivity]. cbv zeta. unfold vbind at 1, vlift.
      destruct (sym_grow t _) as [t'| | |]; auto. unfold vbind, put_sym, vmod, vget. cbn [v_free set_free set_syms].
      match goal with |- context[match ?l with [] => _ | _ :: _ => _ end] => destruct l end; cbn; rewrite nth_set_N;
        replace (i =? v_tmp s) with false by (symmetry; apply N.eqb_neq; congruence); reflexivity.
    - unfold vbind, vret, vget. rewrite F. reflexivity.
  Qed.
  Lemma pres_push_string v : pres (push_string v).
  Proof.
    unfold push_string. apply pres_bind; [apply pres_get_free|]. intros k. apply pres_get. intros s Js.
    apply pres_bind; [apply pres_wr_string; rewrite (J_tmp s Js); congruence|]. intros _.
    apply pres_hush; [apply keeps_push_reference|apply hush_push_ref].
  Qed.
  Lemma pres_fix t : pres (fix_stack t).
  Proof.
    unfold fix_stack. apply pres_if; [apply pres_hush; [apply keeps_push_float|apply hush_push]|].
    apply pres_if; [apply pres_hush; [apply keeps_push_int|apply hush_push]|]. apply pres_if; [apply pres_push_string|].
    apply pres_if; [apply pres_hush; [apply keeps_push_instance|apply hush_push]|]. apply pres_ret.
  Qed.
  Lemma pres_guarded t m : pres m -> pres (guarded t m).
  Proof.
    intros H s Js. unfold guarded. specialize (H s Js). destruct (m s) as [a u|e u|k u|]; auto.
    pose proof (pres_fix t u H) as P. destruct (fix_stack t u); auto.
  Qed.

  Lemma pres_sym {B} j (k : sym -> V B) : (forall s y, J s -> nth_N (v_syms s) j = Some y -> pres (k y)) -> pres (vbind (the_sym j) k).
  Proof.
    intros H s Js. unfold vbind, the_sym. destruct (nth_N (v_syms s) j) as [y|] eqn:E; [|exact Js]. apply (H s y Js E s Js).
  Qed.
  Lemma pres_save j : pres (save_local j).
  Proof.
    unfold save_local. apply pres_sym. intros _ y _ _.
    repeat apply pres_if.
    - apply pres_iter. intros k _. apply pres_bind; [apply pres_hush; [apply calm_keeps, calm_rd_float|unfold rd_float; hushs]|].
      intros. apply pres_hush; [apply keeps_push_float|apply hush_push].
    - apply pres_iter. intros k _. apply pres_bind; [apply pres_hush; [apply calm_keeps, calm_rd_int|unfold rd_int; hushs]|].
      intros. apply pres_hush; [apply keeps_push_int|apply hush_push].
    - apply pres_iter. intros k _. apply pres_bind; [apply pres_hush; [apply calm_keeps, calm_rd_string|unfold rd_string; hushs]|].
      intros. apply pres_push_string.
    - apply pres_bind; [apply pres_hush; [apply calm_keeps, calm_rd_inst|unfold rd_inst; hushs]|].
      intros. apply pres_hush; [apply keeps_push_instance|apply hush_push].
    - apply pres_ret.
  Qed.
  Lemma pres_restore j : j <> i -> pres (restore_local j).
  Proof.
    intros N. unfold restore_local. apply pres_sym. intros _ y _ _.
    repeat apply pres_if.
    - apply pres_iter. intros k _. apply pres_bind; [apply pres_hush; [apply keeps_pop_float|apply hush_pop_float]|]. intros. apply pres_wr_float, N.
    - apply pres_iter. intros k _. apply pres_bind; [apply pres_hush; [apply keeps_pop_int|apply hush_pop_int]|]. intros. apply pres_wr_int, N.
    - apply pres_iter. intros k _. apply pres_bind; [apply pres_hush; [apply keeps_pop_string|apply hush_pop_string]|]. intros. apply pres_wr_string, N.
    - apply pres_bind; [apply pres_hush; [apply keeps_pop_instance|apply hush_pop_instance]|]. intros. apply pres_wr_inst.
    - apply pres_ret.
  Qed.
  Lemma J_locals s f y : J s -> nth_N (v_syms s) f = Some y -> has_locals y = true -> ~ In i (locals_of (v_syms s) f y).
  Proof.
    intros [J1 J2] Y L. rewrite (locals_static s0 s f y J1). destruct (N.eq_dec f (v_tmp s0)) as [->|NT].
    - exfalso. pose proof (st_tmp _ _ J1) as Q. rewrite Y in Q. destruct (nth_N (v_syms s0) (v_tmp s0)) as [z|] eqn:Z; [|discriminate].
      pose proof (Hn z eq_refl) as H. cbn in Q. injection Q. intros. unfold has_locals, has_flag in *. congruence.
    - pose proof (st_sym _ _ J1 f NT) as Q. rewrite Y in Q. destruct (nth_N (v_syms s0) f) as [z|] eqn:Z; [|discriminate].
      destruct (shape1_static s0 s f z J1 Z NT) as (v & V). rewrite Y in V. injection V as ->. apply (Hl f z Z L).
  Qed.

  Lemma keeps_move a b : pres (move_slot a b).
  Proof.
    unfold move_slot. intros s Js. unfold vbind at 1, slot. destruct (_ <=? a); [exact Js|]. destruct (v_slots s a); [|exact Js].
    destruct (_ <=? b); [exact Js|]. destruct Js as [J1 J2]. split; [|exact J2]. eapply static_trans; [exact J1|]. constructor; reflexivity.
  Qed.
  Lemma pres_vmod f : (forall s, static s (f s)) -> (forall s, v_syms (f s) = v_syms s) -> pres (vmod f).
  Proof. intros H1 H2 s [J1 J2]. cbn. split; [eapply static_trans; [exact J1|apply H1]|rewrite H2; exact J2]. Qed.
  Ltac vm := apply pres_vmod; [intros; constructor; reflexivity|reflexivity].

  Lemma pres_pop_frame : pres pop_frame.
  Proof.
    unfold pop_frame, note_pop. apply pres_bind; [vm|]. intros _. apply pres_get. intros s Js. apply pres_bind.
    { intros t Jt. unfold slot. destruct (_ <=? _); [exact Jt|]. destruct (v_slots t _); exact Jt. }
    intros f. apply pres_bind; [vm|]. intros. apply pres_ret.
  Qed.
  Lemma pres_push_local f y : pres (push_local_variables f y).
  Proof.
    unfold push_local_variables. apply pres_get. intros s Js. cbv zeta.
    apply pres_if; [apply pres_ret|]. apply pres_if; [apply pres_throw|]. apply pres_if; [apply pres_throw|].
    apply pres_bind; [vm|]. intros _. apply pres_bind.
    { intros t [J1 J2]. cbn. split; [|exact J2]. eapply static_trans; [exact J1|]. constructor; reflexivity. }
    intros _. apply pres_bind; [apply pres_iter; intros; apply keeps_move|].
    intros _. apply pres_bind; [apply pres_iter; intros; apply pres_save|]. intros _. vm.
  Qed.
  Lemma pres_pop_local f y : (forall s, J s -> ~ In i (locals_of (v_syms s) f y)) -> pres (pop_local_variables f y).
  Proof.
    intros H. unfold pop_local_variables. apply pres_get. intros s Js. apply pres_if; [apply pres_ret|].
    apply pres_bind.
    { apply pres_if; [|apply pres_ret]. apply pres_if; [apply pres_bind; [vm|]; intros; apply pres_undef|].
      apply pres_bind; [apply pres_pop_frame|]. intros. apply pres_ret. }
    intros r. apply pres_bind.
    { apply pres_iter. intros j Hj. apply in_rev in Hj. apply pres_restore. intros ->. exact (H s Js Hj). }
    intros _. destruct r as [r|]; [|apply pres_ret]. intros t [J1 J2]. destruct (_ <=? _); (split; [|exact J2]); auto.
    eapply static_trans; [exact J1|]. constructor; reflexivity.
  Qed.
  Lemma pres_push_call f : pres (push_call f).
  Proof.
    unfold push_call. apply pres_sym. intros s y Js Y. apply pres_bind; [apply pres_if; [apply pres_push_local|apply pres_ret]|]. intros _. vm.
  Qed.
  Lemma pres_reset c y : pres (reset_stack c y).
  Proof.
    intros s Js. unfold reset_stack. destruct (negb _); [destruct Js as [J1 J2]; split; [|exact J2]; eapply static_trans; [exact J1|]; constructor; reflexivity|].
    cbv zeta. destruct (_ =? 0); [apply pres_fix, Js|]. destruct (1 <? _); [|exact Js]. destruct (v_sp s =? 0); [exact Js|].
    unfold vbind, slot. destruct (_ <=? v_sp s - 1); [exact Js|]. destruct (v_slots s _); [|exact Js]. destruct (_ <=? _); [exact Js|].
    destruct Js as [J1 J2]; split; [|exact J2]; eapply static_trans; [exact J1|]; constructor; reflexivity.
  Qed.
  Lemma pres_pop_call : pres pop_call.
  Proof.
    intros s Js. unfold pop_call. destruct (v_calls s) as [|c r]; [exact Js|].
    match goal with |- match ?m s with _ => _ end => assert (P : pres m); [|apply (P s Js)] end.
    apply pres_sym. intros s1 y Js1 Y. apply pres_bind; [vm|]. intros _. apply pres_bind; [apply pres_reset|]. intros _.
    apply pres_bind; [|intros; vm]. destruct (has_locals y) eqn:L; [|apply pres_ret]. apply pres_pop_local. intros t Jt.
    rewrite (locals_static s0 t _ _ (proj1 Jt)). rewrite <- (locals_static s0 s1 _ _ (proj1 Js1)). apply (J_locals s1 _ _ Js1 Y L).
  Qed.

  Variable h : host.
  Hypothesis (KH : kind_host h) (HO : hands_off i h).
  Lemma pres_cb {A} (m : V A) : keeps m -> leaves i m -> pres m.
  Proof. intros K L. apply pres_of; [exact K|]. intros s _. apply L. Qed.

  Ltac pr := repeat first [ apply pres_ret | apply pres_throw | apply pres_undef | apply pres_if
     | (apply pres_bind; [|intros]) ].
  Lemma pres_pop_int : pres pop_int. Proof. apply pres_hush; [apply keeps_pop_int|apply hush_pop_int]. Qed.
  Lemma pres_pop_ref : pres pop_reference. Proof. apply pres_hush; [apply keeps_pop_reference|apply hush_pop_reference]. Qed.
  Lemma pres_arith {A} (m : V A) : calm m -> hush m -> pres m. Proof. intros. apply pres_hush; auto. apply calm_keeps. auto. Qed.
  Lemma hush_ranged v : hush (ranged v). Proof. unfold ranged. hushs. Qed.
  Definition mild (g : Z -> Z -> V Z) : Prop := arith2 g /\ forall a b, hush (g a b).
  Lemma mild_add : mild c_add. Proof. split; [apply arith_add|]. intros. apply hush_ranged. Qed.
  Lemma mild_sub : mild c_sub. Proof. split; [apply arith_sub|]. intros. apply hush_ranged. Qed.
  Lemma mild_mul : mild c_mul. Proof. split; [apply arith_mul|]. intros. apply hush_ranged. Qed.
  Lemma mild_div : mild c_div. Proof. split; [apply arith_div|]. intros. unfold c_div. apply hush_if; [apply hush_undef|apply hush_ranged]. Qed.
  Lemma mild_mod : mild c_mod. Proof. split; [apply arith_mod|]. intros. unfold c_mod. hushs. Qed.
  Lemma mild_shl : mild c_shl. Proof. split; [apply arith_shl|]. intros. unfold c_shl. hushs. Qed.
  Lemma mild_shr : mild c_shr. Proof. split; [apply arith_shr|]. intros. unfold c_shr. hushs. Qed.
  Lemma mild_pure f : mild (pure2 f). Proof. split; [apply arith_pure|]. intros. apply hush_ret. Qed.
  Lemma mild_checked g : mild g -> mild (checked_div g).
  Proof. intros [H1 H2]. split; [apply calm_checked, H1|]. intros. unfold checked_div. apply hush_if; [apply hush_throw|apply H2]. Qed.
  Lemma pres_binop g : mild g -> pres (binop g).
  Proof.
    intros [H1 H2]. unfold binop. apply pres_bind; [apply pres_pop_int|]. intros a. apply pres_bind; [apply pres_pop_int|]. intros b.
    apply pres_bind; [apply pres_arith; [apply H1|apply H2]|]. intros. apply pres_bind; [apply pres_hush; [apply keeps_push_int|apply hush_push]|]. intros. apply pres_ret.
  Qed.
  Lemma pres_unop g : (forall a, calm (g a)) -> (forall a, hush (g a)) -> pres (unop g).
  Proof.
    intros H1 H2. unfold unop. apply pres_bind; [apply pres_pop_int|]. intros a.
    apply pres_bind; [apply pres_arith; [apply H1|apply H2]|]. intros. apply pres_bind; [apply pres_hush; [apply keeps_push_int|apply hush_push]|]. intros. apply pres_ret.
  Qed.
  Lemma pres_opmov d g : mild g -> pres (opmov d g).
  Proof.
    intros [H1 H2]. unfold opmov. apply pres_bind; [apply pres_pop_ref|]. intros [[j idx] c]. apply pres_bind; [apply pres_pop_int|]. intros v.
    apply pres_bind; [apply pres_if; [apply pres_throw|apply pres_ret]|]. intros _. apply pres_bind; [|intros; apply pres_ret].
    apply pres_guarded_write. intros N. apply pres_bind; [apply pres_hush; [apply calm_keeps, calm_rd_int|unfold rd_int; hushs]|].
    intros o. apply pres_bind; [apply pres_arith; [apply H1|apply H2]|]. intros. apply pres_wr_int, N.
  Qed.
  Lemma pres_instruct call ins : (forall f, pres (call f)) -> pres (instruct h call ins).
  Proof.
    intros KC. unfold instruct. cbv zeta.
    do 15 (apply pres_if; [apply pres_binop; auto using mild_add, mild_sub, mild_mul, mild_div, mild_mod, mild_shl, mild_shr, mild_pure, mild_checked|]).
    do 4 (apply pres_if; [apply pres_unop; intros; first [apply calm_ret | apply calm_ranged | apply hush_ret | apply hush_ranged]|]).
    do 2 (apply pres_if; [apply pres_binop, mild_pure|]).
    do 2 (apply pres_if; [apply pres_ret|]).
    apply pres_if.
    { apply pres_get. intros s Js. destruct (h_over h (i_addr ins)) as [cb|] eqn:E.
      - destruct (find_by_address _ _); [|apply pres_undef]. apply pres_sym. intros _ y _ _. apply pres_bind; [|intros; apply pres_ret].
        apply pres_guarded, pres_cb; [eapply kh_over; eauto|eapply ho_over; eauto].
      - destruct (find_by_address _ _); [|apply pres_throw]. apply pres_bind; [apply KC|]. intros. apply pres_ret. }
    apply pres_if.
    { apply pres_get. intros s Js. destruct (find_by_index _ _); [|apply pres_throw]. apply pres_bind; [|intros; apply pres_ret].
      apply pres_guarded. destruct (h_ext h (i_symb ins)) as [cb|] eqn:E.
      - apply pres_bind; [apply pres_push_call|]. intros _. apply pres_bind; [|intros; apply pres_pop_call].
        apply pres_cb; [eapply kh_ext; eauto|eapply ho_ext; eauto].
      - destruct (h_default h) as [d|] eqn:F; [|apply pres_throw]. apply pres_cb; [eapply kh_default; eauto|eapply ho_default; eauto]. }
    apply pres_if; [apply pres_bind; [apply pres_hush; [apply keeps_push_int|apply hush_push]|]; intros; apply pres_ret|].
    apply pres_if.
    { apply pres_get. intros s Js. destruct (find_by_index _ _) as [y|]; [|apply pres_throw]. apply pres_bind; [|intros; apply pres_ret].
      destruct (has_trap y), (h_trap h) as [d|] eqn:E; try (apply pres_hush; [apply keeps_push_reference|apply hush_push_ref]).
      apply pres_cb; [eapply kh_trap; eauto|eapply ho_trap; eauto]. }
    apply pres_if.
    { apply pres_bind; [apply pres_pop_ref|]. intros [[j idx] c]. apply pres_bind; [apply pres_pop_int|]. intros v.
      apply pres_bind; [|intros; apply pres_ret]. apply pres_guarded_write. intros N. apply pres_wr_int, N. }
    apply pres_if.
    { apply pres_bind; [apply pres_pop_ref|]. intros [[j idx] c]. apply pres_bind; [apply pres_hush; [apply keeps_pop_float|apply hush_pop_float]|]. intros v.
      apply pres_bind; [|intros; apply pres_ret]. apply pres_guarded_write. intros N. apply pres_wr_float, N. }
    apply pres_if.
    { apply pres_bind; [apply pres_pop_ref|]. intros [[j idx] c]. apply pres_bind; [apply pres_hush; [apply keeps_pop_string|apply hush_pop_string]|]. intros v.
      apply pres_bind; [|intros; apply pres_ret]. apply pres_guarded_write. intros N. apply pres_wr_string, N. }
    apply pres_if; [apply pres_throw|].
    do 4 (apply pres_if; [apply pres_opmov; auto using mild_add, mild_sub, mild_mul, mild_div|]).
    apply pres_if.
    { apply pres_bind; [apply pres_pop_ref|]. intros r. apply pres_bind; [apply pres_hush; [apply keeps_pop_instance|apply hush_pop_instance]|]. intros v.
      apply pres_bind; [apply pres_wr_inst|]. intros. apply pres_ret. }
    apply pres_if; [apply pres_bind; [apply pres_hush; [apply calm_keeps, calm_jump|apply hush_jump]|]; intros; apply pres_ret|].
    apply pres_if.
    { apply pres_bind; [apply pres_pop_int|]. intros v. apply pres_if; [|apply pres_ret].
      apply pres_bind; [apply pres_hush; [apply calm_keeps, calm_jump|apply hush_jump]|]; intros; apply pres_ret. }
    apply pres_if.
    { apply pres_get. intros s Js. destruct (find_by_index _ _); [|apply pres_throw].
      apply pres_bind; [apply pres_hush; [apply calm_keeps, calm_rd_inst|unfold rd_inst; hushs]|]. intros n.
      apply pres_bind; [vm|]. intros. apply pres_ret. }
    apply pres_if; [|apply pres_ret].
    apply pres_get. intros s Js. destruct (find_by_index _ _); [|apply pres_throw].
    apply pres_bind; [apply pres_hush; [apply keeps_push_reference|apply hush_push_ref]|]. intros. apply pres_ret.
  Qed.
  Lemma pres_step call ins : (forall f, pres (call f)) -> pres (step h call ins).
  Proof.
    intros KC. unfold step. apply pres_bind; [apply pres_instruct, KC|]. intros []; try apply pres_ret. apply pres_bind; [vm|]. intros. apply pres_ret.
  Qed.
  Lemma pres_handle ins n e : pres (handle h ins n e).
  Proof.
    unfold handle. apply pres_get. intros s Js.
    assert (T : pres (print_stack_trace ;! @vthrow bool e)).
    { apply pres_bind; [apply pres_hush; [apply keeps_trace|apply hush_trace]|]. intros. apply pres_throw. }
    destruct (h_handler h) as [hd|] eqn:E; [|exact T].
    apply pres_bind; [apply pres_cb; [eapply kh_handler; eauto|eapply ho_handler; eauto]|].
    assert (ST : pres (note_stale n)) by (unfold note_stale; vm).
    intros []; [|apply pres_bind; [exact ST|]; intros; apply pres_ret|exact T].
    apply pres_bind; [exact ST|]. intros _. apply pres_bind; [|intros; apply pres_ret].
    apply pres_vmod; intros u; destruct (_ =? _); try reflexivity; constructor; reflexivity.
  Qed.
  Lemma pres_exec call : (forall f, pres (call f)) -> pres (exec h call).
  Proof.
    intros KC. unfold exec. apply pres_bind; [apply pres_hush; [apply calm_keeps, calm_fetch|apply hush_fetch]|]. intros ins s Js.
    pose proof (pres_step call ins KC s Js) as P. destruct (step h call ins s) as [a u|e u|k u|]; auto.
    destruct (is_script_error e); auto. apply pres_handle, P.
  Qed.
  Lemma pres_call m f : pres m -> pres (call_with m f).
  Proof.
    intros H. unfold call_with. apply pres_bind; [apply pres_push_call|]. intros _. apply pres_sym. intros _ y _ _.
    apply pres_bind; [apply pres_hush; [apply calm_keeps, calm_jump|apply hush_jump]|]. intros _. apply pres_bind; [exact H|]. intros _. apply pres_pop_call.
  Qed.
  Lemma pres_run n : pres (run n h).
  Proof.
    induction n as [|n IH]; [intros s Js; exact I|]. cbn [run]. apply pres_bind; [apply pres_exec; intros; apply pres_call, IH|].
    intros []; [exact IH|apply pres_ret].
  Qed.
End Const.

Lemma const_kept n h s i x f : api_host h -> hands_off i h ->
  nth_N (v_syms s) i = Some x -> is_const x = true -> s_type x <> T_INSTANCE -> i <> v_tmp s -> flag_on s IGNORE_CONST = false ->
  not_local s i -> (forall y, nth_N (v_syms s) (v_tmp s) = Some y -> has_locals y = false) ->
  match unsafe_call n h f s with
  | VRet _ s' | VExc _ s' | VUndef _ s' => nth_N (v_syms s') i = Some x
  | VFuel => True
  end.
Proof.
  intros A HO X C I T F L N. assert (P : pres s i x (unsafe_call n h f)).
  { apply pres_call; auto. apply pres_run; auto. apply api_kind, A. }
  specialize (P s (conj (static_refl s) X)). destruct (unsafe_call n h f s); auto; apply P.
Qed.
