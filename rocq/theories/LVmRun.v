(** What running a script preserves, for any script and any host whose callbacks behave like
    the machine's own operations. *)

From Coq Require Import Lia.
From Verif Require Import MBase LBase MStream MDaedalus MVm LVm LVmCall.
Local Open Scope N_scope.
Local Open Scope v_scope.
Ltac Zify.zify_post_hook ::= idtac.

Ltac keepss :=
  repeat first
    [ apply keeps_ret | apply keeps_throw | apply keeps_get | apply keeps_lift
    | apply keeps_push_int | apply keeps_push_float | apply keeps_push_instance | apply keeps_push_reference
    | apply keeps_push_string | apply keeps_pop_int | apply keeps_pop_float | apply keeps_pop_instance
    | apply keeps_pop_reference | apply keeps_pop_string | apply keeps_fix
    | apply calm_keeps, calm_sym | apply calm_keeps, calm_ctx
    | apply calm_keeps, calm_wr_int | apply calm_keeps, calm_wr_float | apply calm_keeps, calm_wr_string
    | apply calm_keeps, calm_wr_inst | apply calm_keeps, calm_rd_int | apply calm_keeps, calm_rd_float
    | apply calm_keeps, calm_rd_string | apply calm_keeps, calm_rd_inst | apply calm_keeps, calm_jump
    | apply calm_keeps, calm_get_int | apply calm_keeps, calm_get_float
    | apply calm_keeps, calm_put_ctx
    | (apply keeps_undef; discriminate)
    | (apply keeps_bracket) | (apply keeps_guarded) | (apply keeps_call_with)
    | (apply keeps_iter; intros) | (apply keeps_bind; [|intros]) | apply keeps_if
    | match goal with |- keeps (match ?x with _ => _ end) => destruct x end ].

Lemma keeps_mod f : (forall s, quiet s (f s)) -> keeps (vmod f).
Proof. intros. apply calm_keeps, calm_mod; auto. Qed.

(** Arithmetic does not touch the machine. *)
Definition arith2 (f : Z -> Z -> V Z) : Prop := forall a b, calm (f a b).
Lemma calm_ranged v : calm (ranged v). Proof. unfold ranged. calms. Qed.
Lemma calm_checked f : arith2 f -> arith2 (checked_div f).
Proof. intros H a b. unfold checked_div. calms; auto. Qed.
Lemma arith_add : arith2 c_add. Proof. intros a b. apply calm_ranged. Qed.
Lemma arith_sub : arith2 c_sub. Proof. intros a b. apply calm_ranged. Qed.
Lemma arith_mul : arith2 c_mul. Proof. intros a b. apply calm_ranged. Qed.
Lemma arith_div : arith2 c_div. Proof. intros a b. unfold c_div. calms; apply calm_ranged. Qed.
Lemma arith_mod : arith2 c_mod. Proof. intros a b. unfold c_mod. calms. Qed.
Lemma arith_shl : arith2 c_shl. Proof. intros a b. unfold c_shl. calms. Qed.
Lemma arith_shr : arith2 c_shr. Proof. intros a b. unfold c_shr. calms. Qed.
Lemma arith_pure f : arith2 (pure2 f). Proof. intros a b. apply calm_ret. Qed.

Lemma keeps_binop f : arith2 f -> keeps (binop f).
Proof. intros H. unfold binop. keepss. apply calm_keeps, H. Qed.
Lemma keeps_unop f : (forall a, calm (f a)) -> keeps (unop f).
Proof. intros H. unfold unop. keepss. apply calm_keeps, H. Qed.
Lemma keeps_opmov d f : arith2 f -> keeps (opmov d f).
Proof.
  intros H. unfold opmov. apply keeps_bind; [apply keeps_pop_reference|]. intros [[i idx] c].
  keepss. apply calm_keeps, H.
Qed.

(** The host. *)
Record kind_host (h : host) : Prop := mkKind {
  kh_ext : forall i cb, h_ext h i = Some cb -> keeps cb;
  kh_over : forall a cb, h_over h a = Some cb -> keeps cb;
  kh_default : forall d, h_default h = Some d -> forall i, keeps (d i);
  kh_trap : forall d, h_trap h = Some d -> forall i, keeps (d i);
  kh_handler : forall d, h_handler h = Some d -> forall e i, keeps (d e i) }.

Lemma keeps_instruct h call i : kind_host h -> (forall f, keeps (call f)) -> keeps (instruct h call i).
Proof.
  intros KH KC. unfold instruct. cbv zeta.
  repeat apply keeps_if;
    auto using keeps_binop, arith_add, arith_sub, arith_mul, arith_pure, arith_shl, arith_shr, calm_checked,
      arith_div, arith_mod, keeps_ret, keeps_opmov, keeps_throw.
  - apply keeps_unop. intros. apply calm_ret.
  - apply keeps_unop. intros. apply calm_ranged.
  - apply keeps_unop. intros. apply calm_ret.
  - apply keeps_unop. intros. apply calm_ret.
  - apply keeps_bind; [apply keeps_get|]. intros s. destruct (h_over h (i_addr i)) eqn:E.
    + keepss. eapply kh_over; eauto.
    + keepss. apply KC.
  - apply keeps_bind; [apply keeps_get|]. intros s. destruct (find_by_index _ _); [|apply keeps_throw].
    apply keeps_bind; [|keepss]. apply keeps_guarded.
    + destruct (h_ext h (i_symb i)) eqn:E.
      * apply keeps_bracket. eapply kh_ext; eauto.
      * destruct (h_default h) eqn:F; [|apply keeps_throw]. eapply kh_default; eauto.
  - keepss.
  - apply keeps_bind; [apply keeps_get|]. intros s. destruct (find_by_index _ _); [|apply keeps_throw].
    apply keeps_bind; [|keepss]. destruct (has_trap s0), (h_trap h) eqn:E; keepss. eapply kh_trap; eauto.
  - keepss.
  - keepss.
  - keepss.
  - keepss.
  - keepss.
  - keepss.
  - keepss. apply keeps_mod. intros. apply quiet_inst.
  - keepss.
Qed.

Lemma keeps_step h call i : kind_host h -> (forall f, keeps (call f)) -> keeps (step h call i).
Proof.
  intros KH KC. unfold step. apply keeps_bind; [apply keeps_instruct; auto|]. intros [ | | ]; keepss.
  apply keeps_mod. intros. apply quiet_pc.
Qed.

(* ------------------------------------------------------------------ *)
(** * Fetching *)

Definition same_data {A} (m : rd A) : Prop := forall t a t', m t = Ret (a, t') -> rdata t' = rdata t.
Lemma data_bind {A B} (m : rd A) (k : A -> rd B) : same_data m -> (forall a, same_data (k a)) -> same_data (bind m k).
Proof.
  intros H1 H2 t b t' E. unfold bind in E. destruct (m t) as [[a t1]| | |] eqn:F; try discriminate. cbn in E.
  rewrite (H2 _ _ _ _ E). eauto.
Qed.
Lemma data_ret {A} (a : A) : same_data (ret a).
Proof. intros t b t' E. injection E as <- <-. reflexivity. Qed.
Lemma data_read n : same_data (rd_read n).
Proof. intros t b t'. unfold rd_read. cbv zeta. destruct (_ <? rpos t + _); [discriminate|]. intros E. injection E as <- <-. reflexivity. Qed.
Lemma data_seek o w : same_data (rd_seek o w).
Proof.
  intros t b t'. unfold rd_seek, obind. destruct (seek_internal _ _ _ _); try discriminate.
  destruct (_ <? _); intros E; injection E as <- <-; reflexivity.
Qed.
Lemma data_fixed n : same_data (rd_fixed n).
Proof. unfold rd_fixed. apply data_bind; [apply data_read|]. intros. apply data_ret. Qed.
Lemma data_ubyte : same_data read_ubyte. Proof. apply data_bind; [apply data_fixed|]. intros. apply data_ret. Qed.
Lemma data_uint : same_data read_uint. Proof. apply data_bind; [apply data_fixed|]. intros. apply data_ret. Qed.
Lemma data_int : same_data read_int. Proof. apply data_bind; [apply data_uint|]. intros. apply data_ret. Qed.
Lemma data_decode : same_data decode.
Proof.
  unfold decode. apply data_bind; [apply data_ubyte|]. intros op.
  destruct (_ || _). { apply data_bind; [apply data_uint|]. intros. apply data_ret. }
  destruct (op =? _). { apply data_bind; [apply data_int|]. intros. apply data_ret. }
  destruct (_ || _). { apply data_bind; [apply data_uint|]. intros. apply data_ret. }
  destruct (op =? _).
  { apply data_bind; [apply data_uint|]. intros. apply data_bind; [apply data_ubyte|]. intros. apply data_ret. }
  apply data_ret.
Qed.
Lemma data_instruction a : same_data (instruction_at a).
Proof. unfold instruction_at. apply data_bind; [apply data_seek|]. intros. apply data_decode. Qed.
Lemma calm_fetch : calm fetch.
Proof.
  intro s. unfold fetch. destruct (instruction_at (v_pc s) (v_text s)) as [[i t]| | |] eqn:E; auto.
  - apply quiet_text. eapply data_instruction; eauto.
  - apply quiet_refl.
  - split; [apply quiet_refl|split; discriminate].
Qed.

(* ------------------------------------------------------------------ *)
(** * Error handling *)

(** Computations that change nothing. *)
Definition looks {A} (m : V A) : Prop := forall s,
  match m s with VRet _ s' | VExc _ s' => s' = s | VUndef k s' => s' = s /\ k <> StackOob /\ k <> StackIndet | VFuel => True end.
Lemma looks_ret {A} (a : A) : looks (vret a). Proof. intro s. reflexivity. Qed.
Lemma looks_throw {A} e : looks (@vthrow A e). Proof. intro s. reflexivity. Qed.
Lemma looks_get : looks vget. Proof. intro s. reflexivity. Qed.
Lemma looks_undef {A} k : k <> StackOob -> k <> StackIndet -> looks (@vundef A k). Proof. intros ? ? s. cbn. auto. Qed.
Lemma looks_lift {A} (o : outcome A) : looks (vlift o).
Proof. intro s. destruct o; cbn; auto. split; [auto|split; discriminate]. Qed.
Lemma looks_bind {A B} (m : V A) (k : A -> V B) : looks m -> (forall a, looks (k a)) -> looks (vbind m k).
Proof.
  intros H1 H2 s. unfold vbind. specialize (H1 s). destruct (m s) as [a s1| | |]; auto. subst. apply H2.
Qed.
Lemma looks_if {A} (b : bool) (m n : V A) : looks m -> looks n -> looks (if b then m else n).
Proof. destruct b; auto. Qed.
Lemma looks_iter {A} (f : A -> V unit) l : (forall a, looks (f a)) -> looks (viter f l).
Proof. intros H. induction l; cbn; [apply looks_ret|]. apply looks_bind; auto. Qed.
Lemma looks_sym i : looks (the_sym i).
Proof. intro s. unfold the_sym. destruct (nth_N _ _); auto. split; [auto|split; discriminate]. Qed.
Lemma looks_ctx c : looks (the_ctx c).
Proof. intro s. unfold the_ctx. destruct c; auto. destruct (nth_N _ _); auto. split; [auto|split; discriminate]. Qed.
Lemma looks_okr {A} (m : V A) : looks m -> keeps m.
Proof.
  intros H s. specialize (H s). destruct (m s); cbn; auto.
  - subst. apply Rn_refl.
  - subst. apply Rn_Rx, Rn_refl.
  - destruct H as (-> & H1 & H2). split; [apply mono_refl|]. intros. split; [auto|congruence].
Qed.
Ltac lookss :=
  repeat first
    [ apply looks_ret | apply looks_throw | apply looks_get | apply looks_lift | apply looks_sym | apply looks_ctx
    | (apply looks_undef; discriminate)
    | (apply looks_iter; intros) | (apply looks_bind; [|intros]) | apply looks_if
    | match goal with |- looks (match ?x with _ => _ end) => destruct x end ].
Lemma looks_trace_frame f : looks (trace_frame f).
Proof. unfold trace_frame, as_sym, rd_float, rd_int, rd_string, rd_inst. lookss. Qed.
Lemma looks_trace_inst c : looks (trace_inst c).
Proof. unfold trace_inst. lookss. Qed.
Lemma looks_trace_glob g : looks (trace_glob g).
Proof. unfold trace_glob, rd_inst. lookss. Qed.

Lemma trace_slots l : forall s, (forall k, In k l -> k < v_sp s) ->
  match viter (fun k => let! f := slot k in trace_frame f) l s with
  | VRet _ s' | VExc _ s' => s' = s
  | VUndef k s' => s' = s /\ (Inv s -> k <> StackOob /\ k <> StackIndet)
  | VFuel => True
  end.
Proof.
  induction l as [|k l IH]; intros s H; [reflexivity|].
  cbn [viter]. unfold vbind at 1, vbind at 1, slot.
  destruct (stack_size <=? k) eqn:E.
  { split; auto. intros I. exfalso. apply N.leb_le in E. pose proof (inv_sp _ I). specialize (H k (or_introl eq_refl)). lia. }
  destruct (v_slots s k) as [f|] eqn:F.
  2:{ split; auto. intros I. destruct (inv_slots _ I k (H k (or_introl eq_refl)) F). }
  pose proof (looks_trace_frame f s) as Q. destruct (trace_frame f s); auto.
  - subst. apply IH. intros j Hj. apply H. right. exact Hj.
  - destruct Q as (-> & ?). auto.
Qed.
Lemma trace_spec s :
  match print_stack_trace s with
  | VRet _ s' | VExc _ s' => s' = s
  | VUndef k s' => s' = s /\ (Inv s -> k <> StackOob /\ k <> StackIndet)
  | VFuel => True
  end.
Proof.
  unfold print_stack_trace. rewrite vbind_get. unfold vbind at 1.
  assert (L1 : looks (viter (fun c => the_sym (c_fun c) ;! vret tt) (v_calls s))) by (lookss).
  specialize (L1 s). destruct (viter _ (v_calls s) s); auto; [|destruct L1; auto]. subst.
  pose proof (trace_slots (rev (upto (v_sp s))) s) as L2. unfold vbind at 1.
  match goal with |- match match ?m with _ => _ end with _ => _ end => change m with (viter (fun k => let! f := slot k in trace_frame f) (rev (upto (v_sp s))) s) end.
  destruct (viter (fun k => let! f := slot k in trace_frame f) (rev (upto (v_sp s))) s) as [u s1|e s1|k s1|].
  - rewrite L2 by (intros k Hk; apply in_rev, in_upto in Hk; exact Hk).
    assert (L3 : looks (viter trace_glob (v_glob s) ;! trace_inst (v_inst s))).
    { apply looks_bind; [apply looks_iter; intros; apply looks_trace_glob|]. intros. apply looks_trace_inst. }
    specialize (L3 s). revert L3.
    match goal with |- match ?m with _ => _ end -> _ => destruct m end; auto. intros (? & ? & ?). auto.
  - apply L2. intros k Hk. apply in_rev, in_upto in Hk. exact Hk.
  - apply L2. intros j Hk. apply in_rev, in_upto in Hk. exact Hk.
  - exact I.
Qed.
Lemma keeps_trace : keeps print_stack_trace.
Proof.
  intro s. pose proof (trace_spec s) as H. destruct (print_stack_trace s); cbn; auto.
  - subst. apply Rn_refl.
  - subst. apply Rn_Rx, Rn_refl.
  - destruct H as [-> H]. split; [apply mono_refl|]. intros J _. destruct (H J). split; [auto|congruence].
Qed.

Lemma note_stale_spec n s s' : Rx s s' -> n = len (v_calls s) ->
  Rn s (set_ghost (mkGhost (g_floor (v_ghost s')) (g_under (v_ghost s')) (g_wrap (v_ghost s'))
                           (g_stale (v_ghost s') || negb (len (v_calls s') =? n))) s').
Proof.
  intros [[S M1 M2 M3 M4 M5] X] ->.
  set (t := set_ghost _ s').
  assert (II : Inv s' -> Inv t) by (intros [T1 T2 T3 T4]; constructor; auto).
  split.
  - constructor; auto.
    + eapply static_trans; [exact S|]. constructor; auto.
    + intros H. unfold stale. cbn. specialize (M4 H). unfold stale in M4. rewrite M4. reflexivity.
  - intros (C1 & C2 & C3) F. unfold stale in C3. cbn in C3. apply orb_false_iff in C3 as [C3 C4].
    destruct (X ltac:(repeat split; assumption) F) as ([G1 G2 G3] & A2 & A3 & ex & A4 & A5).
    apply negb_false_iff, N.eqb_eq in C4. rewrite A4, len_app in C4.
    assert (ex = []) by (destruct ex; auto; rewrite len_cons in C4; lia). subst ex.
    split; [constructor; auto|]. split; [exact A4|]. split; [apply A5; reflexivity|exact A3].
Qed.

Lemma okr_handle h i s e s' : kind_host h -> Rx s s' -> okr s (handle h i (len (v_calls s)) e s').
Proof.
  intros KH X. unfold handle. rewrite vbind_get. cbv zeta.
  assert (T : okr s ((print_stack_trace ;! vthrow e : V bool) s')).
  { pose proof (keeps_bind _ (fun _ => vthrow e : V bool) keeps_trace (fun _ => keeps_throw e) s') as K.
    unfold vbind in *. destruct (print_stack_trace s') as [u s1|e1 s1|k s1|]; cbn in *; eauto using Rx_trans.
    eapply Ru_mono; [apply X|exact K]. }
  destruct (h_handler h) as [hd|] eqn:E; [|exact T].
  pose proof (kh_handler _ KH _ E e i s') as K. unfold vbind at 1.
  destruct (hd e i s') as [st s1|e1 s1|k s1|]; cbn in K.
  2:{ eapply Rx_trans; eauto. }
  2:{ eapply Ru_mono; [apply X|exact K]. }
  2:{ exact I. }
  assert (X1 : Rx s s1) by (eapply Rxn_trans; eauto).
  pose proof (note_stale_spec _ s s1 X1 eq_refl) as N1.
  destruct st.
  - unfold note_stale. rewrite !vbind_mod. cbn [okr vret v_pc set_ghost]. destruct (v_pc s1 =? v_pc s'); [|exact N1].
    eapply Rn_trans; [exact N1|]. apply quiet_Rn, quiet_pc.
  - unfold note_stale. rewrite !vbind_mod. exact N1.
  - pose proof (keeps_bind _ (fun _ => vthrow e : V bool) keeps_trace (fun _ => keeps_throw e) s1) as K1.
    unfold vbind in *. destruct (print_stack_trace s1) as [u s2|e2 s2|k s2|]; cbn in *; eauto using Rx_trans.
    eapply Ru_mono; [apply X1|exact K1].
Qed.

Lemma keeps_exec h call : kind_host h -> (forall f, keeps (call f)) -> keeps (exec h call).
Proof.
  intros KH KC. unfold exec. apply keeps_bind; [apply calm_keeps, calm_fetch|]. intros i s.
  pose proof (keeps_step h call i KH KC s) as K. destruct (step h call i s) as [b s1|e s1|k s1|]; auto.
  destruct (is_script_error e); [|exact K]. apply okr_handle; auto.
Qed.

Lemma keeps_run h n : kind_host h -> keeps (run n h).
Proof.
  intros KH. induction n as [|n IH]; [apply keeps_fuel|].
  cbn [run]. apply keeps_bind; [|intros []; [exact IH|apply keeps_ret]].
  apply keeps_exec; auto. intros f. apply keeps_call_with, IH.
Qed.
Lemma keeps_unsafe_call h n f : kind_host h -> keeps (unsafe_call n h f).
Proof. intros KH. apply keeps_call_with, keeps_run, KH. Qed.
