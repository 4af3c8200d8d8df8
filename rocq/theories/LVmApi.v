(** Everything a host can do preserves the invariants. *)

From Coq Require Import Lia.
From Verif Require Import MBase LBase MStream MDaedalus MVm LVm LVmCall LVmRun SVm.
Local Open Scope N_scope.
Local Open Scope v_scope.
Ltac Zify.zify_post_hook ::= idtac.

Lemma keeps_bad {A} ty : keeps (@bad_external A ty).
Proof. unfold bad_external. keepss. Qed.
Lemma keeps_push_value v : keeps (push_value v).
Proof. unfold push_value. keepss. Qed.
Lemma keeps_check_inst t c : keeps (check_inst_type t c).
Proof. unfold check_inst_type. keepss. Qed.
Lemma keeps_follow n : forall i, keeps (follow_func n i).
Proof.
  induction n as [|n IH]; intros i; cbn [follow_func]; [apply keeps_fuel|].
  keepss. apply IH.
Qed.
Lemma keeps_pop_value p : keeps (pop_value p).
Proof. unfold pop_value. keepss; auto using keeps_check_inst, keeps_follow. Qed.
Lemma keeps_pop_values ps : keeps (pop_values ps).
Proof. induction ps; cbn [pop_values]; keepss; auto using keeps_pop_value. Qed.
Lemma keeps_wrap ps r cb : (forall l, keeps (cb l)) -> keeps (wrap_external ps r cb).
Proof.
  intros H. unfold wrap_external. apply keeps_bind; [apply keeps_pop_values|]. intros vs.
  apply keeps_bind; [apply H|]. intros v. destruct r; auto using keeps_push_value, keeps_ret.
Qed.
Lemma keeps_default cb i : (forall j, keeps (cb j)) -> keeps (default_external cb i).
Proof.
  intros H. unfold default_external. apply keeps_bind; [apply calm_keeps, calm_sym|]. intros x.
  apply keeps_bind; [apply keeps_iter; intros; keepss|]. intros _. apply keeps_bind; [keepss|]. intros _. apply H.
Qed.
Lemma keeps_lenient e i : keeps (lenient_handler e i).
Proof. unfold lenient_handler. keepss. Qed.

Lemma keeps_push_params vs : forall first, keeps (push_params first vs).
Proof.
  induction vs as [|v vs IH]; intros first; cbn [push_params]; [apply keeps_ret|].
  apply keeps_bind; [apply keeps_get|]. intros s. destruct (nth_N _ _); [|apply keeps_undef; discriminate].
  apply keeps_if; [|apply keeps_bad]. apply keeps_bind; [apply keeps_push_value|]. intros _. apply IH.
Qed.

Lemma keeps_drop : keeps (vmod note_drop ;! vmod (fun s => set_stack (v_slots s) (uint 16 (Z.of_N (v_sp s) - 1)) s)).
Proof.
  intros s. unfold vbind, vmod, okr.
  set (t := set_stack (v_slots (note_drop s)) (uint 16 (Z.of_N (v_sp (note_drop s)) - 1)) (note_drop s)).
  assert (S : static s t) by (constructor; auto).
  assert (P : v_sp s <> 0 -> v_sp s <= stack_size -> v_sp t = v_sp s - 1).
  { intros H H'. unfold stack_size in H'. cbn. rewrite uint_small; [lia|]. change (2 ^ 16) with 65536. lia. }
  assert (II : Inv s -> wrapped t = false -> Inv t).
  { intros [T1 T2 T3 T4] W. unfold wrapped in W. cbn in W. apply orb_false_iff in W as [_ W]. apply N.eqb_neq in W.
    constructor; auto.
    - rewrite P by auto. lia.
    - intros i Hi. rewrite P in Hi by auto. apply T3. lia. }
  split.
  - constructor; auto; unfold under, wrapped; cbn; intros ->; reflexivity.
  - intros (C1 & C2 & C3) [F1 F2 F3]. pose proof (II F1 C2) as I2.
    unfold under in C1. cbn in C1. apply orb_false_iff in C1 as [_ C1]. apply N.leb_gt in C1.
    split; [constructor; auto|].
    + rewrite P; [unfold floor; cbn; lia|lia|apply F1].
    + split; [reflexivity|]. split; [reflexivity|]. intros i Hi. reflexivity.
Qed.
Lemma keeps_take_result x r : keeps (take_result x r).
Proof.
  unfold take_result. destruct r; [|solve [keepss; auto using keeps_check_inst]..].
  - apply keeps_bind; [|intros; apply keeps_ret]. destruct (has_return x); [apply keeps_drop|apply keeps_ret].
Qed.
Lemma keeps_call_function n h f args r : kind_host h -> keeps (call_function n h f args r).
Proof.
  intros KH. unfold call_function. destruct f; [|apply keeps_throw].
  apply keeps_bind; [apply calm_keeps, calm_sym|]. intros x. apply keeps_if; [apply keeps_throw|].
  apply keeps_if; [apply keeps_throw|]. apply keeps_bind; [unfold check_call_return; cbv zeta; keepss|]. intros _.
  apply keeps_bind; [apply keeps_push_params|]. intros _.
  apply keeps_bind; [apply keeps_unsafe_call, KH|]. intros _. apply keeps_take_result.
Qed.
Lemma keeps_allocate n t i f : keeps (allocate_instance n t i f).
Proof. unfold allocate_instance. keepss. Qed.
Lemma keeps_init n h t i f : kind_host h -> keeps (init_instance n h t i f).
Proof.
  intros KH. unfold init_instance. apply keeps_bind; [apply keeps_allocate|]. intros _.
  apply keeps_bind; [apply keeps_get|]. intros s. cbv zeta. apply keeps_bind; [keepss|]. intros old.
  apply keeps_bind; [apply keeps_mod; intros; apply quiet_inst|]. intros _. apply keeps_bind; [keepss|]. intros _.
  apply keeps_bind; [destruct f; [apply keeps_unsafe_call, KH|apply keeps_undef; discriminate]|]. intros _.
  apply keeps_bind; [apply keeps_mod; intros; apply quiet_inst|]. intros _. keepss.
Qed.
Lemma keeps_init_opaque n h f : kind_host h -> keeps (init_opaque_instance n h f).
Proof.
  intros KH. unfold init_opaque_instance. apply keeps_bind; [apply keeps_get|]. intros s.
  apply keeps_bind; [apply keeps_lift|]. intros [c|]; [|apply keeps_throw].
  apply keeps_bind; [apply keeps_lift|]. intros o. cbv zeta.
  apply keeps_bind; [apply keeps_mod; intros; apply quiet_heap|]. intros _.
  apply keeps_bind; [apply keeps_init, KH|]. intros _. apply keeps_ret.
Qed.

Fixpoint api_keeps {A} (m : V A) (H : api m) {struct H} : keeps m
with api_kind h (H : api_host h) {struct H} : kind_host h.
Proof.
  - destruct H.
    + apply keeps_ret.
    + apply keeps_throw.
    + apply keeps_bind; [apply api_keeps; assumption|]. intros a. apply api_keeps. auto.
    + apply keeps_get.
    + apply keeps_push_int.
    + apply keeps_push_float.
    + apply keeps_push_instance.
    + apply keeps_push_reference.
    + apply keeps_push_string.
    + apply keeps_pop_int.
    + apply keeps_pop_float.
    + apply keeps_pop_instance.
    + apply keeps_pop_reference.
    + apply keeps_pop_string.
    + apply calm_keeps, calm_wr_int.
    + apply calm_keeps, calm_wr_float.
    + apply calm_keeps, calm_wr_string.
    + apply calm_keeps, calm_wr_inst.
    + apply keeps_mod. intros. apply quiet_inst.
    + apply keeps_mod. intros. apply quiet_heap.
    + apply keeps_unsafe_call, api_kind. assumption.
    + apply keeps_call_function, api_kind. assumption.
    + apply keeps_init, api_kind. assumption.
    + apply keeps_init_opaque, api_kind. assumption.
    + apply keeps_wrap. intros l. apply api_keeps. auto.
    + apply keeps_bracket, keeps_wrap. intros l. apply api_keeps. auto.
    + apply keeps_default. intros j. apply api_keeps. auto.
    + apply keeps_lenient.
  - destruct H as [h H1 H2 H3 H4 H5]. constructor; intros.
    + apply api_keeps. eapply H1; eassumption.
    + apply api_keeps. eapply H2; eassumption.
    + apply api_keeps. eapply H3; eassumption.
    + apply api_keeps. eapply H4; eassumption.
    + apply api_keeps. eapply H5; eassumption.
Qed.

(* ------------------------------------------------------------------ *)
(** * Histories *)

Lemma perform_spec hist : Forall api hist -> forall s,
  match perform hist s with
  | VRet _ s' => Rx s s'
  | VUndef k s' => Ru k s s'
  | VExc _ _ => False
  | VFuel => True
  end.
Proof.
  induction 1 as [|m r H _ IH]; intros s; [apply Rn_Rx, Rn_refl|].
  cbn. pose proof (api_keeps m H s) as K. destruct (m s) as [a s1|e s1|k s1|]; auto.
  - specialize (IH s1). destruct (perform r s1); auto; [eapply Rnx_trans; eauto|eapply Ru_mono; [apply K|exact IH]].
  - specialize (IH s1). destruct (perform r s1); auto; [eapply Rx_trans; eauto|eapply Ru_mono; [apply K|exact IH]].
Qed.

Lemma nth_N_In {A} (l : list A) i x : nth_N l i = Some x -> In x l.
Proof. unfold nth_N. destruct (_ <? _); [|discriminate]. apply nth_error_In. Qed.
Lemma boot_framed sc flags : script_ok sc -> Framed (boot sc flags).
Proof.
  intros (H1 & H2 & H3). constructor; [constructor| |].
  - split; [|split; [|split]].
    + cbn. rewrite len_app, len_cons, len_nil. change (2 ^ 19) with 524288. lia.
    + cbn. intros i x H _. apply nth_N_In, in_app_or in H as [H|[<-|[]]]; auto. cbn. lia.
    + cbn. intros i x H R. apply nth_N_In, in_app_or in H as [H|[<-|[]]]; [apply H3; auto|discriminate].
    + exists temp_symbol. split; auto. cbn. unfold nth_N. rewrite len_app, len_cons, len_nil.
      replace (_ <? _) with true by (symmetry; apply N.ltb_lt; lia). unfold len. rewrite Nat2N.id.
      rewrite nth_error_app2 by lia. rewrite Nat.sub_diag. reflexivity.
  - cbn. unfold stack_size. lia.
  - cbn. lia.
  - cbn. intros c [].
  - cbn. lia.
  - cbn. intros c [].
Qed.

Lemma history_bounds sc flags hist : script_ok sc -> Forall api hist ->
  match perform hist (boot sc flags) with
  | VRet _ s => wrapped s = false -> v_sp s <= stack_size /\ forall i, i < v_sp s -> v_slots s i <> None
  | VUndef k s => wrapped s = false -> k <> StackIndet /\ (under s = false -> k <> StackOob)
  | VExc _ _ => False
  | VFuel => True
  end.
Proof.
  intros H1 H2. pose proof (perform_spec hist H2 (boot sc flags)) as P. pose proof (boot_framed sc flags H1) as F.
  destruct (perform hist (boot sc flags)) as [a s|e s|k s|]; auto.
  - intros W. destruct (mo_inv _ _ (proj1 P) (fr_inv _ F) W). auto.
  - intros W. destruct (proj2 P (fr_inv _ F) W) as [A B]. split; auto. intros U ->. rewrite B in U; auto. discriminate.
Qed.

Lemma reachable_framed s : reachable s -> disciplined s -> Framed s.
Proof.
  intros (sc & fl & hist & H1 & H2 & H3) D. pose proof (perform_spec hist H2 (boot sc fl)) as P. rewrite H3 in P.
  apply (proj2 P D (boot_framed sc fl H1)).
Qed.
