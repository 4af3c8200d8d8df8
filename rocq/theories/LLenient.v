(** The lenient exception handler. *)

From Coq Require Import ZArith Lia ZifyN ZifyBool ZifyNat.
From Verif Require Import MBase LBase MStream MDaedalus MVm SVm SVmOps SSym LVm LVmCall LVmRun LVmExact LVmApi LSym LDaedalus LVmOps LVmProps LVmDae SLenient.
Local Open Scope N_scope.
Local Open Scope v_scope.

Lemma gives_value_iff op : gives_value op <->
  (op <=? 8) || ((11 <=? op) && (op <=? 18)) || ((30 <=? op) && (op <=? 33)) ||
      (op =? op_PUSHI) || (op =? op_PUSHV) || (op =? op_PUSHVI) || (op =? op_PUSHVV) = true.
Proof. unfold gives_value. cbn [In]. unfold op_PUSHI, op_PUSHV, op_PUSHVI, op_PUSHVV. lia. Qed.

Lemma lenient_value e i s : gives_value (i_op i) ->
  lenient_handler e i s = (push_int 0 ;! vret Continue) s.
Proof. intros H. unfold lenient_handler. apply gives_value_iff in H. rewrite H. reflexivity. Qed.
Lemma lenient_other e i s : ~ gives_value (i_op i) -> lenient_handler e i s = VRet Continue s.
Proof.
  intros H. unfold lenient_handler. destruct (_ || _) eqn:E; [|reflexivity]. exfalso. apply H, gives_value_iff, E.
Qed.

Lemma lenient_statement h call s i s1 e s2 : lenient h -> fetch s = VRet i s1 -> step h call i s1 = VExc e s2 ->
  is_script_error e = true -> ~ gives_value (i_op i) ->
  exists s', exec h call s = VRet true s' /\ same_machine (set_pc (u32 (v_pc s2 + i_size i)) s2) s'.
Proof.
  intros L F S E G. destruct (exec_continue h call s i s1 e s2 _ s2 F S E L (lenient_other e i s2 G)) as (s4 & X & M).
  rewrite N.eqb_refl in M. eauto.
Qed.
Lemma lenient_result h call s i s1 e s2 : lenient h -> fetch s = VRet i s1 -> step h call i s1 = VExc e s2 ->
  is_script_error e = true -> gives_value (i_op i) -> v_sp s2 < stack_size ->
  exists s', exec h call s = VRet true s' /\ replaces s2 s' 0 (plain 0) (i_size i).
Proof.
  intros L F S E G R.
  assert (P : lenient_handler e i s2 = VRet Continue (set_stack (upd (v_slots s2) (v_sp s2) (Some (plain 0))) (u16 (v_sp s2 + 1)) s2)).
  { rewrite (lenient_value e i s2 G). unfold vbind. rewrite (push_int_at 0 s2 R). reflexivity. }
  destruct (exec_continue h call s i s1 e s2 _ _ F S E L P) as (s4 & X & M). exists s4. split; [exact X|].
  cbn [v_pc set_stack] in M. rewrite N.eqb_refl in M. unfold same_machine in M. unfold stack_size in R.
  rewrite u16_small in M by lia.
  unfold replaces. rewrite N.sub_0_r.
  destruct s4; cbn in M; injection M as -> -> -> -> -> -> -> -> -> -> -> -> -> ->; cbn.
  unfold upd. rewrite N.eqb_refl. split; [reflexivity|]. split; [reflexivity|].
  split; [intros k K; replace (k =? v_sp s2) with false by lia; reflexivity|]. auto 20.
Qed.
Lemma lenient_full h call s i s1 e s2 : lenient h -> fetch s = VRet i s1 -> step h call i s1 = VExc e s2 ->
  is_script_error e = true -> gives_value (i_op i) -> v_sp s2 = stack_size -> exec h call s = VExc VmException s2.
Proof.
  intros L F S E G R. rewrite (exec_error _ _ _ _ _ _ _ F S), E. unfold handle. rewrite vbind_get, L. unfold vbind at 1.
  rewrite (lenient_value e i s2 G). unfold vbind at 1. unfold push_int. rewrite (push_full _ _ R). reflexivity.
Qed.

Lemma lenient_division h call s i s1 fa fb a : lenient h -> fetch s = VRet i s1 -> i_op i = 3 \/ i_op i = 4 ->
  from_top s1 0 fa -> from_top s1 1 fb -> int_operand s1 fa a -> int_operand s1 fb 0 ->
  exists s', exec h call s = VRet true s' /\ replaces s1 s' 2 (plain 0) (i_size i).
Proof.
  intros L F H T1 T2 O1 O2.
  assert (S : step h call i s1 = VExc VmException (popped (popped s1))).
  { unfold step. rewrite instruct_binary by (destruct H as [-> | ->]; reflexivity). unfold vbind at 1. rewrite (binop_at _ s1 fa fb a 0 T1 T2 O1 O2).
    destruct H as [-> | ->]; reflexivity. }
  pose proof (from_top_popped _ _ _ T1 T2) as T3.
  assert (Q : v_sp (popped (popped s1)) = v_sp s1 - 2) by (rewrite (popped_sp _ _ T3), (popped_sp _ _ T1); lia).
  destruct (lenient_result h call s i s1 _ _ L F S eq_refl) as (s' & X & R).
  - unfold gives_value. destruct H as [-> | ->]; cbn; auto 10.
  - rewrite Q. destruct T2 as (K1 & K2 & _). lia.
  - exists s'. split; [exact X|]. pose proof (replaces_2 s1 fa fb 0 (i_size i) T1 T2) as W.
    unfold replaces, answer in *. rewrite N.sub_0_r in R.
    set (t := popped (popped s1)) in *. cbn [v_sp set_stack set_pc pc_next v_slots v_pc v_syms v_heap v_calls v_free v_inst v_flags v_text v_names v_addrs v_tmp v_glob] in W.
    destruct R as (R1 & R2 & R3 & R4 & R5 & R6 & R7 & R8 & R9 & R10 & R11 & R12 & R13 & R14 & R15).
    destruct W as (W1 & W2 & W3 & W4 & W5 & W6 & W7 & W8 & W9 & W10 & W11 & W12 & W13 & W14 & W15).
    rewrite Q in *. split; [exact R1|]. split; [exact R2|]. split.
    { intros k K. rewrite (R3 k K), <- (W3 k K). unfold upd. replace (k =? v_sp s1 - 2) with false by lia. reflexivity. }
    repeat (split; [congruence|]). congruence.
Qed.
Lemma filled n : forall s, v_sp s + N.of_nat n <= stack_size ->
  exists s', perform (repeat (push_int 0) n) s = VRet tt s' /\ v_sp s' = v_sp s + N.of_nat n /\ v_text s' = v_text s /\ v_pc s' = v_pc s.
Proof.
  induction n as [|n IH]; intros s H; cbn [repeat perform].
  { exists s. split; [reflexivity|]. split; [lia|auto]. }
  rewrite push_int_at by lia. edestruct IH as (s' & X & A & B & C).
  2:{ exists s'. split; [exact X|]. rewrite A, B, C. cbn. unfold stack_size in H. rewrite u16_small by lia. split; [lia|auto]. }
  cbn. unfold stack_size in *. rewrite u16_small by lia. lia.
Qed.
