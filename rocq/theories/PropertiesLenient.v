(** Property C136: the lenient exception handler. *)

From Coq Require Import ZArith Lia.
From Verif Require Import MBase MStream MDaedalus MVm SVm SVmOps SVmProps SSym SDaedalus SLenient SAssign LBase LVm LVmApi LVmOps LAssign LLenient PropertiesDaedalus.
Local Open Scope N_scope.
Local Open Scope v_scope.

(** ** C136 *)
(** An instruction raises a script error [e], leaving state [s2].  If it should have given a
    value, the value is 0; the next instruction follows. *)
Theorem C136_result_partial : forall h call s i s1 e s2, lenient h -> fetch s = VRet i s1 -> step h call i s1 = VExc e s2 ->
  is_script_error e = true -> gives_value (i_op i) -> v_sp s2 < stack_size ->
  exists s', exec h call s = VRet true s' /\ replaces s2 s' 0 (plain 0) (i_size i).
Proof. exact lenient_result. Qed.
Print Assumptions C136_result_partial.
(** Any other instruction is given up; the next one follows. *)
Theorem C136_statement : forall h call s i s1 e s2, lenient h -> fetch s = VRet i s1 -> step h call i s1 = VExc e s2 ->
  is_script_error e = true -> ~ gives_value (i_op i) ->
  exists s', exec h call s = VRet true s' /\ same_machine (set_pc (u32 (v_pc s2 + i_size i)) s2) s'.
Proof. exact lenient_statement. Qed.
Print Assumptions C136_statement.
(** Dividing by zero gives 0 in place of both operands. *)
Theorem C136_division : forall h call s i s1 fa fb a, lenient h -> fetch s = VRet i s1 -> i_op i = 3 \/ i_op i = 4 ->
  from_top s1 0 fa -> from_top s1 1 fb -> int_operand s1 fa a -> int_operand s1 fb 0 ->
  exists s', exec h call s = VRet true s' /\ replaces s1 s' 2 (plain 0) (i_size i).
Proof. exact lenient_division. Qed.
Print Assumptions C136_division.
(** Where the stack is full the handler throws itself, and the error reaches the host. *)
Theorem C136_full : forall h call s i s1 e s2, lenient h -> fetch s = VRet i s1 -> step h call i s1 = VExc e s2 ->
  is_script_error e = true -> gives_value (i_op i) -> v_sp s2 = stack_size -> exec h call s = VExc VmException s2.
Proof. exact lenient_full. Qed.
Print Assumptions C136_full.
Definition forgiving : host := with_handler lenient_handler.
Theorem C136_full_refuted : exists s s2, reachable s /\ lenient forgiving /\ exec forgiving (unsafe_call 1 forgiving) s = VExc VmException s2.
Proof.
  set (sc := a_script [a_func (lit "MAIN") 0 T_VOID 0] (assemble [ACode 64; ACode 0; ACode 0; ACode 0; ACode 0; RSR])).
  destruct (filled (N.to_nat stack_size) (boot sc 0)) as (s & P & A & B & C); [rewrite N2Nat.id; cbn; lia|].
  rewrite N2Nat.id in A.
  set (i := mkI 64 0 0 0 0 5).
  assert (F : exists s1, fetch s = VRet i s1 /\ v_sp s1 = stack_size).
  { unfold fetch. rewrite B, C.
    destruct (instruction_at (v_pc (boot sc 0)) (v_text (boot sc 0))) as [[j t]| | |] eqn:E; vm_compute in E; [|discriminate..].
    injection E as <- <-. eexists. split; [reflexivity|]. exact A. }
  destruct F as (s1 & F & S1).
  exists s, s1. split; [|split; [reflexivity|]].
  - exists sc, 0, (repeat (push_int 0) (N.to_nat stack_size)). split; [apply script_okb_ok; vm_compute; reflexivity|]. split; [|exact P].
    apply Forall_forall. intros m M. apply repeat_spec in M as ->. apply api_push_int.
  - apply (C136_full forgiving _ s i s1 VmException s1); [reflexivity|exact F| |reflexivity|cbn; auto 30|exact S1].
    destruct (LAssign.push_step forgiving (unsafe_call 1 forgiving) i s1 (plain 0)) as (_ & K); [left; split; reflexivity|]. apply K, S1.
Qed.
Print Assumptions C136_full_refuted.
(** An operator that fails with its first operand leaves one value more on the stack than one
    that succeeds: here an instance and an integer are "added". *)
Definition adding : script := a_script [a_func (lit "MAIN") 0 T_VOID 0] (assemble [ACode 0; RSR]).
Definition mixed : vm := match (push_int 7 ;! push_instance None) (boot adding 0) with VRet _ s => s | _ => boot adding 0 end.
Theorem C136_depth_refuted : exists s i s1 s', reachable s /\ lenient forgiving /\ fetch s = VRet i s1 /\ i_op i = 0 /\ v_sp s = 2 /\
  exec forgiving (unsafe_call 1 forgiving) s = VRet true s' /\ v_sp s' = 2.
Proof.
  exists mixed. destruct (fetch mixed) as [i s1| | |] eqn:F; [|vm_compute in F; discriminate..]. exists i, s1.
  destruct (exec forgiving (unsafe_call 1 forgiving) mixed) as [b s'| | |] eqn:X; [|vm_compute in X; discriminate..]. exists s'. split.
  - exists adding, 0, [push_int 7 ;! push_instance None]. split; [apply script_okb_ok; vm_compute; reflexivity|].
    split; [constructor; [apply api_bind; [apply api_push_int|intros _; apply api_push_instance]|constructor]|vm_compute; reflexivity].
  - split; [reflexivity|]. split; [reflexivity|]. vm_compute in F. injection F as <- <-. split; [reflexivity|]. split; [vm_compute; reflexivity|].
    vm_compute in X. injection X as <- <-. split; reflexivity.
Qed.
Print Assumptions C136_depth_refuted.
(** 5 / 0, and then the script goes on. *)
Example C136_example : match (operands 0 5 ;! exec forgiving (unsafe_call 1 forgiving)) (boot (a_script [a_func (lit "MAIN") 0 T_VOID 0] (assemble [ACode 3; RSR])) 0) with
  | VRet true s => v_sp s = 1 /\ v_slots s 0 = Some (plain 0) /\ v_pc s = 1 | _ => False end.
Proof. vm_compute. auto. Qed.
