(** Property C135: stack traces. *)

From Coq Require Import ZArith Lia.
From Verif Require Import MBase MStream MDaedalus MVm SVm SVmOps SVmProps SSym SDaedalus STrace LBase LVm LVmApi LTrace PropertiesDaedalus.
Local Open Scope N_scope.
Local Open Scope v_scope.

(** ** C135 *)
(** Printing a stack trace changes nothing, however it ends. *)
Theorem C135_silent : forall s, match print_stack_trace s with VRet _ s' | VExc _ s' | VUndef _ s' => s' = s | VFuel => True end.
Proof. exact trace_silent. Qed.
Print Assumptions C135_silent.
(** It succeeds exactly if everything on the stacks can be read with the current instance, function
    variables hold functions and instances know their types and symbols. *)
Theorem C135_printed : forall s, print_stack_trace s = VRet tt s <-> traceable s.
Proof. exact trace_iff. Qed.
Print Assumptions C135_printed.
(** Then the host gets the error of the script. *)
Theorem C135_error_partial : forall h call s i s1 e s2, fetch s = VRet i s1 -> step h call i s1 = VExc e s2 ->
  is_script_error e = true -> h_handler h = None -> traceable s2 -> exec h call s = VExc e s2.
Proof. exact trace_error. Qed.
Print Assumptions C135_error_partial.

(** A member that can be read, of the instance it was pushed with, cannot be printed. *)
Definition pushed_member : vm :=
  match (opaque_run ;! vmod (set_inst (Some 0)) ;! push_reference 3 0 ;! vmod (set_inst None)) (boot opaque_script 0) with VRet _ s => s | _ => boot opaque_script 0 end.
Theorem C135_context_refuted : exists s f, reachable s /\ from_top s 0 f /\ int_operand s f 0 /\ print_stack_trace s = VExc NoContext s.
Proof.
  exists pushed_member, (mkFrame (Some 0) true (FSym 3) 0). split.
  - exists opaque_script, 0, [opaque_run ;! vmod (set_inst (Some 0)) ;! push_reference 3 0 ;! vmod (set_inst None)].
    split; [apply script_okb_ok; vm_compute; reflexivity|]. split; [|vm_compute; reflexivity]. constructor; [|constructor].
    apply api_bind; [apply api_bind; [apply api_init_opaque, bare_api|intros _; apply api_bind; [apply api_init_opaque, bare_api|intros _; apply api_ret]]|intros _].
    apply api_bind; [apply api_gi|intros _]. apply api_bind; [apply api_push_reference|intros _]. apply api_gi.
  - split; [split; [vm_compute; reflexivity|split; [vm_compute; discriminate|vm_compute; reflexivity]]|]. split; [|vm_compute; reflexivity].
    right. exists 3. eexists. split; [reflexivity|]. split; [reflexivity|]. split; [vm_compute; reflexivity|]. split; [intros _; discriminate|vm_compute; reflexivity].
Qed.
Print Assumptions C135_context_refuted.
(** A function variable that holds no function (-1) on the stack: a null pointer is followed. *)
Definition function_script : script := a_script [a_sym (lit "F") T_FUNCTION 0 1 (SInts [Some (-1)%Z]) none32 T_VOID] (assemble [RSR]).
Definition pushed_function : vm := match push_reference 0 0 (boot function_script 0) with VRet _ s => s | _ => boot function_script 0 end.
Theorem C135_function_refuted : exists s f, reachable s /\ from_top s 0 f /\ int_operand s f (-1) /\ print_stack_trace s = VUndef NullPtr s.
Proof.
  exists pushed_function, (mkFrame None true (FSym 0) 0). split.
  - exists function_script, 0, [push_reference 0 0]. split; [apply script_okb_ok; vm_compute; reflexivity|].
    split; [constructor; [apply api_push_reference|constructor]|vm_compute; reflexivity].
  - split; [split; [vm_compute; reflexivity|split; [vm_compute; discriminate|vm_compute; reflexivity]]|]. split; [|vm_compute; reflexivity].
    right. exists 0. eexists. split; [reflexivity|]. split; [reflexivity|]. split; [vm_compute; reflexivity|]. split; [discriminate|vm_compute; reflexivity].
Qed.
Print Assumptions C135_function_refuted.
(** An instance the host made and did not initialise, on the stack: likewise. *)
Definition untyped : inst := mkInst none32 None 8 (fun _ => None).
Definition pushed_instance : vm :=
  match (vmod (fun s => set_heap (v_heap s ++ [untyped]) s) ;! push_instance (Some 0)) (boot function_script 0) with VRet _ s => s | _ => boot function_script 0 end.
Theorem C135_instance_refuted : exists s, reachable s /\ from_top s 0 (mkFrame None false (FInst (Some 0)) 0) /\ print_stack_trace s = VUndef NullPtr s.
Proof.
  exists pushed_instance. split.
  - exists function_script, 0, [vmod (fun s => set_heap (v_heap s ++ [untyped]) s) ;! push_instance (Some 0)]. split; [apply script_okb_ok; vm_compute; reflexivity|].
    split; [constructor; [apply api_bind; [apply api_new|intros _; apply api_push_instance]|constructor]|vm_compute; reflexivity].
  - split; [split; [vm_compute; reflexivity|split; [vm_compute; discriminate|vm_compute; reflexivity]]|vm_compute; reflexivity].
Qed.
Print Assumptions C135_instance_refuted.
(** An integer, a string, an instance and a member of the current instance on the stack. *)
Definition pushed_all : vm :=
  match (opaque_run ;! push_int 7 ;! push_string (lit "s") ;! push_instance (Some 1) ;! vmod (set_inst (Some 0)) ;! push_reference 3 0) (boot opaque_script 0) with
  | VRet _ s => s | _ => boot opaque_script 0 end.
Example C135_example : v_sp pushed_all = 4 /\ traceable pushed_all.
Proof. split; [vm_compute; reflexivity|]. apply C135_printed. vm_compute. reflexivity. Qed.
