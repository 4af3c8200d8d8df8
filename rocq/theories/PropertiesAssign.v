(** Properties C132 and C133: assignments, pushes, access traps. *)

From Coq Require Import ZArith Lia.
From Verif Require Import MBase MStream MDaedalus MVm SVm SVmOps SVmProps SSym SDaedalus SAssign LBase LVm LVmProps LAssign PropertiesDaedalus.
Local Open Scope N_scope.
Local Open Scope v_scope.

(* ------------------------------------------------------------------ *)
(** ** C132 *)
(** movi, movvf, movf, movs take the target and the value from the stack and do what the host's
    [set_int], [set_float], [set_string] do with them: the same change or the same error. *)
Theorem C132_assign : forall h call ins s i idx c f v, assigns (i_op ins) (kind_of v) = true ->
  target s i idx c -> from_top s 1 f -> operand s f v ->
  exists s1, took s s1 2 /\ step h call ins s = then_next (i_size ins) (write_el v i idx c s1).
Proof. exact assign_step. Qed.
Print Assumptions C132_assign.
(** Hence the element named reads as the value afterwards, and everything else as before. *)
Theorem C132_effect : forall U h call ins s i idx c f v s', assigns (i_op ins) (kind_of v) = true ->
  target s i idx c -> from_top s 1 f -> operand s f v -> layout_ok U s -> U i -> value_ok v ->
  step h call ins s = VRet true s' ->
  forall k j jdx d y n, U j -> nth_N (v_syms s) j = Some y -> (k = KFlt -> is_member y = true -> jdx < 256) -> the_ctx d s = VRet n s ->
    read_el k j jdx d s' = holds_after k j jdx d (is_member y) (mkWrite v i idx c) (read_el k j jdx d s) s'.
Proof. exact assign_effect. Qed.
Print Assumptions C132_effect.
(** A temporary string is assigned likewise and can be used again. *)
Theorem C132_temporary : forall h call ins s i idx c d t y v, i_op ins = 70 ->
  target s i idx c -> from_top s 1 (mkFrame d true (FSym (v_tmp s)) t) -> t < 256 ->
  nth_N (v_syms s) (v_tmp s) = Some y -> is_member y = false -> rd_string (v_tmp s) t d s = VRet v s ->
  exists s1, took_temporary s s1 2 t /\ step h call ins s = then_next (i_size ins) (wr_string i v idx c s1).
Proof. exact assign_temporary. Qed.
Print Assumptions C132_temporary.
(** [x += v] and the like assign what the operator computes from the old value and the operand. *)
Theorem C132_compound : forall h call ins s i idx c f v o r, 19 <= i_op ins <= 22 ->
  target s i idx c -> from_top s 1 f -> int_operand s f v -> rd_int i idx c s = VRet o s -> int32 o -> int32 v ->
  binary (i_op ins - 19) o v = Some r ->
  exists s1, took s s1 2 /\ step h call ins s = then_next (i_size ins) (wr_int i r idx c s1).
Proof. exact compound_step. Qed.
Print Assumptions C132_compound.
Theorem C132_division : forall h call ins s i idx c f, i_op ins = 22 ->
  target s i idx c -> from_top s 1 f -> int_operand s f 0 ->
  exists s1, took s s1 2 /\ step h call ins s = VExc VmException s1.
Proof. exact compound_zero. Qed.
Print Assumptions C132_division.
(** Instances. *)
Theorem C132_instance : forall h call ins s i idx c f v s', i_op ins = 74 ->
  from_top s 0 (mkFrame c true (FSym i) idx) -> i <> v_tmp s -> from_top s 1 f -> instance_operand s f v ->
  step h call ins s = VRet true s' ->
  rd_inst i s' = VRet v s' /\ v_heap s' = v_heap s /\ v_sp s' = v_sp s - 2 /\ v_pc s' = u32 (v_pc s + i_size ins) /\
  forall j, j <> i -> nth_N (v_syms s') j = nth_N (v_syms s) j.
Proof. exact assign_instance_effect. Qed.
Print Assumptions C132_instance.

(** Two integers, a float, two strings, an instance variable; assignments about to be executed. *)
Definition assign_script : script := a_script
  [an_int (lit "X") 5; an_int (lit "Y") 8; a_sym (lit "F") T_FLOAT 0 2 (SFloats [Some 1; Some 2]) none32 T_VOID;
   a_sym (lit "S") T_STRING 0 1 (SStrs [lit "s"]) none32 T_VOID; a_sym (lit "T") T_STRING 0 1 (SStrs [lit "t"]) none32 T_VOID;
   an_instance (lit "I") 0 0] (assemble [RSR]).
Definition after_pushes (m : V unit) : vm := match m (boot assign_script 0) with VRet _ s => s | _ => boot assign_script 0 end.
Definition set_x_to_y : vm := after_pushes (push_reference 1 0 ;! push_reference 0 0).
Definition set_f1 : vm := after_pushes (push_float 77 ;! push_reference 2 1).
Definition set_s_to_t : vm := after_pushes (push_reference 4 0 ;! push_reference 3 0).
Definition set_s_to_new : vm := after_pushes (push_string (lit "new") ;! push_reference 3 0).
Definition set_i : vm := after_pushes (push_instance (Some 3) ;! push_reference 5 0).
Ltac is_top := split; [vm_compute; reflexivity|split; [vm_compute; discriminate|vm_compute; reflexivity]].
Ltac is_target := split; [is_top|split; [vm_compute; discriminate|split; [vm_compute; reflexivity|
  eexists; split; [vm_compute; reflexivity|split; vm_compute; discriminate]]]].
Example C132_example :
  (target set_x_to_y 0 0 None /\ from_top set_x_to_y 1 (reference set_x_to_y 1 0) /\ operand set_x_to_y (reference set_x_to_y 1 0) (XInt 8) /\
   match step bare (unsafe_call 1 bare) (mkI 9 0 0 0 0 1) set_x_to_y with
   | VRet true s => rd_int 0 0 None s = VRet 8%Z s /\ v_sp s = 0 /\ v_pc s = 1 | _ => False end) /\
  (target set_f1 2 1 None /\ operand set_f1 (mkFrame None false (FFloat 77) 0) (XFlt 77) /\
   match step bare (unsafe_call 1 bare) (mkI 73 0 0 0 0 1) set_f1 with
   | VRet true s => rd_float 2 1 None s = VRet 77 s /\ rd_float 2 0 None s = VRet 1 s | _ => False end) /\
  (target set_s_to_t 3 0 None /\ operand set_s_to_t (reference set_s_to_t 4 0) (XStr (lit "t"))) /\
  (target set_s_to_new 3 0 None /\ rd_string 6 0 None set_s_to_new = VRet (lit "new") set_s_to_new /\ v_tmp set_s_to_new = 6 /\
   match step bare (unsafe_call 1 bare) (mkI 70 0 0 0 0 1) set_s_to_new with
   | VRet true s => rd_string 3 0 None s = VRet (lit "new") s /\ v_free s = [0] | _ => False end) /\
  match step bare (unsafe_call 1 bare) (mkI 20 0 0 0 0 1) set_x_to_y with
  | VRet true s => rd_int 0 0 None s = VRet (-3)%Z s | _ => False end /\
  match step bare (unsafe_call 1 bare) (mkI 74 0 0 0 0 1) set_i with
  | VRet true s => rd_inst 5 s = VRet (Some 3) s | _ => False end.
Proof.
  split; [|split; [|split; [|split; [|split]]]].
  - split; [is_target|]. split; [is_top|]. split; [|vm_compute; repeat split].
    right. exists 1. eexists. split; [reflexivity|]. split; [reflexivity|]. split; [vm_compute; reflexivity|]. split; [vm_compute; discriminate|reflexivity].
  - split; [is_target|]. split; [left; split; [reflexivity|left; reflexivity]|vm_compute; repeat split].
  - split; [is_target|]. exists 4. split; [eexists; split; [reflexivity|split; [reflexivity|split; [vm_compute; reflexivity|vm_compute; discriminate]]]|].
    split; [vm_compute; discriminate|]. split; [reflexivity|]. reflexivity.
  - split; [is_target|]. split; [reflexivity|]. split; [reflexivity|vm_compute; repeat split].
  - vm_compute. reflexivity.
  - vm_compute. reflexivity.
Qed.

(* ------------------------------------------------------------------ *)
(** ** C133 *)
(** A push puts exactly the literal, or the reference of the current instance, on the stack, or
    throws where it is full. *)
Theorem C133_pushes : forall h call ins s f, pushes_frame h s ins f ->
  (v_sp s < stack_size -> exists s', step h call ins s = VRet true s' /\ replaces s s' 0 f (i_size ins)) /\
  (v_sp s = stack_size -> step h call ins s = VExc VmException s).
Proof. exact push_step. Qed.
Print Assumptions C133_pushes.
(** Symbols that do not exist are reported; nothing changes. *)
Theorem C133_unknown : forall h call ins s, i_op ins = 65 \/ i_op ins = 67 \/ i_op ins = 245 \/ i_op ins = 80 ->
  nth_N (v_syms s) (i_symb ins) = None -> step h call ins s = VExc VmException s.
Proof. exact push_unknown. Qed.
Print Assumptions C133_unknown.
(** Choosing the current instance. *)
Theorem C133_instance : forall h call ins s v, i_op ins = 80 -> rd_inst (i_symb ins) s = VRet v s ->
  step h call ins s = VRet true (set_pc (u32 (v_pc s + i_size ins)) (set_inst v s)).
Proof. exact instance_step. Qed.
Print Assumptions C133_instance.
(** A trapped symbol: the host's function is called instead, and nothing is pushed but what it pushes. *)
Theorem C133_trap : forall h call ins s t, i_op ins = 65 \/ i_op ins = 67 -> trapped s (i_symb ins) true -> h_trap h = Some t ->
  step h call ins s = then_next (i_size ins) (t (i_symb ins) s).
Proof. exact push_trap. Qed.
Print Assumptions C133_trap.
(** Elements other than the first are accessed without the host being told. *)
Definition with_trap (t : N -> V unit) : host := mkHost (fun _ => None) (fun _ => None) None (Some t) None.
Definition trap_script : script := a_script
  [a_sym (lit "A") T_INT F_TRAP 3 (SInts [Some 1; Some 2; Some 3]%Z) none32 T_VOID] (assemble [RSR]).
Theorem C133_elements_refuted : exists s i ins, reachable s /\ trapped s i true /\ i_op ins = 245 /\ i_symb ins = i /\ i_idx ins = 1 /\
  forall t call, exists s', step (with_trap t) call ins s = VRet true s' /\ from_top s' 0 (reference s i 1).
Proof.
  exists (boot trap_script 0), 0, (mkI 245 0 0 0 1 6). split; [apply boot_reachable; vm_compute; reflexivity|].
  split; [eexists; split; vm_compute; reflexivity|]. split; [reflexivity|]. split; [reflexivity|]. split; [reflexivity|].
  intros t call. eexists. split; [reflexivity|]. is_top.
Qed.
Print Assumptions C133_elements_refuted.
Example C133_example :
  pushes_frame bare set_f1 (mkI 245 0 2 0 1 6) (reference set_f1 2 1) /\ pushes_frame bare (boot trap_script 0) (mkI 65 0 0 0 0 5) (reference (boot trap_script 0) 0 0) /\
  match step (with_trap (fun i => push_int (Z.of_N i + 40)%Z)) (unsafe_call 1 bare) (mkI 65 0 0 0 0 5) (boot trap_script 0) with
  | VRet true s => v_sp s = 1 /\ v_slots s 0 = Some (plain 40) | _ => False end /\
  rd_inst 5 set_i = VRet None set_i.
Proof.
  split; [|split; [|split; vm_compute; repeat split]].
  - right. right. split; [reflexivity|]. split; [reflexivity|]. split; [reflexivity|]. exists false. eexists. split; vm_compute; reflexivity.
  - right. left. split; [left; reflexivity|]. split; [reflexivity|]. right. split; [|reflexivity]. eexists. split; vm_compute; reflexivity.
Qed.
