(** Properties C56-C70 and C72-C77: compiled scripts, symbols, the script machine. *)

From Coq Require Import ZArith Lia.
From Verif Require Import MBase MStream SStream MVfs MDaedalus MVm SVm SVmOps SVmConst SVmString SVmLocals SVmProps SSym SDaedalus
  LBase LDaedalus LSym LOpaque LScript LVm LVmCall LVmRun LVmExact LVmApi LVmOps LVmProps LVmConst LVmString LVmLocals LVmDae.
Local Open Scope N_scope.
Local Open Scope v_scope.

(* ------------------------------------------------------------------ *)
(** * Scripts to test hypotheses with *)

Definition an_int (name : bytes) (v : Z) : sym := a_sym name T_INT 0 1 (SInts [Some v]) none32 T_VOID.
Definition PUSHV := ASym op_PUSHV. Definition BL := AAddr op_BL. Definition BZ := AAddr op_BZ.
Definition ADD := ACode 0. Definition SUB := ACode 1. Definition MOVI := ACode 9. Definition RSR := ACode 60.

(** [func int ADD(var int A, var int B) { return A + B; };] and
    [func int MAIN() { return ADD(20, 22); };] *)
Definition demo_script : script := a_script
  [an_int (lit "X") 5; a_sym (lit "K") T_INT F_CONST 1 (SInts [Some 7%Z]) none32 T_VOID;
   a_func (lit "ADD") 2 T_INT 0; an_int (lit "ADD.A") 0; an_int (lit "ADD.B") 0; a_func (lit "MAIN") 0 T_INT 24]
  (assemble [PUSHV 4; MOVI; PUSHV 3; MOVI; PUSHV 4; PUSHV 3; ADD; RSR; AImm 20; AImm 22; BL 0; RSR]).

Definition script_okb (sc : script) : bool :=
  (len (sc_syms sc) <? 524287) && forallb (fun x => s_count x <=? 4095) (sc_syms sc) &&
  forallb (fun x => negb (has_return x) || existsb (N.eqb (s_rtype x)) [1; 2; 3; 5; 7]) (sc_syms sc).
Lemma script_okb_ok sc : script_okb sc = true -> script_ok sc.
Proof.
  unfold script_okb, script_ok. rewrite !andb_true_iff. intros [[A B] C]. split; [apply N.ltb_lt, A|]. rewrite forallb_forall in B, C.
  split; intros x I; [apply N.leb_le, B, I|]. intros R. specialize (C x I). rewrite R in C. cbn in C. unfold value_kind, T_FLOAT, T_INT, T_STRING, T_FUNCTION, T_INSTANCE.
  repeat rewrite orb_true_iff in C. repeat rewrite N.eqb_eq in C. intuition discriminate.
Qed.
Lemma bare_api : api_host bare.
Proof. constructor; discriminate. Qed.
Lemma boot_reachable sc flags : script_okb sc = true -> reachable (boot sc flags).
Proof. intros H. exists sc, flags, []. split; [apply script_okb_ok, H|]. split; [constructor|reflexivity]. Qed.

(* ------------------------------------------------------------------ *)
(** ** C56 *)
(** Any instruction list: decoding where an instruction was put gives that instruction, and the
    next one starts where its size says. *)
Theorem C56_decode : forall a i b p, asm_ok i -> len (assemble (a ++ i :: b)) < 2 ^ 32 ->
  instruction_at (len (assemble a)) (mkR (assemble (a ++ i :: b)) p) =
    Ret (asm_instr i, mkR (assemble (a ++ i :: b)) (len (assemble (a ++ [i])))) /\
  len (assemble (a ++ [i])) = len (assemble a) + i_size (asm_instr i).
Proof.
  intros a i b p O L. split; [apply assembled_at; auto|]. unfold assemble. rewrite flat_map_app, len_app. f_equal. cbn [flat_map]. rewrite app_nil_r.
  destruct i; reflexivity.
Qed.
Print Assumptions C56_decode.
(** Every byte starts an instruction: there are no illegal ones. *)
Theorem C56_every_opcode : forall b, exists i, asm_ok i /\ hd b (asm_bytes i) = b.
Proof. exact every_byte_starts_one. Qed.
Print Assumptions C56_every_opcode.
Example C56_example : asm_ok (AElem 513 7) /\ asm_ok (AImm (-5)) /\
  instruction_at 5 (r_from (assemble [AImm (-5); AElem 513 7; RSR])) =
    Ret (mkI op_PUSHVV 0 513 0 7 6, mkR (assemble [AImm (-5); AElem 513 7; RSR]) 11).
Proof. split; [split; reflexivity|]. split; [split; [discriminate|reflexivity]|vm_compute; reflexivity]. Qed.

(* ------------------------------------------------------------------ *)
(** ** C57 *)
(** After any history of writes to elements of symbols (some of which may have failed), an
    element reads as what the last successful write to it wrote, or as before.  Missing: elements
    256 and up of float members, and members whose ranges overlap. *)
Theorem C57_last_write_partial : forall U k i idx c x ws s r s' n, layout_ok U s ->
  Forall (fun w => U (w_sym w) /\ value_ok (w_val w)) ws -> U i ->
  nth_N (v_syms s) i = Some x -> (k = KFlt -> is_member x = true -> idx < 256) -> the_ctx c s = VRet n s ->
  replay k i idx c (is_member x) ws (read_el k i idx c s) s = Some (r, s') -> read_el k i idx c s' = r.
Proof. exact last_write. Qed.
Print Assumptions C57_last_write_partial.
(** Illegal accesses raise the documented errors and change nothing. *)
Theorem C57_errors : forall s i x c n, nth_N (v_syms s) i = Some x -> SSym.stored x -> the_ctx c s = VRet n s ->
  (forall k idx, match access_error k x idx n with
     | Some e => read_el k i idx c s = VExc e s
     | None => exists r, read_el k i idx c s = r /\ match r with VRet _ s' | VUndef _ s' => s' = s | _ => False end
     end) /\
  (forall v idx, match access_error (kind_of v) x idx n with
     | Some e => write_el v i idx c s = VExc e s
     | None => match write_el v i idx c s with VRet _ _ | VUndef _ _ => True | _ => False end
     end).
Proof. exact access_errors. Qed.
Print Assumptions C57_errors.

(** A class with a float array and a string, another class, an instance of each, as opaque instances. *)
Definition member (name : bytes) (cls ty count : N) : sym :=
  mkSym name (SInts []) none32 cls (-1) count ty F_MEMBER false [0; 0; 0; 0; 0] 0 none32 T_VOID None.
Definition klass (name : bytes) : sym := a_sym name T_CLASS 0 0 (SInts []) none32 T_VOID.
Definition an_instance (name : bytes) (cls addr : N) : sym :=
  mkSym name (SInst None) addr cls (-1) 0 T_INSTANCE F_CONST false [0; 0; 0; 0; 0] none32 none32 T_VOID None.
Definition opaque_syms : list sym :=
  register_as_opaque (register_as_opaque
    [klass (lit "C"); member (lit "C.F") 0 T_FLOAT 3; member (lit "C.S") 0 T_STRING 2; member (lit "C.I") 0 T_INT 1;
     klass (lit "D"); member (lit "D.I") 4 T_INT 1; an_instance (lit "CI") 0 0; an_instance (lit "DI") 4 0] 0) 4.
Definition opaque_script : script := a_script opaque_syms (assemble [RSR]).
Definition opaque_run : V unit := init_opaque_instance 10 bare 6 ;! init_opaque_instance 10 bare 7 ;! vret tt.
Definition opaque_state : vm := match opaque_run (boot opaque_script 0) with VRet _ s => s | _ => boot opaque_script 0 end.

Lemma opaque_reachable : reachable opaque_state.
Proof.
  exists opaque_script, 0, [opaque_run]. split; [apply script_okb_ok; vm_compute; reflexivity|]. split; [|vm_compute; reflexivity].
  constructor; [|constructor]. apply api_bind; [apply api_init_opaque, bare_api|intros _]. apply api_bind; [apply api_init_opaque, bare_api|intros _]. apply api_ret.
Qed.

(** A float member's element 256 is not what was written to it: its index is cut to 8 bits. *)
Definition host_script : script := a_script
  (fst (register_member [klass (lit "C"); member (lit "C.F") 0 T_FLOAT 300] [(lit "C.F", 1)] 1 300 (lit "C.F") 5 0)) (assemble [RSR]).
Definition host_object : inst := mkInst none32 (Some 5) 1200 (fun _ => Some (CWord 0)).
Theorem C57_float_member_refuted : exists s i c v, reachable s /\
  match (write_el (XFlt v) i 256 c ;! read_el KFlt i 256 c) s with VRet (VFloat w) _ => w <> v | _ => False end.
Proof.
  exists (set_heap [host_object] (boot host_script 0)), 1, (Some 0), 1065353216. split.
  - exists host_script, 0, [vmod (fun s => set_heap (v_heap s ++ [host_object]) s)].
    split; [apply script_okb_ok; vm_compute; reflexivity|]. split; [|reflexivity]. constructor; [|constructor]. apply api_new.
  - vm_compute. discriminate.
Qed.
Print Assumptions C57_float_member_refuted.
(** Opaque instances of all classes have the same C++ type: a member of one class is read from an
    instance of another, beyond its end. *)
Theorem C57_wrong_context_refuted : exists s i x c, reachable s /\ nth_N (v_syms s) i = Some x /\ is_member x = true /\
  s_parent x <> 4 /\ (exists n, the_ctx (Some c) s = VRet (Some n) s /\ option_map s_parent (nth_N (v_syms s) (n_sym n)) = Some 4) /\
  read_el KInt i 0 (Some c) s = VUndef ValueUB s.
Proof.
  exists opaque_state, 3, (match nth_N (v_syms opaque_state) 3 with Some x => x | None => klass [] end), 1. split.
  - exact opaque_reachable.
  - split; [vm_compute; reflexivity|]. split; [vm_compute; reflexivity|]. split; [vm_compute; discriminate|]. split; [|vm_compute; reflexivity].
    eexists. split; vm_compute; reflexivity.
Qed.
Print Assumptions C57_wrong_context_refuted.
(** A function with parameters has no integer, but reading one is not an error. *)
Theorem C57_function_refuted : exists s i x, reachable s /\ nth_N (v_syms s) i = Some x /\ s_type x = T_FUNCTION /\
  0 < s_count x /\ read_el KInt i 0 None s = VUndef ValueUB s.
Proof.
  exists (boot demo_script 0), 2, (a_func (lit "ADD") 2 T_INT 0). split; [apply boot_reachable; vm_compute; reflexivity|]. repeat split.
Qed.
Print Assumptions C57_function_refuted.
Example C57_example :
  layout_ok (fun i => i < 4) opaque_state /\
  match replay KStr 2 1 (Some 0) true
     [mkWrite (XStr (lit "no")) 2 1 (Some 0); mkWrite (XFlt 9) 1 2 (Some 0); mkWrite (XStr (lit "yes")) 2 1 (Some 0);
      mkWrite (XStr (lit "x")) 2 0 (Some 0); mkWrite (XInt 1) 2 1 (Some 0); mkWrite (XInt 4) 3 0 (Some 0)]
     (read_el KStr 2 1 (Some 0) opaque_state) opaque_state with Some (VRet (VStr b) _, _) => b = lit "yes" | _ => False end /\
  access_error KInt (an_int (lit "X") 5) 1 None = Some IllegalIndexAccess.
Proof.
  split; [|split; [|reflexivity]].
  - intros i x I X M. assert (Q : i = 0 \/ i = 1 \/ i = 2 \/ i = 3) by lia. destruct Q as [-> | [-> | [-> | ->]]]; vm_compute in X; injection X as <-; vm_compute in M; try discriminate.
    all: split; [vm_compute; discriminate|]; intros j y J NJ Y MY RY; assert (Q : j = 0 \/ j = 1 \/ j = 2 \/ j = 3) by lia;
      destruct Q as [-> | [-> | [-> | ->]]]; vm_compute in Y; injection Y as <-; vm_compute in MY; try discriminate; try (exfalso; apply NJ; reflexivity);
      first [left; vm_compute; discriminate|right; vm_compute; discriminate].
  - vm_compute. reflexivity.
Qed.

(* ------------------------------------------------------------------ *)
(** ** C58 *)
Theorem C58_layout : forall l cls, class_fits l cls ->
  exists c, nth_N (register_as_opaque l cls) cls = Some c /\ s_reg c = Some opaque_type /\
  (** every member gets an offset, aligned and inside *)
  (forall m x, nth_N l m = Some x -> is_member x = true -> s_parent x = cls ->
     exists o, nth_N (register_as_opaque l cls) m = Some (with_member x o (Some opaque_type)) /\
       o mod al (s_type x) = 0 /\ o + s_count x * el_size (s_type x) <= s_csize c) /\
  (forall m x, nth_N (register_as_opaque l cls) m = Some x -> is_member x = true -> s_parent x = cls ->
     s_reg x = Some opaque_type /\ s_moff x mod al (s_type x) = 0 /\ s_moff x + s_count x * el_size (s_type x) <= s_csize c) /\
  (** members are disjoint *)
  (forall m1 m2 x1 x2, m1 <> m2 ->
     nth_N (register_as_opaque l cls) m1 = Some x1 -> is_member x1 = true -> s_parent x1 = cls ->
     nth_N (register_as_opaque l cls) m2 = Some x2 -> is_member x2 = true -> s_parent x2 = cls ->
     s_moff x1 + s_count x1 * el_size (s_type x1) <= s_moff x2 \/ s_moff x2 + s_count x2 * el_size (s_type x2) <= s_moff x1) /\
  (** no other symbol changes *)
  (forall i, i <> cls -> ~ In i (class_members l cls) -> nth_N (register_as_opaque l cls) i = nth_N l i) /\
  (** an instance has every element of every member, fresh *)
  (exists n, new_opaque (register_as_opaque l cls) cls = Ret n /\ n_size n = s_csize c /\ s_csize c < 2 ^ 32 /\
     forall m x j, nth_N (register_as_opaque l cls) m = Some x -> is_member x = true -> s_parent x = cls -> j < s_count x ->
       n_mem n (s_moff x + j * el_size (s_type x)) = Some (fresh_cell (s_type x))).
Proof. exact opaque_layout. Qed.
Print Assumptions C58_layout.
(** Hence the last-write theorem holds for the members of an opaque class. *)
Theorem C58_independent : forall l cls s, class_fits l cls -> v_syms s = register_as_opaque l cls ->
  layout_ok (fun i => exists x, nth_N (v_syms s) i = Some x /\ (is_member x = true -> s_parent x = cls)) s.
Proof. exact opaque_layout_ok. Qed.
Print Assumptions C58_independent.
Example C58_example : class_fits
    [klass (lit "C"); member (lit "C.F") 0 T_FLOAT 3; member (lit "C.S") 0 T_STRING 2; member (lit "C.I") 0 T_INT 1] 0 /\
  map s_moff (register_as_opaque [klass (lit "C"); member (lit "C.F") 0 T_FLOAT 3; member (lit "C.S") 0 T_STRING 2; member (lit "C.I") 0 T_INT 1] 0)
    = [none32; 0; 16; 80].
Proof.
  split; [|vm_compute; reflexivity]. split; [eexists; split; reflexivity|]. split; [|vm_compute; reflexivity].
  intros m x X _ _. assert (B : m < 4) by exact (nth_N_lt _ _ _ X). assert (Q : m = 0 \/ m = 1 \/ m = 2 \/ m = 3) by lia.
  destruct Q as [-> | [-> | [-> | ->]]]; vm_compute in X; injection X as <-; reflexivity.
Qed.

(* ------------------------------------------------------------------ *)
(** ** C59 *)
(** Every script, every history of host operations: as long as no function was called with fewer
    values on the stack than it has parameters, the stack pointer stays within the stack and
    everything below it was written; no slot that was never written is used; and as long as no
    function took more than its own values, no slot outside the stack is touched.
    Missing: executions in which one of these two happened. *)
Theorem C59_bounds_partial : forall sc flags hist, script_ok sc -> Forall api hist ->
  match perform hist (boot sc flags) with
  | VRet _ s => wrapped s = false -> v_sp s <= stack_size /\ forall i, i < v_sp s -> v_slots s i <> None
  | VExc _ _ => False
  | VUndef k s => wrapped s = false -> k <> StackIndet /\ (under s = false -> k <> StackOob)
  | VFuel => True
  end.
Proof. exact history_bounds. Qed.
Print Assumptions C59_bounds_partial.
(** Pushing: one more value, or the error on a full stack. *)
Theorem C59_push : forall f s,
  (v_sp s = stack_size -> push_frame f s = VExc VmException s) /\
  (v_sp s < stack_size -> exists s', push_frame f s = VRet tt s' /\ v_sp s' = v_sp s + 1 /\ v_slots s' (v_sp s) = Some f /\
     only_stack s s' /\ v_pc s' = v_pc s /\ forall i, i <> v_sp s -> v_slots s' i = v_slots s i).
Proof. intros f s. exact (conj (push_full f s) (push_room f s)). Qed.
Print Assumptions C59_push.
(** A call without the arguments makes the stack pointer 65535; the next push is out of bounds. *)
Definition no_args : script := a_script
  [a_func (lit "G") 1 T_VOID 0; an_int (lit "G.A") 0; a_func (lit "MAIN") 0 T_VOID 1] (assemble [RSR; BL 0; AImm 1; RSR]).
Theorem C59_missing_argument_refuted : exists sc hist, script_ok sc /\ Forall api hist /\
  match perform hist (boot sc 0) with VUndef StackOob s => v_sp s = 65535 | _ => False end.
Proof.
  exists no_args, [unsafe_call 9 bare 2]. split; [apply script_okb_ok; vm_compute; reflexivity|]. split; [|vm_compute; reflexivity].
  constructor; [|constructor]. apply api_unsafe_call, bare_api.
Qed.
Print Assumptions C59_missing_argument_refuted.
(** On a full stack, a function that takes one value too many has its result written behind the
    end of the stack. *)
Definition greedy : script := a_script [a_func (lit "G") 0 T_INT 0] (assemble [BZ 0; RSR]).
Theorem C59_full_stack_refuted : exists sc hist, script_ok sc /\ Forall api hist /\
  match perform hist (boot sc 0) with VUndef StackOob s => wrapped s = false | _ => False end.
Proof.
  exists greedy, (repeat (push_int 1) (N.to_nat 2048) ++ [unsafe_call 9 bare 0]). split; [apply script_okb_ok; vm_compute; reflexivity|].
  split; [|vm_compute; reflexivity].
  apply Forall_app. split; [apply Forall_forall; intros m I; apply repeat_spec in I; subst m; apply api_push_int|].
  constructor; [|constructor]. apply api_unsafe_call, bare_api.
Qed.
Print Assumptions C59_full_stack_refuted.
Example C59_example : script_ok demo_script /\
  match perform [unsafe_call 20 bare 5; push_int 3] (boot demo_script 0) with
  | VRet _ s => wrapped s = false /\ v_sp s = 2 /\ v_slots s 0 = Some (mkFrame None false (FInt 42) 0) | _ => False end.
Proof. split; [apply script_okb_ok; vm_compute; reflexivity|vm_compute; auto]. Qed.

(* ------------------------------------------------------------------ *)
(** ** C60 *)
(** The upper operand is the left one.  [binary] and [unary] are integer arithmetic; they have no
    value where the result does not fit, the divisor is 0 or the shift distance is not in 0..31. *)
Theorem C60_binary_partial : forall h call i s fa fb a b r, is_binary (i_op i) = true ->
  from_top s 0 fa -> from_top s 1 fb -> int_operand s fa a -> int_operand s fb b -> int32 a -> int32 b ->
  binary (i_op i) a b = Some r ->
  exists s', step h call i s = VRet true s' /\ replaces s s' 2 (plain r) (i_size i).
Proof. exact step_binary. Qed.
Print Assumptions C60_binary_partial.
Theorem C60_unary_partial : forall h call i s f a r, from_top s 0 f -> int_operand s f a -> unary (i_op i) a = Some r ->
  exists s', step h call i s = VRet true s' /\ replaces s s' 1 (plain r) (i_size i).
Proof. exact step_unary. Qed.
Print Assumptions C60_unary_partial.
Theorem C60_division_by_zero : forall h call i s fa fb a, i_op i = 3 \/ i_op i = 4 ->
  from_top s 0 fa -> from_top s 1 fb -> int_operand s fa a -> int_operand s fb 0 ->
  exists s', step h call i s = VExc VmException s' /\
    v_syms s' = v_syms s /\ v_heap s' = v_heap s /\ v_pc s' = v_pc s /\ v_calls s' = v_calls s.
Proof. exact step_div_zero. Qed.
Print Assumptions C60_division_by_zero.
(** Overflow, the smallest number divided by -1 and shifts by 32 and more are undefined in C++
    and not checked. *)
Definition operands (b a : Z) : V unit := push_int b ;! push_int a.
Theorem C60_overflow_refuted : exists sc, script_ok sc /\ Forall (fun t => let '(op, a, b) := t in
    int32 a /\ int32 b /\
    match (operands b a ;! step bare (unsafe_call 1 bare) (mkI op 0 0 0 0 1)) (boot sc 0) with VUndef ArithUB _ => True | _ => False end)
  [(0, 2147483647%Z, 1%Z); (1, (-2147483648)%Z, 1%Z); (2, 65536%Z, 65536%Z); (3, (-2147483648)%Z, (-1)%Z); (4, (-2147483648)%Z, (-1)%Z); (13, 1%Z, 32%Z); (14, 1%Z, (-1)%Z)].
Proof.
  exists demo_script. split; [apply script_okb_ok; vm_compute; reflexivity|].
  repeat (constructor; [split; [split; [discriminate|reflexivity]|]; split; [split; [discriminate|reflexivity]|vm_compute; exact I]|]). constructor.
Qed.
Print Assumptions C60_overflow_refuted.
Example C60_example : binary 3 (-7) 2 = Some (-3)%Z /\ binary 4 (-7) 2 = Some (-1)%Z /\ binary 13 3 30 = Some (-1073741824)%Z /\
  match (operands 2 (-7) ;! step bare (unsafe_call 1 bare) (mkI 3 0 0 0 0 1)) (boot demo_script 0) with
  | VRet true s => v_sp s = 1 /\ v_slots s 0 = Some (plain (-3)) | _ => False end.
Proof. vm_compute. auto 10. Qed.

(* ------------------------------------------------------------------ *)
(** ** C61 *)
(** States a host can reach with a disciplined script are in order. *)
Theorem C61_reachable_sound : forall s, reachable s -> disciplined s -> sound s.
Proof. exact reachable_sound. Qed.
Print Assumptions C61_reachable_sound.
(** A call from the host.  The function's code runs from its address with the caller's current
    instance; its result is the topmost value it left, or the default of its type.
    Missing: executions in which the script was not disciplined. *)
Theorem C61_host_call_partial : forall n h f x s s', api_host h -> sound s -> nth_N (v_syms s) f = Some x -> f <> v_tmp s ->
  unsafe_call n h f s = VRet tt s' -> disciplined s' ->
  back_in_caller x (v_pc s) s s' /\
  exists s1 s2, run n h s1 = VRet tt s2 /\ v_pc s1 = s_addr x /\ v_inst s1 = v_inst s /\
    (has_return x = true -> exists fr, v_slots s' (v_sp s' - 1) = Some fr /\ result_value x (v_sp s1 - s_count x) s2 fr).
Proof. exact calls_return. Qed.
Print Assumptions C61_host_call_partial.
(** A call instruction: execution goes on behind it. *)
Theorem C61_nested_call_partial : forall n h i f x s b s', api_host h -> sound s -> i_op i = op_BL -> h_over h (i_addr i) = None ->
  find_by_address (v_addrs s) (i_addr i) = Some f -> nth_N (v_syms s) f = Some x -> f <> v_tmp s ->
  step h (unsafe_call n h) i s = VRet b s' -> disciplined s' ->
  b = true /\ back_in_caller x (u32 (v_pc s + i_size i)) s s'.
Proof. exact nested_call_returns. Qed.
Print Assumptions C61_nested_call_partial.
(** A function that takes the caller's values: the caller's 5 becomes a 9. *)
Definition thief : script := a_script [a_func (lit "G") 0 T_VOID 0] (assemble [BZ 0; AImm 9; RSR]).
Theorem C61_caller_values_refuted : exists sc flags hist n f x, script_ok sc /\ Forall api hist /\
  match perform hist (boot sc flags) with
  | VRet _ s => nth_N (v_syms s) f = Some x /\
      match unsafe_call n bare f s with
      | VRet _ s' => s_count x = 0 /\ v_sp s = 1 /\ v_slots s 0 = Some (plain 5) /\ v_slots s' 0 = Some (plain 9)
      | _ => False
      end
  | _ => False
  end.
Proof.
  exists thief, 0, [push_int 5], 9%nat, 0, (a_func (lit "G") 0 T_VOID 0). split; [apply script_okb_ok; vm_compute; reflexivity|].
  split; [constructor; [apply api_push_int|constructor]|]. vm_compute. auto 10.
Qed.
Print Assumptions C61_caller_values_refuted.
(** An external function throws, the error handler continues: the call frame of the external
    stays, the caller does not get back its own. *)
Definition angry : script := a_script [a_sym (lit "E") T_FUNCTION (F_CONST + F_EXTERNAL) 0 (SInts []) 7 T_VOID; a_func (lit "MAIN") 0 T_VOID 1]
  (assemble [RSR; ASym op_BE 0; RSR]).
Definition tolerant (cb : V unit) : host :=
  mkHost (fun j => if j =? 0 then Some cb else None) (fun _ => None) None None (Some (fun _ _ => vret Continue)).
Theorem C61_stale_frame_refuted : exists sc h n f, script_ok sc /\ api_host h /\
  match unsafe_call n h f (boot sc 0) with VRet _ s' => v_calls s' <> v_calls (boot sc 0) /\ v_pc s' <> v_pc (boot sc 0) | _ => False end.
Proof.
  exists angry, (tolerant (vthrow VmException)), 9%nat, 1. split; [apply script_okb_ok; vm_compute; reflexivity|]. split.
  - constructor; try discriminate.
    + intros i cb E. cbn in E. destruct (i =? 0); [|discriminate]. injection E as <-. apply api_throw.
    + intros d E. injection E as <-. intros. apply api_ret.
  - vm_compute. split; discriminate.
Qed.
Print Assumptions C61_stale_frame_refuted.
Example C61_example : reachable (boot demo_script 0) /\ disciplined (boot demo_script 0) /\
  match unsafe_call 20 bare 5 (boot demo_script 0) with
  | VRet _ s => disciplined s /\ v_sp s = 1 /\ v_slots s 0 = Some (plain 42) | _ => False end.
Proof. split; [apply boot_reachable; vm_compute; reflexivity|]. vm_compute. auto 10. Qed.

(* ------------------------------------------------------------------ *)
(** ** C62 *)
(** Whatever a script function does and however it ends, a constant keeps its value.  The host's
    own functions are assumed not to assign to it.  Missing: constants of instance type, and
    constants among the local variables of functions that save them. *)
Theorem C62_constants_partial : forall n h s i x f, api_host h -> hands_off i h ->
  nth_N (v_syms s) i = Some x -> is_const x = true -> s_type x <> T_INSTANCE -> i <> v_tmp s ->
  flag_on s IGNORE_CONST = false -> not_local s i ->
  (forall y, nth_N (v_syms s) (v_tmp s) = Some y -> has_locals y = false) ->
  match unsafe_call n h f s with
  | VRet _ s' | VExc _ s' | VUndef _ s' => nth_N (v_syms s') i = Some x
  | VFuel => True
  end.
Proof. exact const_kept. Qed.
Print Assumptions C62_constants_partial.
(** The instruction that assigns instances does not look whether the target is constant. *)
Definition swapper : script := a_script
  [an_instance (lit "I") none32 0; a_sym (lit "J") T_INSTANCE 0 1 (SInst None) none32 T_VOID; a_func (lit "MAIN") 0 T_VOID 0]
  (assemble [PUSHV 1; PUSHV 0; ACode 74; RSR]).
Theorem C62_instance_refuted : exists sc hist n i x f, script_ok sc /\ Forall api hist /\ is_const x = true /\
  match perform hist (boot sc 0) with
  | VRet _ s => nth_N (v_syms s) i = Some x /\ flag_on s IGNORE_CONST = false /\
      match unsafe_call n bare f s with VRet _ s' => nth_N (v_syms s') i <> Some x | _ => False end
  | _ => False
  end.
Proof.
  exists swapper, [vmod (fun s => set_heap (v_heap s ++ [host_object]) s); wr_inst 1 (Some 0)], 9%nat, 0, (an_instance (lit "I") none32 0), 2.
  split; [apply script_okb_ok; vm_compute; reflexivity|]. split; [|split; [reflexivity|vm_compute; split; [reflexivity|split; [reflexivity|discriminate]]]].
  constructor; [apply api_new|]. constructor; [apply api_set_instance|constructor].
Qed.
Print Assumptions C62_instance_refuted.
Definition writer : script := a_script
  [an_int (lit "X") 5; a_sym (lit "K") T_INT F_CONST 1 (SInts [Some 7%Z]) none32 T_VOID; a_func (lit "MAIN") 0 T_VOID 0]
  (assemble [AImm 1; PUSHV 1; MOVI; RSR]).
Example C62_example : hands_off 1 bare /\ not_local (boot writer 0) 1 /\
  match unsafe_call 20 bare 2 (boot writer 0) with VExc IllegalConstAccess s => nth_N (v_syms s) 1 = nth_N (sc_syms writer) 1 | _ => False end /\
  match unsafe_call 20 bare 2 (boot writer IGNORE_CONST) with VRet _ s => option_map s_val (nth_N (v_syms s) 1) = Some (SInts [Some 1%Z]) | _ => False end.
Proof.
  split; [constructor; discriminate|]. split; [|split; vm_compute; reflexivity].
  intros f y Y HL. assert (B : f < 4) by exact (nth_N_lt _ _ _ Y). assert (Q : f = 0 \/ f = 1 \/ f = 2 \/ f = 3) by lia.
  destruct Q as [-> | [-> | [-> | ->]]]; vm_compute in Y; injection Y as <-; vm_compute in HL; discriminate.
Qed.

(* ------------------------------------------------------------------ *)
(** ** C63 *)
(** A machine just started holds nothing; any sequence of pushes and pops behaves like one on a
    list of values, as long as at most 243 strings are on the stack.  Missing: more strings. *)
Theorem C63_strings_partial :
  (forall sc flags, Holds (boot sc flags) []) /\
  forall os s l l' rs, Holds s l -> ideal_run stack_size 243 os l = Some (l', rs) ->
  exists s', operate_all os s = VRet rs s' /\ Holds s' l'.
Proof. exact (conj boot_holds stack_history). Qed.
Print Assumptions C63_strings_partial.
(** The 244th string is confused with another one: its index is cut to 8 bits. *)
Definition many_strings : list sop := map (fun k => Put (IStr (if k =? 243 then lit "c" else lit "a"))) (upto 244) ++ [TakeStr].
Theorem C63_many_strings_refuted : exists sc os, script_ok sc /\
  match ideal_run stack_size stack_size os [], operate_all os (boot sc 0) with
  | Some (_, rs), VRet rs' _ => last rs None = Some (IStr (lit "c")) /\ last rs' None <> Some (IStr (lit "c"))
  | _, _ => False
  end.
Proof.
  exists demo_script, many_strings. split; [apply script_okb_ok; vm_compute; reflexivity|]. vm_compute. split; [reflexivity|discriminate].
Qed.
Print Assumptions C63_many_strings_refuted.
Example C63_example : ideal_run stack_size 243 [Put (IStr (lit "a")); Put (IInt 3); Put (IStr (lit "b")); TakeStr; Put (IStr (lit "c")); TakeStr; TakeInt; TakeStr] [] =
  Some ([], [None; None; None; Some (IStr (lit "b")); None; Some (IStr (lit "c")); Some (IInt 3); Some (IStr (lit "a"))]).
Proof. vm_compute. reflexivity. Qed.

(* ------------------------------------------------------------------ *)
(** ** C64 *)
(** A function that saves its local variables is called while it is already running: when the
    call returns, its numeric, function and instance variables read as before.
    Missing: string variables and parameters. *)
Theorem C64_locals_partial : forall n h f x s s', api_host h -> sound s -> nth_N (v_syms s) f = Some x -> f <> v_tmp s ->
  has_locals x = true -> (exists c, In c (v_calls s) /\ c_fun c = f) ->
  unsafe_call n h f s = VRet tt s' -> disciplined s' ->
  forall i, In i (locals_of (v_syms s) f x) ->
    exists a b, nth_N (v_syms s) i = Some a /\ nth_N (v_syms s') i = Some b /\ same_numbers a b.
Proof. exact recursion_keeps. Qed.
Print Assumptions C64_locals_partial.

Definition local_func (name : bytes) (params rt addr : N) : sym :=
  a_sym name T_FUNCTION (F_CONST + F_RETURN + F_LOCALS) params (SInts []) addr rt.
(** [func int F(var int N) { var int L; L = N; if (N) { F(N - 1); }; return R; };] where [R] is
    symbol [r]: the variable L or the parameter N. *)
Definition recursive (r : N) : script := a_script
  [local_func (lit "F") 1 T_INT 0; an_int (lit "F.N") 0; an_int (lit "F.L") 0; an_int (lit "END") 0]
  (assemble [PUSHV 1; MOVI; PUSHV 1; PUSHV 2; MOVI; PUSHV 1; BZ 43; AImm 1; PUSHV 1; SUB; BL 0; PUSHV r; RSR]).
Definition result_of {A} (r : vres A) : option A := match r with VRet a _ => Some a | _ => None end.
(** The parameter of the outer call, 3, is 0 after the recursive calls. *)
Theorem C64_parameters_refuted : exists sc f, script_ok sc /\ (exists x, nth_N (sc_syms sc) f = Some x /\ has_locals x = true) /\
  result_of (call_function 99 bare (Some f) [VInt 3] MVm.KInt (boot sc 0)) = Some (VInt 0).
Proof.
  exists (recursive 1), 0. split; [apply script_okb_ok; vm_compute; reflexivity|]. split; [eexists; split; reflexivity|vm_compute; reflexivity].
Qed.
Print Assumptions C64_parameters_refuted.
(** [func string F(var int N) { var string L[256]; var string M; if (N) { M = "a"; F(0); } else { M = "b"; }; return M; };]
    gives something else than "a" for F(1): only 256 strings can be saved. *)
Definition string_local : script := a_script
  [local_func (lit "F") 1 T_STRING 0; an_int (lit "F.N") 0;
   a_sym (lit "F.L") T_STRING 0 256 (SStrs (repeat [] 256)) none32 T_VOID; a_sym (lit "F.M") T_STRING 0 1 (SStrs [[]]) none32 T_VOID;
   a_sym (lit "A") T_STRING F_CONST 1 (SStrs [lit "a"]) none32 T_VOID; a_sym (lit "B") T_STRING F_CONST 1 (SStrs [lit "b"]) none32 T_VOID]
  (assemble [PUSHV 1; MOVI; PUSHV 1; BZ 42; PUSHV 4; PUSHV 3; ACode 70; AImm 0; BL 0; AAddr op_B 53; PUSHV 5; PUSHV 3; ACode 70; PUSHV 3; RSR]).
Theorem C64_strings_refuted : exists sc f i, script_ok sc /\ (exists x, nth_N (sc_syms sc) f = Some x /\ In i (locals_of (sc_syms sc) f x)) /\
  match call_function 99 bare (Some f) [VInt 1] MVm.KStr (boot sc 0) with VRet (VStr r) _ => r <> lit "a" | _ => False end.
Proof.
  exists string_local, 0, 3. split; [apply script_okb_ok; vm_compute; reflexivity|]. split; [eexists; split; [reflexivity|right; left; reflexivity]|].
  vm_compute. discriminate.
Qed.
Print Assumptions C64_strings_refuted.
Example C64_example : result_of (call_function 99 bare (Some 0) [VInt 3] MVm.KInt (boot (recursive 2) 0)) = Some (VInt 3).
Proof. vm_compute. reflexivity. Qed.

(* ------------------------------------------------------------------ *)
(** ** C65 *)
Theorem C65_reads : forall s i x idx, loose s 0 i x idx -> exists s', only_stack s s' /\ v_sp s' = v_sp s - 1 /\
  pop_int s = (if flag_on s ALLOW_NULL then VRet 0%Z s' else VExc NoContext s') /\
  pop_float s = (if flag_on s ALLOW_NULL then VRet 0 s' else VExc NoContext s') /\
  pop_string s = (if flag_on s ALLOW_NULL then VRet [] s' else VExc NoContext s').
Proof. exact loose_reads. Qed.
Print Assumptions C65_reads.
Theorem C65_int_writes : forall h call ins s i x idx f v, is_int_write (i_op ins) = true ->
  loose s 0 i x idx -> is_const x = false -> from_top s 1 f -> int_operand s f v -> (i_op ins = 22 -> v <> 0%Z) ->
  if flag_on s ALLOW_NULL
  then exists s', step h call ins s = VRet true s' /\ only_stack s s' /\ v_sp s' = v_sp s - 2 /\ v_pc s' = u32 (v_pc s + i_size ins)
  else exists e s', step h call ins s = VExc e s' /\ is_script_error e = true /\ only_stack s s'.
Proof. exact step_int_write_loose. Qed.
Print Assumptions C65_int_writes.
Theorem C65_float_writes : forall h call ins s i x idx v, i_op ins = 73 -> loose s 0 i x idx -> is_const x = false ->
  from_top s 1 (mkFrame None false (FFloat v) 0) ->
  if flag_on s ALLOW_NULL
  then exists s', step h call ins s = VRet true s' /\ only_stack s s' /\ v_sp s' = v_sp s - 2 /\ v_pc s' = u32 (v_pc s + i_size ins)
  else exists e s', step h call ins s = VExc e s' /\ is_script_error e = true /\ only_stack s s'.
Proof. exact step_float_write_loose. Qed.
Print Assumptions C65_float_writes.
Theorem C65_string_writes : forall h call ins s i x idx j y k c v, i_op ins = 70 -> loose s 0 i x idx -> is_const x = false ->
  from_top s 1 (mkFrame c true (FSym j) k) -> j <> v_tmp s -> nth_N (v_syms s) j = Some y -> (is_member y = true -> c <> None) ->
  k < 256 -> rd_string j k c s = VRet v s ->
  if flag_on s ALLOW_NULL
  then exists s', step h call ins s = VRet true s' /\ only_stack s s' /\ v_sp s' = v_sp s - 2 /\ v_pc s' = u32 (v_pc s + i_size ins)
  else exists e s', step h call ins s = VExc e s' /\ is_script_error e = true /\ only_stack s s'.
Proof. exact step_string_write_loose. Qed.
Print Assumptions C65_string_writes.
Definition loosened (flags : N) : vm :=
  match (push_int 4 ;! push_reference 3 0) (boot opaque_script flags) with VRet _ s => s | _ => boot opaque_script flags end.
Example C65_example : (exists x, loose (loosened 0) 0 3 x 0 /\ is_const x = false) /\
  (exists f, from_top (loosened 0) 1 f /\ int_operand (loosened 0) f 4) /\
  match step bare (unsafe_call 1 bare) (mkI 9 0 0 0 0 1) (loosened 0) with VExc NoContext _ => True | _ => False end /\
  match step bare (unsafe_call 1 bare) (mkI 9 0 0 0 0 1) (loosened ALLOW_NULL) with VRet true s => v_sp s = 0 | _ => False end.
Proof.
  split; [|split; [|split; vm_compute; auto]].
  - eexists. split; [|]. split; [split; [reflexivity|split; [discriminate|reflexivity]]|]. split; [vm_compute; reflexivity|]. split; [reflexivity|discriminate]. reflexivity.
  - exists (plain 4). split; [split; [reflexivity|split; [discriminate|reflexivity]]|]. left. split; reflexivity.
Qed.

(* ------------------------------------------------------------------ *)
(** ** C66 *)
(** Registration succeeds only for functions with that signature; nothing else changes. *)
Theorem C66_external : forall h name ps r cb s h' s', register_external h name ps r cb s = VRet h' s' ->
  s' = s /\ ((find_by_name (v_names s) name = None /\ h' = h) \/
  exists i x, find_by_name (v_names s) name = Some i /\ nth_N (v_syms s) i = Some x /\ is_external x = true /\ signature_ok s i x ps r /\
    h' = add_ext h i (wrap_external ps r cb)).
Proof. exact register_external_ok. Qed.
Print Assumptions C66_external.
Theorem C66_override : forall h name ps r cb s h' s', override_function h name ps r cb s = VRet h' s' ->
  s' = s /\ exists i x, find_by_name (v_names s) name = Some i /\ nth_N (v_syms s) i = Some x /\ is_external x = false /\ signature_ok s i x ps r /\
    h' = add_over h (s_addr x) (push_call i ;! wrap_external ps r cb ;! pop_call).
Proof. exact override_function_ok. Qed.
Print Assumptions C66_override.
(** In a script with the eight types, a function whose parameters are in the table can be
    registered with its own signature, and is refused with an error with any other. *)
Theorem C66_external_exact : forall h name ps r cb s i x, types_known s ->
  find_by_name (v_names s) name = Some i -> nth_N (v_syms s) i = Some x -> i + s_count x < len (v_syms s) ->
  (is_external x = true /\ signature_ok s i x ps r /\
   register_external h name ps r cb s = VRet (add_ext h i (wrap_external ps r cb)) s) \/
  (~ (is_external x = true /\ signature_ok s i x ps r) /\ exists e, register_external h name ps r cb s = VExc e s).
Proof. exact register_external_spec. Qed.
Print Assumptions C66_external_exact.
Theorem C66_override_exact : forall h name ps r cb s i x, types_known s ->
  find_by_name (v_names s) name = Some i -> nth_N (v_syms s) i = Some x -> i + s_count x < len (v_syms s) ->
  (is_external x = false /\ signature_ok s i x ps r /\
   override_function h name ps r cb s = VRet (add_over h (s_addr x) (push_call i ;! wrap_external ps r cb ;! pop_call)) s) \/
  (~ (is_external x = false /\ signature_ok s i x ps r) /\ exists e, override_function h name ps r cb s = VExc e s).
Proof. exact override_function_spec. Qed.
Print Assumptions C66_override_exact.
(** Calls with the wrong number of arguments fail without effect, calls with arguments of wrong
    types fail before any code runs. *)
Theorem C66_call_count : forall fuel h i x args r s, nth_N (v_syms s) i = Some x ->
  s_type x <> T_FUNCTION \/ s_count x <> len args -> call_function fuel h (Some i) args r s = VExc VmException s.
Proof. exact call_count_checked. Qed.
Print Assumptions C66_call_count.
Theorem C66_call_types : forall i x args ts r s, nth_N (v_syms s) i = Some x -> i + s_count x < v_tmp s ->
  declared_params s i x ts -> ~ Forall2 arg_matches args ts ->
  exists o, (forall fuel h, call_function fuel h (Some i) args r s = o) /\ match o with VRet _ _ => False | _ => True end.
Proof. exact call_types_checked. Qed.
Print Assumptions C66_call_types.
(** C77, what is refused changes nothing.  Missing: see the two refutations. *)
Theorem C77_refused_partial :
  (forall fuel h i x args r s, nth_N (v_syms s) i = Some x ->
     s_type x <> T_FUNCTION \/ s_count x <> len args -> call_function fuel h (Some i) args r s = VExc VmException s) /\
  (forall h name ps r cb s i x, types_known s ->
     find_by_name (v_names s) name = Some i -> nth_N (v_syms s) i = Some x -> i + s_count x < len (v_syms s) ->
     (~ (is_external x = true /\ signature_ok s i x ps r) -> exists e, register_external h name ps r cb s = VExc e s) /\
     (~ (is_external x = false /\ signature_ok s i x ps r) -> exists e, override_function h name ps r cb s = VExc e s)).
Proof.
  split; [exact call_count_checked|]. intros h name ps r cb s i x T F X B. split; intros N.
  - destruct (register_external_spec h name ps r cb s i x T F X B) as [(A & C & _)|[_ E]]; [destruct (N (conj A C))|exact E].
  - destruct (override_function_spec h name ps r cb s i x T F X B) as [(A & C & _)|[_ E]]; [destruct (N (conj A C))|exact E].
Qed.
Print Assumptions C77_refused_partial.
(** A symbol of an unknown type: the error message is made from memory outside a table. *)
Definition weird : script := a_script
  [a_sym (lit "E") T_FUNCTION (F_CONST + F_EXTERNAL) 1 (SInts []) 7 T_VOID; a_sym (lit "E.X") 9 0 1 (SInts []) none32 T_VOID] (assemble [RSR]).
Theorem C77_unknown_type_refuted : exists sc name, script_ok sc /\
  register_external bare name [PInt] RVoid (fun _ => vret VVoid) (boot sc 0) = VUndef TableOob (boot sc 0).
Proof. exists weird, (lit "e"). split; [apply script_okb_ok; vm_compute; reflexivity|vm_compute; reflexivity]. Qed.
Print Assumptions C77_unknown_type_refuted.
(** A call that fails because of its second argument leaves the first one on the stack. *)
Theorem C77_failed_call_refuted : exists sc f args, script_ok sc /\
  match call_function 9 bare (Some f) args KIgnore (boot sc 0) with VExc IllegalExternal s => v_sp s = 1 | _ => False end.
Proof. exists demo_script, 2, [VInt 1; VStr []]. split; [apply script_okb_ok; vm_compute; reflexivity|vm_compute; reflexivity]. Qed.
Print Assumptions C77_failed_call_refuted.
Example C66_example :
  signature_ok (boot demo_script 0) 2 (a_func (lit "ADD") 2 T_INT 0) [PInt; PBool] RInt /\
  ~ signature_ok (boot demo_script 0) 2 (a_func (lit "ADD") 2 T_INT 0) [PInt; PStr] RInt /\
  match override_function bare (lit "aDd") [PInt; PInt] RInt (fun _ => vret (VInt 1)) (boot demo_script 0) with VRet _ _ => True | _ => False end.
Proof.
  assert (D : declared_params (boot demo_script 0) 2 (a_func (lit "ADD") 2 T_INT 0) [T_INT; T_INT]).
  { split; [reflexivity|]. intros k t K. assert (B : k < 2) by exact (nth_N_lt _ _ _ K). assert (Q : k = 0 \/ k = 1) by lia.
    destruct Q as [-> | ->]; vm_compute in K; injection K as <-; eexists; (split; [vm_compute; reflexivity|reflexivity]). }
  split; [|split; [|vm_compute; exact I]].
  - split; [reflexivity|]. exists [T_INT; T_INT]. split; [exact D|]. constructor; [left; reflexivity|constructor; [left; reflexivity|constructor]].
  - intros (_ & ts & D' & F). rewrite (declared_unique _ _ _ _ _ D' D) in F. inversion F as [|? ? ? ? _ F2]. inversion F2 as [|? ? ? ? Q _]. discriminate Q.
Qed.

(* ------------------------------------------------------------------ *)
(** ** C67 *)
Theorem C67_jump : forall h call ins s, i_op ins = op_B ->
  (i_addr ins < text_size (v_text s) /\ step h call ins s = VRet true (set_pc (i_addr ins) s)) \/
  (text_size (v_text s) <= i_addr ins /\ step h call ins s = VExc VmException s).
Proof. exact step_jump. Qed.
Print Assumptions C67_jump.
Theorem C67_branch : forall h call ins s f v, i_op ins = op_BZ -> from_top s 0 f -> int_operand s f v ->
  exists s1, only_stack s s1 /\ v_sp s1 = v_sp s - 1 /\
    ((v <> 0%Z /\ step h call ins s = VRet true (set_pc (u32 (v_pc s + i_size ins)) s1)) \/
     (v = 0%Z /\ i_addr ins < text_size (v_text s) /\ step h call ins s = VRet true (set_pc (i_addr ins) s1)) \/
     (v = 0%Z /\ text_size (v_text s) <= i_addr ins /\ step h call ins s = VExc VmException s1)).
Proof. exact branch_in_code. Qed.
Print Assumptions C67_branch.
(** A function whose address is outside the code is never entered: what is run in its place does
    not matter. *)
Theorem C67_call : forall f x s, nth_N (v_syms s) f = Some x -> f <> v_tmp s -> text_size (v_text s) <= s_addr x ->
  exists o, (forall body, call_with body f s = o) /\ match o with VRet _ _ => False | _ => True end.
Proof. exact call_jump. Qed.
Print Assumptions C67_call.
Example C67_example : text_size (v_text (boot demo_script 0)) = 40 /\
  step bare (unsafe_call 1 bare) (mkI op_B 40 0 0 0 5) (boot demo_script 0) = VExc VmException (boot demo_script 0).
Proof. split; vm_compute; reflexivity. Qed.

(* ------------------------------------------------------------------ *)
(** ** C68 *)
(** In a loaded script, the lookups find the last symbol with the upper-cased name, the last
    symbol at the address, or nothing if there is none; lookup by index is the table itself.
    Missing: names that are not in upper case, several symbols with the same name or address. *)
Theorem C68_lookup_partial : forall s sc s', load_script s = Ret (sc, s') ->
  (forall n, last_index (fun x => bytes_eqb (s_name x) (upper n)) (sc_syms sc) (find_by_name (sc_names sc) n)) /\
  (forall a, last_index (fun x => has_address x && (s_addr x =? a)) (sc_syms sc) (find_by_address (sc_addrs sc) a)) /\
  (forall i, find_by_index (sc_syms sc) i = nth_N (sc_syms sc) i).
Proof. intros s sc s' E. destruct (load_script_lookup s sc s' E) as [A B]. split; [exact A|]. split; [exact B|]. reflexivity. Qed.
Print Assumptions C68_lookup_partial.
Definition c_int (name : bytes) (v : Z) : csym := mkC (Some name) 0 1 T_INT 0 [0; 0; 0; 0; 0] (CInts [v]) none32.
Theorem C68_lower_case_refuted : exists file, 
  match load_script (r_from file) with
  | Ret (sc, _) => option_map s_name (nth_N (sc_syms sc) 0) = Some (lit "abc") /\ find_by_name (sc_names sc) (lit "abc") = None
  | _ => False
  end.
Proof. exists (script_bytes x32 [0] [c_int (lit "abc") 5] []). vm_compute. auto. Qed.
Print Assumptions C68_lower_case_refuted.
Theorem C68_duplicate_refuted : exists file,
  match load_script (r_from file) with
  | Ret (sc, _) => option_map s_name (nth_N (sc_syms sc) 0) = Some (lit "X") /\ find_by_name (sc_names sc) (lit "X") = Some 1
  | _ => False
  end.
Proof. exists (script_bytes x32 [0; 1] [c_int (lit "X") 5; c_int (lit "X") 6] []). vm_compute. auto. Qed.
Print Assumptions C68_duplicate_refuted.
Example C68_example :
  match load_script (r_from (script_bytes x32 [0; 1] [c_int (lit "X") 5; c_int (lit "Y") 6] [])) with
  | Ret (sc, _) => find_by_name (sc_names sc) (lit "y") = Some 1 /\ find_by_name (sc_names sc) (lit "Z") = None
  | _ => False
  end.
Proof. vm_compute. auto. Qed.

(* ------------------------------------------------------------------ *)
(** ** C69 *)
(** An instruction that was fetched raises a script error [e], leaving state [s2].
    CONTINUE: the next instruction (counted from where the error left the program counter) unless
    the handler moved it. *)
Theorem C69_continue_partial : forall h call s i s1 e s2 hd s3, fetch s = VRet i s1 -> step h call i s1 = VExc e s2 ->
  is_script_error e = true -> h_handler h = Some hd -> hd e i s2 = VRet Continue s3 ->
  exists s4, exec h call s = VRet true s4 /\
    same_machine (set_pc (if v_pc s3 =? v_pc s2 then u32 (v_pc s3 + i_size i) else v_pc s3) s3) s4.
Proof. exact exec_continue. Qed.
Print Assumptions C69_continue_partial.
(** RETURN: the function ends here. *)
Theorem C69_return : forall h call s i s1 e s2 hd s3, fetch s = VRet i s1 -> step h call i s1 = VExc e s2 ->
  is_script_error e = true -> h_handler h = Some hd -> hd e i s2 = VRet Return s3 ->
  exists s4, exec h call s = VRet false s4 /\ same_machine s3 s4.
Proof. exact exec_return. Qed.
Print Assumptions C69_return.
(** FAIL and no handler: the error is raised again, if the stack can be printed. *)
Theorem C69_fail_partial : forall h call s i s1 e s2 hd s3 s4, fetch s = VRet i s1 -> step h call i s1 = VExc e s2 ->
  is_script_error e = true -> h_handler h = Some hd -> hd e i s2 = VRet Fail s3 -> print_stack_trace s3 = VRet tt s4 ->
  exec h call s = VExc e s3.
Proof.
  intros h call s i s1 e s2 hd s3 s4 F S I H D T. pose proof (exec_fail h call s i s1 e s2 hd s3 s4 F S I H D T) as Q.
  rewrite (trace_same _ _ T) in Q. exact Q.
Qed.
Print Assumptions C69_fail_partial.
Theorem C69_unhandled_partial : forall h call s i s1 e s2 s4, fetch s = VRet i s1 -> step h call i s1 = VExc e s2 ->
  is_script_error e = true -> h_handler h = None -> print_stack_trace s2 = VRet tt s4 -> exec h call s = VExc e s2.
Proof.
  intros h call s i s1 e s2 s4 F S I H T. pose proof (exec_unhandled h call s i s1 e s2 s4 F S I H T) as Q.
  rewrite (trace_same _ _ T) in Q. exact Q.
Qed.
Print Assumptions C69_unhandled_partial.
(** The error of a called function: CONTINUE for the call goes on inside the called function. *)
Definition failing : script := a_script [a_func (lit "G") 0 T_VOID 0; a_func (lit "MAIN") 0 T_VOID 2] (assemble [ACode 71; RSR; BL 0; RSR]).
Definition choosy : host := with_handler (fun _ i => vret (if i_op i =? op_BL then Continue else Fail)).
Theorem C69_continue_refuted : exists sc h n s, script_ok sc /\ api_host h /\ s = set_pc 2 (boot sc 0) /\
  result_of (fetch s) = Some (mkI op_BL 0 0 0 0 5) /\
  match exec h (unsafe_call n h) s with VRet true s' => v_pc s' = 5 | _ => False end.
Proof.
  exists failing, choosy, 9%nat, (set_pc 2 (boot failing 0)). split; [apply script_okb_ok; vm_compute; reflexivity|]. split.
  - constructor; try discriminate. intros d E. injection E as <-. intros. apply api_ret.
  - split; [reflexivity|]. split; vm_compute; reflexivity.
Qed.
Print Assumptions C69_continue_refuted.
(** While the stack is printed another exception is thrown in place of the first. *)
Theorem C69_fail_refuted : exists s s2, reachable s /\ h_handler bare = None /\
  (exists i s1, fetch s = VRet i s1 /\ step bare (unsafe_call 1 bare) i s1 = VExc VmException s2) /\
  exec bare (unsafe_call 1 bare) s = VExc NoContext s2.
Proof.
  set (sc := a_script opaque_syms (assemble [ACode 71])).
  set (s := match push_reference 3 0 (boot sc 0) with VRet _ s => s | _ => boot sc 0 end).
  exists s, (match fetch s with VRet _ s1 => s1 | _ => s end). split.
  - exists sc, 0, [push_reference 3 0]. split; [apply script_okb_ok; vm_compute; reflexivity|]. split; [constructor; [apply api_push_reference|constructor]|].
    vm_compute. reflexivity.
  - split; [reflexivity|]. split; [|vm_compute; reflexivity].
    exists (mkI 71 0 0 0 0 1), (match fetch s with VRet _ s1 => s1 | _ => s end). split; vm_compute; reflexivity.
Qed.
Print Assumptions C69_fail_refuted.
Example C69_example : 
  match exec (with_handler (fun _ _ => vret Continue)) (unsafe_call 1 bare) (boot failing 0) with VRet true s => v_pc s = 1 | _ => False end /\
  match exec (with_handler (fun _ _ => vret Return)) (unsafe_call 1 bare) (boot failing 0) with VRet false s => v_pc s = 0 | _ => False end /\
  match exec bare (unsafe_call 1 bare) (boot failing 0) with VExc VmException s => v_pc s = 0 | _ => False end.
Proof. vm_compute. auto. Qed.

(* ------------------------------------------------------------------ *)
(** ** C70 *)
(** The parameters, one for each declared: the symbol behind the function, and so on
    ([None] is an element outside the table). *)
Theorem C70_parameters : forall l f x,
  len (params_of l f x) = s_count x /\ forall k, k < s_count x -> nth_N (params_of l f x) k = Some (nth_N l (f + 1 + k)).
Proof. intros l f x. exact (conj (params_count l f x) (params_exact l f x)). Qed.
Print Assumptions C70_parameters.
(** The local variables: the symbols behind the parameters, up to the first whose name does not
    begin with the function's name and a dot.  Missing: tables that end with a local variable. *)
Theorem C70_locals_partial : forall l f x, f + 1 + s_count x < 2 ^ 32 ->
  (exists y k, f + 1 + s_count x <= k /\ nth_N l k = Some y /\ is_local_name (s_name x) (s_name y) = false) ->
  exists n, locals_of l f x = map (fun k => f + 1 + s_count x + N.of_nat k) (seq 0 n) /\
    (forall k y, f + 1 + s_count x <= k < f + 1 + s_count x + N.of_nat n -> nth_N l k = Some y ->
       is_local_name (s_name x) (s_name y) = true) /\
    exists y, nth_N l (f + 1 + s_count x + N.of_nat n) = Some y /\ is_local_name (s_name x) (s_name y) = false.
Proof. exact locals_exact. Qed.
Print Assumptions C70_locals_partial.
Theorem C70_end_of_table_refuted : exists l f x y, nth_N l f = Some x /\ nth_N l (f + 1) = Some y /\ s_count x = 0 /\
  is_local_name (s_name x) (s_name y) = true /\ locals_of l f x = [].
Proof. exists [a_func (lit "F") 0 T_VOID 0; an_int (lit "F.A") 0], 0. eexists. eexists. repeat split. Qed.
Print Assumptions C70_end_of_table_refuted.
Example C70_example : locals_of (sc_syms (recursive 2)) 0 (local_func (lit "F") 1 T_INT 0) = [2] /\
  params_of (sc_syms (recursive 2)) 0 (local_func (lit "F") 1 T_INT 0) = [Some (an_int (lit "F.N") 0)].
Proof. split; vm_compute; reflexivity. Qed.

(* ------------------------------------------------------------------ *)
(** ** C72 *)
(** The frames on top of the stack that are the arguments of a function are the ones it finds on
    top of its stack.  Missing: recursive calls of a function that saves variables taking less
    room than its arguments. *)
Theorem C72_arguments_partial : forall f x s s1, nth_N (v_syms s) f = Some x -> sound s ->
  push_call f s = VRet tt s1 -> wrapped s1 = false ->
  (has_locals x = true -> (exists c, In c (v_calls s) /\ c_fun c = f) -> locals_size s f x = 0 \/ s_count x <= locals_size s f x) ->
  forall k, k < s_count x -> v_slots s1 (v_sp s1 - s_count x + k) = v_slots s (v_sp s - s_count x + k).
Proof. exact arguments_delivered. Qed.
Print Assumptions C72_arguments_partial.
(** [func int P(var int A, var int B) { var int L; if (A) { return P(A - 1, B); }; return B; };]
    gives 42 for P(1, 42) if local variables are not saved, and 0 if they are. *)
Definition two_args (f : sym) : script := a_script
  [f; an_int (lit "P.A") 0; an_int (lit "P.B") 0; an_int (lit "P.L") 0; an_int (lit "END") 0]
  (assemble [PUSHV 2; MOVI; PUSHV 1; MOVI; PUSHV 1; BZ 44; AImm 1; PUSHV 1; SUB; PUSHV 2; BL 0; RSR; PUSHV 2; RSR]).
Theorem C72_recursion_refuted : 
  result_of (call_function 99 bare (Some 0) [VInt 1; VInt 42] MVm.KInt (boot (two_args (a_func (lit "P") 2 T_INT 0)) 0)) = Some (VInt 42) /\
  result_of (call_function 99 bare (Some 0) [VInt 1; VInt 42] MVm.KInt (boot (two_args (local_func (lit "P") 2 T_INT 0)) 0)) = Some (VInt 0).
Proof. split; vm_compute; reflexivity. Qed.
Print Assumptions C72_recursion_refuted.
Example C72_example :
  match (push_int 8 ;! push_int 1 ;! push_int 2 ;! push_call 2) (boot demo_script 0) with
  | VRet _ s => wrapped s = false /\ v_slots s 1 = Some (plain 1) /\ v_slots s 2 = Some (plain 2) /\ v_sp s = 3
  | _ => False end.
Proof. vm_compute. auto. Qed.

(* ------------------------------------------------------------------ *)
(** ** C73 *)
(** The caller gets the frame the function left on top of its stack. *)
Theorem C73_result_partial : forall n h f x s s', api_host h -> sound s -> nth_N (v_syms s) f = Some x -> f <> v_tmp s ->
  has_return x = true -> unsafe_call n h f s = VRet tt s' -> disciplined s' ->
  exists s1 s2 fr, run n h s1 = VRet tt s2 /\ v_slots s' (v_sp s' - 1) = Some fr /\ result_value x (v_sp s1 - s_count x) s2 fr.
Proof.
  intros n h f x s s' H S X T R E D. destruct (calls_return n h f x s s' H S X T E D) as (_ & s1 & s2 & A & _ & _ & B).
  destruct (B R) as (fr & F1 & F2). eauto 8.
Qed.
Print Assumptions C73_result_partial.
(** [func int H(var int N) { var int L; var int R; L = N; if (N) { R = H(N - 1); return R; }; return L; };]
    Returned variables are returned by reference: with saved local variables H(1) is the L of the
    caller, 1, in place of that of the function called, 0. *)
Definition by_reference (f : sym) : script := a_script
  [f; an_int (lit "H.N") 0; an_int (lit "H.L") 0; an_int (lit "H.R") 0; an_int (lit "END") 0]
  (assemble [PUSHV 1; MOVI; PUSHV 1; PUSHV 2; MOVI; PUSHV 1; BZ 55; AImm 1; PUSHV 1; SUB; BL 0; PUSHV 3; MOVI; PUSHV 3; RSR; PUSHV 2; RSR]).
Theorem C73_by_reference_refuted :
  result_of (call_function 99 bare (Some 0) [VInt 1] MVm.KInt (boot (by_reference (a_func (lit "H") 1 T_INT 0)) 0)) = Some (VInt 0) /\
  result_of (call_function 99 bare (Some 0) [VInt 1] MVm.KInt (boot (by_reference (local_func (lit "H") 1 T_INT 0)) 0)) = Some (VInt 1).
Proof. split; vm_compute; reflexivity. Qed.
Print Assumptions C73_by_reference_refuted.
Example C73_example : result_of (call_function 20 bare (Some 2) [VInt 20; VInt 22] MVm.KInt (boot demo_script 0)) = Some (VInt 42).
Proof. vm_compute. reflexivity. Qed.

(* ------------------------------------------------------------------ *)
(** ** C74 *)
(** A compiled script loads as what it says.  Missing: constant strings whose parent's lowest
    byte is a white-space character. *)
Theorem C74_load_partial : forall version order l code,
  Forall (fun c => csym_ok c /\ parent_clear c) l -> len order = len l -> len l < 2 ^ 32 -> len code < 2 ^ 32 ->
  reads load_script (script_bytes version order l code) (script_meaning l code).
Proof. exact reads_script. Qed.
Print Assumptions C74_load_partial.
Definition c_string (name v : bytes) (parent : N) : csym := mkC (Some name) 0 1 T_STRING F_CONST [0; 0; 0; 0; 0] (CStrings [v]) parent.
Theorem C74_parent_refuted : exists l order code, Forall csym_ok l /\ len order = len l /\
  match load_script (r_from (script_bytes x32 order l code)) with
  | Ret (sc, _) => map s_parent (sc_syms sc) <> map c_parent l
  | _ => False
  end.
Proof.
  exists [c_string (lit "S") (lit "text") 32], [0], []. split.
  - constructor; [|constructor]. split; [intros n E; injection E as <-; repeat constructor; discriminate|].
    do 5 (split; [reflexivity|]). split; [repeat constructor|]. split; [reflexivity|]. cbn. exists [lit "text"]. split; [reflexivity|]. split; [reflexivity|].
    repeat constructor; discriminate.
  - split; [reflexivity|]. vm_compute. discriminate.
Qed.
Print Assumptions C74_parent_refuted.
Example C74_example : Forall (fun c => csym_ok c /\ parent_clear c) [c_int (lit "X") 5].
Proof.
  constructor; [|constructor]. split; [|discriminate].
  split; [intros n E; injection E as <-; repeat constructor; discriminate|].
  do 5 (split; [reflexivity|]). split; [repeat constructor|]. split; [reflexivity|]. cbn. exists [5%Z]. split; [reflexivity|]. split; [reflexivity|].
  constructor; [split; [discriminate|reflexivity]|constructor].
Qed.

(* ------------------------------------------------------------------ *)
(** ** C75 *)
(** Binding a member succeeds only for a member whose script type fits the C++ type, with no more
    elements than the C++ member, of a class not bound to another type; then the member is at
    that offset of that type, the class has that type, and no other symbol changes. *)
Theorem C75_checked : forall l names ty n name cls off l',
  register_member l names ty n name cls off = (l', Ret tt) ->
  exists i x p, find_by_name names name = Some i /\ nth_N l i = Some x /\ nth_N l (s_parent x) = Some p /\
    is_member x = true /\ s_count x <= n /\ binds (s_type x) ty /\ (s_reg p = None \/ s_reg p = Some cls).
Proof. exact register_member_ok. Qed.
Print Assumptions C75_checked.
Theorem C75_effect : forall l names ty n name cls off l' i x p,
  register_member l names ty n name cls off = (l', Ret tt) -> find_by_name names name = Some i -> nth_N l i = Some x ->
  nth_N l (s_parent x) = Some p -> s_parent x <> i ->
  nth_N l' i = Some (with_member x (u32 off) (Some cls)) /\
  (exists p', nth_N l' (s_parent x) = Some p' /\ s_reg p' = Some cls) /\
  (forall j, j <> i -> j <> s_parent x -> nth_N l' j = nth_N l j).
Proof. exact register_member_effect. Qed.
Print Assumptions C75_effect.
(** A registration that fails because of the type has bound the class. *)
Theorem C75_failure_refuted : exists l names ty n name cls off l' e,
  register_member l names ty n name cls off = (l', Throw e) /\ l' <> l /\
  register_member l' names 2 n name (cls + 1) off = (l', Throw e) /\
  exists l'', register_member l names 2 n name (cls + 1) off = (l'', Ret tt).
Proof.
  exists [klass (lit "C"); member (lit "C.I") 0 T_INT 1], [(lit "C.I", 1)], 1, 1, (lit "C.I"), 5, 0.
  eexists. eexists. split; [vm_compute; reflexivity|]. split; [discriminate|]. split; [vm_compute; reflexivity|]. eexists. vm_compute. reflexivity.
Qed.
Print Assumptions C75_failure_refuted.
Example C75_example : exists l',
  register_member [klass (lit "C"); member (lit "C.I") 0 T_INT 1] [(lit "C.I", 1)] 2 4 (lit "c.i") 5 12 = (l', Ret tt) /\ map s_moff l' = [none32; 12].
Proof. eexists. split; vm_compute; reflexivity. Qed.

(* ------------------------------------------------------------------ *)
(** ** C76 *)
(** A native function gets the values the script pushed, the first parameter first, and whatever
    was below is still there. *)
Theorem C76_native_arguments : forall ps is vs r cb s l, all_delivered ps is vs -> Forall2 (inst_fits (v_heap s)) ps is ->
  Holds s (rev is ++ l) ->
  exists s1, Holds s1 l /\ v_heap s1 = v_heap s /\
    wrap_external ps r cb s = (let! v := cb vs in match r with RVoid => vret tt | _ => push_value v end) s1.
Proof. exact native_arguments. Qed.
Print Assumptions C76_native_arguments.
Example C76_example : all_delivered [PInt; PStr; PFloat; PInst None] [IInt 3; IStr (lit "a"); IFloat 7; IInst None] [VInt 3; VStr (lit "a"); VFloat 7; VInst None] /\
  exists s rs, operate_all (map Put [IInt 3; IStr (lit "a"); IFloat 7; IInst None]) (boot demo_script 0) = VRet rs s /\
    Holds s (rev [IInt 3; IStr (lit "a"); IFloat 7; IInst None] ++ []).
Proof.
  split; [repeat constructor|].
  destruct (stack_history (map Put [IInt 3; IStr (lit "a"); IFloat 7; IInst None]) (boot demo_script 0) [] _ _ (boot_holds _ _) eq_refl) as (s & E & H).
  eexists. eexists. split; [exact E|exact H].
Qed.

(* ------------------------------------------------------------------ *)
(** ** The step budget *)
(** [run], [unsafe_call] and [call_function] take a number of steps they may use at most (the
    program has none).  A run that ends within it ends the same way with any larger one, so the
    theorems above do not depend on it. *)
Theorem budget_irrelevant :
  (forall h n m s, (n <= m)%nat -> run n h s <> VFuel -> run m h s = run n h s) /\
  (forall h n m f s, (n <= m)%nat -> unsafe_call n h f s <> VFuel -> unsafe_call m h f s = unsafe_call n h f s) /\
  (forall h n m f args r s, (n <= m)%nat -> call_function n h f args r s <> VFuel -> call_function m h f args r s = call_function n h f args r s).
Proof. exact (conj run_fuel (conj unsafe_call_fuel call_function_fuel)). Qed.
Print Assumptions budget_irrelevant.
