(** Property C130: functions the host did not register. *)

From Coq Require Import Lia ZifyN ZifyBool ZifyNat.
From Verif Require Import MBase MStream MDaedalus MVm SVm SVmProps SDaedalus SInst LBase LVm LDefault PropertiesDaedalus.
Local Open Scope N_scope.
Local Open Scope v_scope.

(** ** C130 *)
(** A function of the script that the host did not register takes exactly its arguments from the
    stack, leaves what is below alone, and pushes one default value of its return type if it has
    one; then the host is told, and instance, position and calls are as before. *)
Theorem C130_balanced_partial : forall cb i x s s', nth_N (v_syms s) i = Some x ->
  (forall k, k < s_count x -> exists p, nth_N (v_syms s) (i + 1 + k) = Some p /\ plain_type (s_type p)) ->
  (has_return x = true -> plain_type (s_rtype x)) -> s_count x <= v_sp s -> default_external cb i s = VRet tt s' ->
  exists s1, cb i s1 = VRet tt s' /\ v_sp s1 = v_sp s - s_count x + returns x /\
    (forall j, j < v_sp s - s_count x -> v_slots s1 j = v_slots s j) /\
    (has_return x = true -> exists fr, v_slots s1 (v_sp s - s_count x) = Some fr /\ default_value (s_rtype x) (v_tmp s) fr) /\
    v_pc s1 = v_pc s /\ v_inst s1 = v_inst s /\ v_calls s1 = v_calls s.
Proof. exact default_balanced. Qed.
Print Assumptions C130_balanced_partial.

(** A script with externals: [string S (int, string)], [void F (func)], [func R ()], [void N (instance)];
    and functions that call them. *)
Definition a_param (name : bytes) (ty : N) : sym := a_sym name ty 0 1 (SInts [Some 0%Z]) none32 T_VOID.
Definition an_ext (name : bytes) (n rt : N) : sym :=
  a_sym name T_FUNCTION (if rt =? T_VOID then F_CONST + F_EXTERNAL else F_CONST + F_EXTERNAL + F_RETURN) n (SInts []) none32 rt.
Definition ext_script : script := a_script
  [an_ext (lit "S") 2 T_STRING; a_param (lit "S.A") T_INT; a_param (lit "S.B") T_STRING;
   an_ext (lit "F") 1 T_VOID; a_param (lit "F.F") T_FUNCTION; an_ext (lit "R") 0 T_FUNCTION;
   an_ext (lit "N") 1 T_VOID; a_param (lit "N.N") T_INSTANCE;
   a_sym (lit "TEXT") T_STRING 0 1 (SStrs [lit "abc"]) none32 T_VOID;
   a_func (lit "CALL_S") 0 T_VOID 0; a_func (lit "CALL_F") 0 T_VOID 16; a_func (lit "CALL_R") 0 T_VOID 27]
  (assemble [AImm 5; PUSHV 8; ASym op_BE 0; RSR; AImm 27; ASym op_BE 3; RSR; ASym op_BE 5; RSR]).
Definition silent : host := mkHost (fun _ => None) (fun _ => None) (Some (default_external (fun _ => vret tt))) None None.
Definition ext_start : vm := boot ext_script 0.
Lemma ext_reached (m : V unit) : api m -> match m ext_start with VRet _ s | VExc _ s => reachable s | _ => True end.
Proof.
  intros A. assert (O : exists sc f, script_okb sc = true /\ ext_start = boot sc f) by (exists ext_script, 0; split; [vm_compute; reflexivity|reflexivity]).
  destruct O as (sc & f & O & ->). destruct (boot_reachable sc f O) as (sc' & f' & h & S1 & S2 & S3).
  assert (R : forall s, perform [m] (boot sc f) = VRet tt s -> reachable s).
  { intros s E. exists sc', f', (h ++ [m]). split; [exact S1|]. split; [apply Forall_app; split; [exact S2|constructor; [exact A|constructor]]|].
    clear -S3 E. revert S3. generalize (boot sc' f'). induction h as [|k h IH]; intros s0 S3; cbn [perform app] in *.
    - injection S3 as ->. exact E.
    - destruct (k s0); try discriminate; apply IH; exact S3. }
  cbn [perform] in R. destruct (m (boot sc f)) as [[] s|e s| |]; try exact I; apply R; reflexivity.
Qed.
Definition ext_pushed (m : V unit) : vm := match m ext_start with VRet _ s => s | _ => ext_start end.
Example C130_example : reachable ext_start /\
  (exists x, nth_N (v_syms ext_start) 0 = Some x /\ s_count x = 2 /\ has_return x = true /\ s_rtype x = T_STRING) /\
  match (push_int 9 ;! push_int 5 ;! push_reference 8 0 ;! default_external (fun _ => vret tt) 0) ext_start with
  | VRet _ s => v_sp s = 2 /\ v_slots s 0 = Some (mkFrame None false (FInt 9) 0) /\
      match pop_string s with VRet str s2 => str = [] /\ match pop_int s2 with VRet z s3 => z = 9%Z /\ v_sp s3 = 0 | _ => False end | _ => False end
  | _ => False
  end /\
  match unsafe_call 20 silent 9 ext_start with VRet _ s => v_sp s = 0 | _ => False end.
Proof.
  split; [apply boot_reachable; vm_compute; reflexivity|].
  split; [eexists; split; [vm_compute; reflexivity|split; [reflexivity|split; reflexivity]]|]. split.
  - vm_compute. split; [reflexivity|]. split; [reflexivity|]. split; [reflexivity|]. split; reflexivity.
  - vm_compute. reflexivity.
Qed.

(** Arguments that are functions stay on the stack, and results that are functions are not
    pushed. *)
Theorem C130_function_refuted :
  (forall cb i x p s, nth_N (v_syms s) i = Some x -> s_count x = 1 -> has_return x = false ->
     nth_N (v_syms s) (i + 1) = Some p -> s_type p = T_FUNCTION -> default_external cb i s = cb i s) /\
  (forall cb i x s, nth_N (v_syms s) i = Some x -> s_count x = 0 -> has_return x = true -> s_rtype x = T_FUNCTION ->
     default_external cb i s = cb i s) /\
  (exists s i x, reachable s /\ nth_N (v_syms s) i = Some x /\ s_count x = 1 /\ has_return x = false /\ v_sp s = 1 /\
     match default_external (fun _ => vret tt) i s with VRet _ s' => v_sp s' = 1 | _ => False end) /\
  exists s i x, reachable s /\ nth_N (v_syms s) i = Some x /\ s_count x = 0 /\ has_return x = true /\ v_sp s = 0 /\
     match default_external (fun _ => vret tt) i s with VRet _ s' => v_sp s' = 0 | _ => False end.
Proof.
  split; [exact function_kept|]. split; [exact function_missing|]. split.
  - exists (ext_pushed (push_int 27)), 3, (an_ext (lit "F") 1 T_VOID). split; [exact (ext_reached _ (api_push_int 27))|].
    split; [vm_compute; reflexivity|]. split; [reflexivity|]. split; [reflexivity|]. split; vm_compute; reflexivity.
  - exists ext_start, 5, (an_ext (lit "R") 0 T_FUNCTION). split; [apply boot_reachable; vm_compute; reflexivity|].
    split; [vm_compute; reflexivity|]. split; [reflexivity|]. split; [reflexivity|]. split; vm_compute; reflexivity.
Qed.
Print Assumptions C130_function_refuted.
(** An instance that is on the stack itself, as the result of a function is, and not by reference to
    a symbol makes the call throw, and the host is not told. *)
Theorem C130_instance_refuted :
  (forall cb i x p s fr, nth_N (v_syms s) i = Some x -> s_count x = 1 ->
     nth_N (v_syms s) (i + 1) = Some p -> s_type p = T_INSTANCE -> 0 < v_sp s <= stack_size -> v_slots s (v_sp s - 1) = Some fr -> f_ref fr = false ->
     exists s', default_external cb i s = VExc VmException s' /\ v_sp s' = v_sp s - 1) /\
  exists s i x, reachable s /\ nth_N (v_syms s) i = Some x /\ s_count x = 1 /\ v_sp s = 1 /\
     v_slots s 0 = Some (mkFrame None false (FInst None) 0) /\
     match default_external (fun _ => vret tt) i s with VExc VmException _ => True | _ => False end.
Proof.
  split; [exact by_value|].
  exists (ext_pushed (push_instance None)), 6, (an_ext (lit "N") 1 T_VOID). split; [exact (ext_reached _ (api_push_instance None))|].
  split; [vm_compute; reflexivity|]. split; [reflexivity|]. split; [vm_compute; reflexivity|]. split; vm_compute; [reflexivity|exact I].
Qed.
Print Assumptions C130_instance_refuted.
