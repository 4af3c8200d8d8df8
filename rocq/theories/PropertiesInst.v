(** Property C129: creating script instances. *)

From Coq Require Import Lia ZifyN ZifyBool ZifyNat.
From Verif Require Import MBase MStream MDaedalus MVm SVm SDaedalus SInst LBase LVm LInst PropertiesDaedalus.
Local Open Scope N_scope.
Local Open Scope v_scope.

(** ** C129 *)
(** Allocating an instance: it was made for the type its class is registered for; the symbol is
    bound to it, it knows its symbol and its type, and nothing else changes. *)
Theorem C129_allocated : forall fuel t n f s s', allocate_instance fuel t n (Some f) s = VRet tt s' ->
  made_as s f t /\ bound s' f (Some n) /\
  (exists o, nth_N (v_heap s) n = Some o /\ nth_N (v_heap s') n = Some (mkInst f (Some t) (n_size o) (n_mem o))) /\
  rest_same f n s s'.
Proof. exact allocate_bound. Qed.
Print Assumptions C129_allocated.
(** It succeeds for every symbol of an instance whose class is registered for the type. *)
Theorem C129_accepted : forall t n f s o, made_as s f t -> (exists v, bound s f v) -> nth_N (v_heap s) n = Some o ->
  exists k, forall fuel, (k <= fuel)%nat -> exists s', allocate_instance fuel t n (Some f) s = VRet tt s'.
Proof. exact allocate_succeeds. Qed.
Print Assumptions C129_accepted.
(** A missing symbol, one that is no instance, one without a parent, and a class registered for
    another type are refused, and nothing changes. *)
Theorem C129_refused : forall fuel t n s, allocate_instance fuel t n None s = VExc VmException s /\
  (forall f x, nth_N (v_syms s) f = Some x -> s_type x <> T_INSTANCE -> allocate_instance fuel t n (Some f) s = VExc VmException s) /\
  (forall f x, nth_N (v_syms s) f = Some x -> s_type x = T_INSTANCE -> nth_N (v_syms s) (s_parent x) = None ->
     allocate_instance fuel t n (Some f) s = VExc VmException s) /\
  (forall f r, made_as s f r -> r <> t -> allocate_instance fuel t n (Some f) s = VExc VmException s \/ allocate_instance fuel t n (Some f) s = VFuel).
Proof. exact allocate_refused. Qed.
Print Assumptions C129_refused.
(** Initialising one: the constructor runs with the instance as the current one and as SELF, and
    with the symbol bound to it; afterwards the current instance and SELF are what they were, and
    everything else is what the constructor left. *)
Theorem C129_initialised_partial : forall fuel h t n f s s', init_instance fuel h t n (Some f) s = VRet tt s' ->
  exists s0 s1 s2, allocate_instance fuel t n (Some f) s = VRet tt s0 /\
    v_inst s1 = Some n /\ bound s1 f (Some n) /\ (forall k, self_of s = Some k -> bound s1 k (Some n)) /\
    (forall j, j <> f -> self_of s <> Some j -> nth_N (v_syms s1) j = nth_N (v_syms s) j) /\
    unsafe_call fuel h f s1 = VRet tt s2 /\
    v_inst s' = v_inst s /\
    (forall k v, self_of s = Some k -> k <> f -> bound s k v -> bound s' k v) /\
    (forall j, self_of s <> Some j -> nth_N (v_syms s') j = nth_N (v_syms s2) j) /\
    v_heap s' = v_heap s2 /\ v_pc s' = v_pc s2 /\ v_calls s' = v_calls s2 /\ v_sp s' = v_sp s2 /\ v_slots s' = v_slots s2.
Proof. exact init_ran. Qed.
Print Assumptions C129_initialised_partial.
(** Opaque instances are new and treated likewise. *)
Lemma opaque_new fuel h f s n s' : init_opaque_instance fuel h f s = VRet n s' ->
  n = len (v_heap s) /\ v_inst s' = v_inst s /\ (forall k v, self_of s = Some k -> k <> f -> bound s k v -> bound s' k v).
Proof.
  unfold init_opaque_instance. unfold vbind at 1. unfold vget. unfold vbind at 1. unfold vlift at 1.
  destruct (class_of fuel (v_syms s) f) as [[c|]| | |]; try discriminate. unfold vbind at 1. unfold vlift at 1.
  destruct (new_opaque (v_syms s) c) as [o| | |]; try discriminate. unfold vbind at 1. unfold vmod at 1. unfold vbind.
  destruct (init_instance _ _ _ _ _ _) as [[] s2| | |] eqn:I; try discriminate. intros [= <- <-].
  destruct (init_ran _ _ _ _ _ _ _ I) as (s0 & s1 & s3 & _ & _ & _ & _ & _ & _ & Hi & Hs & _).
  split; [reflexivity|]. split; [exact Hi|]. exact Hs.
Qed.
Theorem C129_opaque_partial : forall fuel h f s n s', init_opaque_instance fuel h f s = VRet n s' ->
  n = len (v_heap s) /\ v_inst s' = v_inst s /\ (forall k v, self_of s = Some k -> k <> f -> bound s k v -> bound s' k v).
Proof. exact opaque_new. Qed.
Print Assumptions C129_opaque_partial.

(** A script with SELF, a class with an integer, and an instance whose constructor stores 7 in it;
    another instance whose constructor divides by zero. *)
Definition inst_syms : list sym := register_as_opaque
  [klass (lit "C"); member (lit "C.I") 0 T_INT 1; a_sym (lit "SELF") T_INSTANCE 0 0 (SInst None) none32 T_VOID;
   an_instance (lit "GOOD") 0 0; an_instance (lit "BAD") 0 12; klass (lit "D"); an_instance (lit "LOOSE") 5 0;
   an_instance (lit "LOOP") 8 0; a_sym (lit "P") 6 0 0 (SInts []) none32 T_VOID] 0.
Definition inst_script : script := a_script
  (map (fun x => if bytes_eqb (s_name x) (lit "P") then mkSym (s_name x) (s_val x) (s_addr x) 8 (s_coff x) (s_count x) (s_type x) (s_flags x) (s_gen x) (s_pos x) (s_moff x) (s_csize x) (s_rtype x) (s_reg x) else x) inst_syms)
  (assemble [AImm 7; PUSHV 1; MOVI; RSR; ACode 3; RSR]).
Definition inst_start : vm := boot inst_script 0.
Example C129_example : reachable inst_start /\ self_of inst_start = Some 2 /\ bound inst_start 2 None /\
  match init_opaque_instance 10 bare 3 inst_start with
  | VRet n s' => n = 0 /\ bound s' 3 (Some 0) /\ bound s' 2 None /\ v_inst s' = None /\ made_as s' 3 opaque_type /\
      rd_int 1 0 (Some 0) s' = VRet 7%Z s'
  | _ => False
  end.
Proof.
  split; [apply boot_reachable; vm_compute; reflexivity|]. split; [vm_compute; reflexivity|].
  split; [eexists; split; [vm_compute; reflexivity|split; reflexivity]|].
  destruct (init_opaque_instance 10 bare 3 inst_start) as [n s'|e s'|u s'|] eqn:E; [|vm_compute in E; discriminate ..].
  assert (F : match init_opaque_instance 10 bare 3 inst_start with VRet n s' =>
     (n, rd_inst 3 s', rd_inst 2 s', v_inst s', match rd_int 1 0 (Some 0) s' with VRet z _ => z | _ => 0%Z end) = (n, rd_inst 3 s', rd_inst 2 s', v_inst s', 7%Z) | _ => False end) by (vm_compute; reflexivity).
  vm_compute in E. injection E as <- <-. split; [reflexivity|].
  split; [eexists; split; [vm_compute; reflexivity|split; reflexivity]|]. split; [eexists; split; [vm_compute; reflexivity|split; reflexivity]|].
  split; [reflexivity|]. split; [|vm_compute; reflexivity].
  eexists _, 0, _. split; [vm_compute; reflexivity|]. split; [reflexivity|]. split; [eapply above_here; [vm_compute; reflexivity|reflexivity]|]. split; [vm_compute; reflexivity|reflexivity].
Qed.

(** A constructor that throws: whatever it left stays, the current instance and SELF are not
    restored. *)
Theorem C129_throws_refuted :
  (forall fuel h t n f s s0 s1 e s2 k, allocate_instance fuel t n (Some f) s = VRet tt s0 -> self_of s = Some k ->
     (exists v, bound s0 k v) -> wr_inst k (Some n) (set_inst (Some n) s0) = VRet tt s1 -> unsafe_call fuel h f s1 = VExc e s2 ->
     init_instance fuel h t n (Some f) s = VExc e s2) /\
  exists s f, reachable s /\ self_of s = Some 2 /\ bound s 2 None /\ v_inst s = None /\
    match init_opaque_instance 10 bare f s with VExc VmException s' => rd_inst 2 s' = VRet (Some 0) s' /\ v_inst s' = Some 0 /\ v_pc s' = 12 | _ => False end.
Proof.
  split; [exact init_threw|]. exists inst_start, 4. split; [apply boot_reachable; vm_compute; reflexivity|]. split; [vm_compute; reflexivity|].
  split; [eexists; split; [vm_compute; reflexivity|split; reflexivity]|]. split; [reflexivity|]. vm_compute. split; [reflexivity|]. split; reflexivity.
Qed.
Print Assumptions C129_throws_refuted.
(** A class that is not registered for any type is not refused: a null pointer is used.  So it is
    if the parents end before a class; if they go round, the machine hangs. *)
Lemma loops : forall fuel, init_opaque_instance fuel bare 7 inst_start = VFuel.
Proof.
  assert (C : forall n, class_of n (v_syms inst_start) 8 = Fuel).
  { induction n as [|n IH]; [reflexivity|]. cbn [class_of].
    assert (X : exists x, nth_N (v_syms inst_start) 8 = Some x /\ s_type x = 6 /\ s_parent x = 8) by (eexists; split; [vm_compute; reflexivity|split; reflexivity]).
    destruct X as (x & -> & -> & ->). exact IH. }
  intros [|n]; [reflexivity|]. unfold init_opaque_instance, vbind, vget. cbn [class_of].
  assert (X : exists x, nth_N (v_syms inst_start) 7 = Some x /\ s_type x = 7 /\ s_parent x = 8) by (eexists; split; [vm_compute; reflexivity|split; reflexivity]).
  destruct X as (x & -> & -> & ->). change (7 =? T_CLASS) with false. cbv beta iota. rewrite C. reflexivity.
Qed.
Theorem C129_unregistered_refuted :
  (forall t n f s x c y, nth_N (v_syms s) f = Some x -> s_type x = T_INSTANCE -> class_above (v_syms s) (s_parent x) c ->
     nth_N (v_syms s) c = Some y -> s_reg y = None ->
     exists k, forall fuel, (k <= fuel)%nat -> allocate_instance fuel t n (Some f) s = VUndef NullPtr s) /\
  (exists s n, reachable s /\ match init_opaque_instance 10 bare 6 s with VUndef NullPtr _ => True | _ => False end /\
     allocate_instance 10 5 n (Some 6) s = VUndef NullPtr s) /\
  exists s, reachable s /\ forall fuel, init_opaque_instance fuel bare 7 s = VFuel.
Proof.
  split; [exact unregistered|]. split.
  - exists inst_start, 0. split; [apply boot_reachable; vm_compute; reflexivity|]. split; vm_compute; [exact I|reflexivity].
  - exists inst_start. split; [apply boot_reachable; vm_compute; reflexivity|]. exact loops.
Qed.
Print Assumptions C129_unregistered_refuted.
