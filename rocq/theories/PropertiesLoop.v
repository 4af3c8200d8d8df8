(** Property C138: scripts that cannot loop. *)

From Coq Require Import ZArith Lia.
From Verif Require Import MBase MStream MDaedalus MVm SVm SVmProps SDaedalus SLoop LBase LVm LVmApi LLoop PropertiesDaedalus.
Local Open Scope N_scope.
Local Open Scope v_scope.

(** ** C138 *)
(** If the control flow of a script cannot loop and does not lead out of the code, a call of one of its
    functions ends, with a result or an error, and if it returns then execution goes on where it was. *)
Theorem C138_call_partial : forall h within rank s f x, modest h -> cannot_loop h s within rank -> nth_N (v_syms s) f = Some x ->
  within (s_addr x) -> fine (undisturbed s) (unsafe_call (S (rank (s_addr x))) h f s).
Proof. exact call_ends. Qed.
Print Assumptions C138_call_partial.
(** No more instructions are executed one after the other, or calls nested, than the way down allows. *)
Theorem C138_run_partial : forall h within rank, modest h -> forall n s, cannot_loop h s within rank -> within (v_pc s) ->
  (rank (v_pc s) < n)%nat -> fine (elsewhere s) (run n h s).
Proof. exact runs_end. Qed.
Print Assumptions C138_run_partial.

(** Code that ends without a return, has no jump and no call: the machine does not stop at the end
    of the code but goes on with additions that are not there, for ever. *)
Definition nop_script : script := a_script [a_func (lit "F") 0 T_VOID 0] (assemble [ACode op_NOP]).
Definition called (sc : script) : vm := match push_call 0 (boot sc 0) with VRet _ s => s | _ => boot sc 0 end.
Theorem C138_past_end_refuted : exists sc f, script_ok sc /\
  (forall h a b, leads h (boot sc 0) a b -> a < b) /\ forall n, unsafe_call n bare f (boot sc 0) = VFuel.
Proof.
  exists nop_script, 0. split; [apply script_okb_ok; vm_compute; reflexivity|]. split.
  - assert (X : forall a i, has_instruction (rdata (v_text (boot nop_script 0))) a i -> a = 0 /\ i = mkI 45 0 0 0 0 1).
    { intros a i (L & t & E). change (len _) with 1 in L. assert (a = 0) by lia. subst a. split; [reflexivity|]. vm_compute in E. injection E as <- _. reflexivity. }
    intros h a b [i H N1 N2|i H J|i f x H J O F Y]; apply X in H as (-> & ->).
    + vm_compute. reflexivity.
    + exfalso. destruct J; discriminate.
    + discriminate.
  - refine (call_forever bare 0 (boot nop_script 0) (called nop_script) (a_func (lit "F") 0 T_VOID 0) _ eq_refl eq_refl eq_refl).
    intros n. apply (run_forever bare adding); [intros; apply exec_adding; assumption|]. constructor; [reflexivity|left; reflexivity|left; reflexivity].
Qed.
Print Assumptions C138_past_end_refuted.

(** A jump to itself: the machine has no limit of its own. *)
Definition endless_script : script := a_script [a_func (lit "F") 0 T_VOID 0] (assemble [AAddr op_B 0]).
Theorem C138_endless : exists sc f, script_ok sc /\ forall n, unsafe_call n bare f (boot sc 0) = VFuel.
Proof.
  exists endless_script, 0. split; [apply script_okb_ok; vm_compute; reflexivity|].
  refine (call_forever bare 0 (boot endless_script 0) (called endless_script) (a_func (lit "F") 0 T_VOID 0) _ eq_refl eq_refl eq_refl).
  intros n. apply (run_forever bare (fun s => v_pc s = 0 /\ rdata (v_text s) = assemble [AAddr op_B 0])); [|split; reflexivity].
  intros call s (P & T). destruct s as [sy nm ad [d p] hp sl sp ca fr tm ins pc fl gl gh]. cbn in P, T. subst. eexists. split; [reflexivity|]. split; reflexivity.
Qed.
Print Assumptions C138_endless.

(** Checked address by address. *)
Definition downb (code : bytes) (addrs : list (N * N)) (syms : list sym) (starts : list N) (rank : N -> nat) (a : N) : bool :=
  let down b := existsb (N.eqb b) starts && Nat.ltb (rank b) (rank a) in
  match instruction_at a (r_from code) with
  | Ret (i, _) =>
      ((i_op i =? op_RSR) || (i_op i =? op_B) || down (u32 (a + i_size i))) &&
      (negb ((i_op i =? op_B) || (i_op i =? op_BZ)) || down (i_addr i)) &&
      (negb (i_op i =? op_BL) ||
       match find_by_address addrs (i_addr i) with
       | Some f => match nth_N syms f with Some x => down (s_addr x) | None => true end
       | None => true
       end)
  | _ => true
  end && (a <? len code).
Lemma downb_ok h s starts rank : forallb (downb (rdata (v_text s)) (v_addrs s) (v_syms s) starts rank) starts = true ->
  cannot_loop h s (fun a => In a starts) rank.
Proof.
  intros H a A. rewrite forallb_forall in H. apply H in A. unfold downb in A. apply andb_true_iff in A as (Z & B). apply N.ltb_lt in B. split; [exact B|].
  assert (K : forall c, existsb (N.eqb c) starts && Nat.ltb (rank c) (rank a) = true -> In c starts /\ (rank c < rank a)%nat).
  { intros c E. apply andb_true_iff in E as (E1 & E2). apply existsb_exists in E1 as (d & E1 & E3). apply N.eqb_eq in E3. subst d. apply Nat.ltb_lt in E2. auto. }
  intros b L. destruct L as [i I N1 N2|i I J|i f x I J O F X]; destruct I as (_ & t & E); rewrite E in Z;
    apply andb_true_iff in Z as (Z & Z3); apply andb_true_iff in Z as (Z1 & Z2); apply K.
  - apply N.eqb_neq in N1. apply N.eqb_neq in N2. rewrite N1, N2 in Z1. exact Z1.
  - destruct J as [J|J]; rewrite J in Z2; exact Z2.
  - rewrite J, F, X in Z3. exact Z3.
Qed.
(** [func int MAIN() { if (X) { return ADD(20, 22); }; return 3; };] with the code of [ADD] of [demo_script]. *)
Definition branch_script : script := a_script
  [an_int (lit "X") 5; an_int (lit "Y") 5; a_func (lit "ADD") 2 T_INT 0; an_int (lit "ADD.A") 0; an_int (lit "ADD.B") 0; a_func (lit "MAIN") 0 T_INT 24]
  (assemble [PUSHV 4; MOVI; PUSHV 3; MOVI; PUSHV 4; PUSHV 3; ADD; RSR; PUSHV 0; BZ 50; AImm 20; AImm 22; BL 0; RSR; AImm 3; RSR]).
Definition starts : list N := [0; 5; 6; 11; 12; 17; 22; 23; 24; 29; 34; 39; 44; 49; 50; 55].
Definition down_rank (a : N) : nat := if a <? 24 then N.to_nat (24 - a) else N.to_nat (24 + 56 - a).
Example C138_example : script_ok branch_script /\ modest bare /\ cannot_loop bare (boot branch_script 0) (fun a => In a starts) down_rank /\
  nth_N (v_syms (boot branch_script 0)) 5 = Some (a_func (lit "MAIN") 0 T_INT 24) /\ In 24 starts /\
  match unsafe_call (S (down_rank 24)) bare 5 (boot branch_script 0) with VRet _ s => v_slots s 0 = Some (mkFrame None false (FInt 42) 0) | _ => False end.
Proof.
  split; [apply script_okb_ok; vm_compute; reflexivity|]. split; [repeat split; discriminate|].
  split; [apply downb_ok; vm_compute; reflexivity|]. split; [reflexivity|]. split; [vm_compute; tauto|vm_compute; reflexivity].
Qed.
