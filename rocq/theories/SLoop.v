(** Specification vocabulary for scripts that cannot loop. *)

From Verif Require Import MBase MStream MDaedalus MVm.
Local Open Scope N_scope.

(** The place of execution, the calls in progress, the code and the addresses of functions are
    what they were. *)
Record undisturbed (s s' : vm) : Prop := mkUndisturbed {
  un_pc : v_pc s' = v_pc s;
  un_calls : v_calls s' = v_calls s;
  un_table : v_addrs s' = v_addrs s;
  un_code : rdata (v_text s') = rdata (v_text s);
  un_syms : forall i, option_map s_addr (nth_N (v_syms s') i) = option_map s_addr (nth_N (v_syms s) i) }.
(** Ends, and if it returns has not disturbed the machine. *)
Definition ends_quietly {A} (m : V A) : Prop := forall s,
  match m s with VRet _ s' => undisturbed s s' | VFuel => False | _ => True end.
(** The functions of the host end and do not move the place of execution; no exception handler. *)
Definition modest (h : host) : Prop :=
  (forall i cb, h_ext h i = Some cb -> ends_quietly cb) /\ (forall a cb, h_over h a = Some cb -> ends_quietly cb) /\
  (forall d i, h_default h = Some d -> ends_quietly (d i)) /\ (forall t i, h_trap h = Some t -> ends_quietly (t i)) /\
  h_handler h = None.

(** ** Control flow *)
(** The code has instruction [i] at address [a]. *)
Definition has_instruction (code : bytes) (a : N) (i : instr) : Prop :=
  a < len code /\ exists t', instruction_at a (r_from code) = Ret (i, t').
(** After the instruction at [a] comes, or may come, the one at [b]: the next one, the target of a
    jump, the beginning of a called function of the script. *)
Inductive leads (h : host) (s : vm) (a : N) : N -> Prop :=
| leads_next : forall i, has_instruction (rdata (v_text s)) a i -> i_op i <> op_RSR -> i_op i <> op_B -> leads h s a (u32 (a + i_size i))
| leads_jump : forall i, has_instruction (rdata (v_text s)) a i -> i_op i = op_B \/ i_op i = op_BZ -> leads h s a (i_addr i)
| leads_call : forall i f x, has_instruction (rdata (v_text s)) a i -> i_op i = op_BL -> h_over h (i_addr i) = None ->
    find_by_address (v_addrs s) (i_addr i) = Some f -> nth_N (v_syms s) f = Some x -> leads h s a (s_addr x).
(** From the addresses [within] the control flow leads only to such addresses, they are all in the
    code, and there is no way round: they can be numbered so that every step goes down. *)
Definition cannot_loop (h : host) (s : vm) (within : N -> Prop) (rank : N -> nat) : Prop :=
  forall a, within a -> a < len (rdata (v_text s)) /\ forall b, leads h s a b -> within b /\ (rank b < rank a)%nat.

(** Ends, and if it returns then as [R] says. *)
Definition fine {A} (R : vm -> Prop) (r : vres A) : Prop := match r with VRet _ s' => R s' | VFuel => False | _ => True end.
(** As [undisturbed], but execution may be elsewhere. *)
Definition elsewhere (s s' : vm) : Prop := undisturbed s (set_pc (v_pc s) s').
