(** Specification vocabulary for assignments, pushes and access traps. *)

From Coq Require Import ZArith.
From Verif Require Import MBase MStream MDaedalus MVm SVm SVmOps SSym.
Local Open Scope N_scope.
Local Open Scope v_scope.

(** ** Operands *)
(** The frame refers to element [f_idx f] of variable [j], which is not the machine's table of
    temporary strings and, if it is a member, comes with an instance. *)
Definition refers (s : vm) (f : frame) (j : N) : Prop :=
  exists y, f_ref f = true /\ f_val f = FSym j /\ nth_N (v_syms s) j = Some y /\ (is_member y = true -> f_ctx f <> None).
(** The value of a stack frame read as a float: itself, the bits of an integer, or the value of
    the element it refers to. *)
Definition float_operand (s : vm) (f : frame) (v : N) : Prop :=
  (f_ref f = false /\ (f_val f = FFloat v \/ exists z, f_val f = FInt z /\ v = uint 32 z)) \/
  (exists j, refers s f j /\ rd_float j (f_idx f) (f_ctx f) s = VRet v s).
(** Strings are on the stack by reference only. *)
Definition string_operand (s : vm) (f : frame) (v : bytes) : Prop :=
  exists j, refers s f j /\ j <> v_tmp s /\ f_idx f < 256 /\ rd_string j (f_idx f) (f_ctx f) s = VRet v s.
Definition operand (s : vm) (f : frame) (v : value) : Prop :=
  match v with XInt z => int_operand s f z | XFlt b => float_operand s f b | XStr b => string_operand s f b end.
(** An instance on the stack, or an instance variable's. *)
Definition instance_operand (s : vm) (f : frame) (v : option N) : Prop :=
  (f_ref f = false /\ f_val f = FInst v) \/ (exists j, f_ref f = true /\ f_val f = FSym j /\ rd_inst j s = VRet v s).

(** ** Targets *)
(** The top of the stack names element [idx] of variable [i] of instance [c], which a script may
    write to. *)
Definition target (s : vm) (i idx : N) (c : option N) : Prop :=
  from_top s 0 (mkFrame c true (FSym i) idx) /\ i <> v_tmp s /\ idx < 256 /\
  exists x, nth_N (v_syms s) i = Some x /\ (is_member x = true -> c <> None) /\ (is_const x = true -> flag_on s IGNORE_CONST = true).
(** The instructions that assign a value of each kind: movi and movvf, movf, movs. *)
Definition assigns (op : N) (k : kind) : bool :=
  match k with KInt => (op =? 9) || (op =? 72) | KFlt => op =? 73 | KStr => op =? 70 end.

(** ** Effects *)
(** [n] values were taken from the stack and nothing else happened. *)
Definition took (s s' : vm) (n : N) : Prop :=
  only_stack s s' /\ v_sp s' = v_sp s - n /\ v_pc s' = v_pc s /\ forall k, k < v_sp s - n -> v_slots s' k = v_slots s k.
(** As [took], and temporary string [t] can be used again. *)
Definition took_temporary (s s' : vm) (n t : N) : Prop :=
  exists s0, took s s0 n /\ v_free s' = t :: v_free s0 /\ s' = set_free (v_free s') s0.
(** Where the instruction's work is done, execution goes on with the next one. *)
Definition then_next (size : N) (r : vres unit) : vres bool :=
  match r with
  | VRet _ s => VRet true (set_pc (u32 (v_pc s + size)) s)
  | VExc e s => VExc e s
  | VUndef k s => VUndef k s
  | VFuel => VFuel
  end.
(** A reference to element [k] of symbol [i], of the current instance. *)
Definition reference (s : vm) (i k : N) : frame := mkFrame (v_inst s) true (FSym i) k.
(** Symbol [i] exists, and asks for the access trap or not. *)
Definition trapped (s : vm) (i : N) (b : bool) : Prop := exists x, nth_N (v_syms s) i = Some x /\ has_trap x = b.
(** What is pushed, if the instruction pushes without asking the host. *)
Definition pushes_frame (h : host) (s : vm) (ins : instr) (f : frame) : Prop :=
  (i_op ins = 64 /\ f = plain (i_imm ins)) \/
  ((i_op ins = 65 \/ i_op ins = 67) /\ f = reference s (i_symb ins) 0 /\
     (trapped s (i_symb ins) false \/ (trapped s (i_symb ins) true /\ h_trap h = None))) \/
  (i_op ins = 245 /\ i_idx ins < 256 /\ f = reference s (i_symb ins) (i_idx ins) /\ exists b, trapped s (i_symb ins) b).
