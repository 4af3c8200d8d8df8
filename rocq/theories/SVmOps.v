(** Specification vocabulary for single instructions, registration and error handling. *)

From Coq Require Import ZArith.
From Verif Require Import MBase MStream MDaedalus MVm SVm.
Local Open Scope N_scope.
Local Open Scope v_scope.

(** ** Operands *)
(** The value of a stack frame read as an integer: itself, or that of the symbol element it
    refers to. *)
Definition int_operand (s : vm) (f : frame) (v : Z) : Prop :=
  (f_ref f = false /\ f_val f = FInt v) \/
  (exists i x, f_ref f = true /\ f_val f = FSym i /\ nth_N (v_syms s) i = Some x /\
     (is_member x = true -> f_ctx f <> None) /\ rd_int i (f_idx f) (f_ctx f) s = VRet v s).
(** The [k]th value from the top (0 is the top). *)
Definition from_top (s : vm) (k : N) (f : frame) : Prop :=
  k < v_sp s /\ v_sp s <= stack_size /\ v_slots s (v_sp s - 1 - k) = Some f.

(** ** 32-bit arithmetic *)
Definition int32 (v : Z) : Prop := (- 2 ^ 31 <= v < 2 ^ 31)%Z.
Definition truth (b : bool) : Z := if b then 1%Z else 0%Z.
(** What the binary operators compute from the upper operand [a] and the one below it, [b]:
    nothing where the result is not a 32-bit integer, where the divisor is 0, where the shift
    distance is not between 0 and 31.  Shifts and the bit operations are those of two's
    complement numbers. *)
Definition fits (v : Z) : option Z := if ((- 2 ^ 31 <=? v) && (v <? 2 ^ 31))%Z then Some v else None.
Definition binary (op : N) (a b : Z) : option Z :=
  match op with
  | 0 => fits (a + b)
  | 1 => fits (a - b)
  | 2 => fits (a * b)
  | 3 => if (b =? 0)%Z then None else fits (Z.quot a b)
  | 4 => if (b =? 0)%Z || ((a =? - 2 ^ 31) && (b =? -1))%Z then None else Some (Z.rem a b)
  | 5 => Some (Z.lor a b)
  | 6 => Some (Z.land a b)
  | 7 => Some (truth (a <? b)%Z)
  | 8 => Some (truth (b <? a)%Z)
  | 11 => Some (truth (negb (a =? 0) || negb (b =? 0))%Z)
  | 12 => Some (truth (negb (a =? 0) && negb (b =? 0))%Z)
  | 13 => if ((0 <=? b) && (b <? 32))%Z then Some ((a * 2 ^ b + 2 ^ 31) mod 2 ^ 32 - 2 ^ 31)%Z else None
  | 14 => if ((0 <=? b) && (b <? 32))%Z then Some (a / 2 ^ b)%Z else None
  | 15 => Some (truth (a <=? b)%Z)
  | 16 => Some (truth (a =? b)%Z)
  | 17 => Some (truth (negb (a =? b)%Z))
  | 18 => Some (truth (b <=? a)%Z)
  | _ => None
  end.
Definition unary (op : N) (a : Z) : option Z :=
  match op with
  | 30 => Some a
  | 31 => fits (- a)
  | 32 => Some (truth (a =? 0)%Z)
  | 33 => Some (- a - 1)%Z
  | _ => None
  end.
Definition is_binary (op : N) : bool := (op <=? 8) || ((11 <=? op) && (op <=? 18)).

(** An instruction took [n] values and left [l] (top last), and changed nothing else but the
    program counter, which is that of the next instruction. *)
Definition replaces (s s' : vm) (n : N) (r : frame) (size : N) : Prop :=
  v_sp s' = v_sp s - n + 1 /\ v_slots s' (v_sp s - n) = Some r /\
  (forall k, k < v_sp s - n -> v_slots s' k = v_slots s k) /\
  v_pc s' = u32 (v_pc s + size) /\
  v_syms s' = v_syms s /\ v_heap s' = v_heap s /\ v_calls s' = v_calls s /\ v_free s' = v_free s /\ v_inst s' = v_inst s /\
  v_flags s' = v_flags s /\ v_text s' = v_text s /\ v_names s' = v_names s /\ v_addrs s' = v_addrs s /\ v_tmp s' = v_tmp s /\ v_glob s' = v_glob s.
Definition plain (v : Z) : frame := mkFrame None false (FInt v) 0.

(** ** Native signatures *)
(** The script's declaration of a function: the types of its parameters, its return type. *)
Definition declared_params (s : vm) (i : N) (x : sym) (ts : list N) : Prop :=
  len ts = s_count x /\ forall k t, nth_N ts k = Some t -> exists y, nth_N (v_syms s) (i + 1 + k) = Some y /\ s_type y = t.
Definition declared_return (x : sym) : option N := if has_return x then Some (s_rtype x) else None.
(** Which C++ types stand for which script types. *)
Definition param_matches (p : ptype) (t : N) : Prop :=
  match p with
  | PInst _ | PRaw _ | PSym => t = T_INSTANCE
  | PFloat => t = T_FLOAT
  | PStr => t = T_STRING
  | PInt | PBool | PFunc => t = T_INT \/ t = T_FUNCTION
  end.
Definition return_matches (r : rtype) (t : option N) : Prop :=
  match r, t with
  | RVoid, None => True
  | RInst, Some t => t = T_INSTANCE
  | RFloat, Some t => t = T_FLOAT
  | RInt, Some t => t = T_INT
  | RStr, Some t => t = T_STRING
  | _, _ => False
  end.
Definition signature_ok (s : vm) (i : N) (x : sym) (ps : list ptype) (r : rtype) : Prop :=
  return_matches r (declared_return x) /\ exists ts, declared_params s i x ts /\ Forall2 param_matches ps ts.
(** Arguments of calls. *)
Definition arg_matches (v : cval) (t : N) : Prop :=
  match v with
  | VInst _ => t = T_INSTANCE
  | VFloat _ => t = T_FLOAT
  | VInt _ | VBool _ => t = T_INT \/ t = T_FUNCTION
  | VStr _ => t = T_STRING
  | _ => False
  end.
(** All symbols have one of the eight types. *)
Definition types_known (s : vm) : Prop := forall i x, nth_N (v_syms s) i = Some x -> s_type x < 8 /\ s_rtype x < 8.

(** ** Members without an instance *)
(** The top of the stack refers to element [idx] of member [i], without an instance. *)
Definition loose (s : vm) (k : N) (i : N) (x : sym) (idx : N) : Prop :=
  from_top s k (mkFrame None true (FSym i) idx) /\ nth_N (v_syms s) i = Some x /\ is_member x = true /\ i <> v_tmp s.
(** Nothing but the stack, the pc and the ghost state differs. *)
Definition only_stack (s s' : vm) : Prop :=
  v_syms s' = v_syms s /\ v_heap s' = v_heap s /\ v_calls s' = v_calls s /\ v_free s' = v_free s /\ v_inst s' = v_inst s /\
  v_flags s' = v_flags s /\ v_text s' = v_text s /\ v_names s' = v_names s /\ v_addrs s' = v_addrs s /\ v_tmp s' = v_tmp s /\ v_glob s' = v_glob s.
(** The state is the same except for the ghost state. *)
Definition same_machine (s s' : vm) : Prop := set_ghost (v_ghost s) s' = s.
(** The instructions that store an integer. *)
Definition is_int_write (op : N) : bool := (op =? 9) || (op =? 72) || (op =? 19) || (op =? 20) || (op =? 21) || (op =? 22).

(** ** Binding members *)
(** The C++ types (0 a string, 1 a float, 2 a 32-bit integer or enum) a script type is bound to. *)
Definition binds (t : N) (c : N) : Prop :=
  match c with 0 => t = T_STRING | 1 => t = T_FLOAT | 2 => t = T_INT \/ t = T_FUNCTION | _ => False end.
