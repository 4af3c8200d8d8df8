(** Specification vocabulary: states in order, calls and their results. *)

From Verif Require Import MBase MStream MDaedalus MVm SVm.
Local Open Scope N_scope.
Local Open Scope v_scope.

(** A state in order: the table is that of a compiled script, the stack pointer is within the
    stack, the slots below it and below every caller's frame have been written, frames are
    nested.  Every state a host can reach with a disciplined script is in order. *)
Definition sound (s : vm) : Prop :=
  (len (v_syms s) < 524288 /\
   (forall i x, nth_N (v_syms s) i = Some x -> i <> v_tmp s -> s_count x <= 4095) /\
   (forall i x, nth_N (v_syms s) i = Some x -> has_return x = true -> value_kind (s_rtype x)) /\
   (exists x, nth_N (v_syms s) (v_tmp s) = Some x /\ s_name x = s_name temp_symbol)) /\
  v_sp s <= stack_size /\ (forall i, i < v_sp s -> v_slots s i <> None) /\
  (forall c, In c (v_calls s) -> c_sp c <= stack_size /\ forall i, i < c_sp c -> v_slots s i <> None) /\
  floor s <= v_sp s /\ (forall c, In c (v_calls s) -> c_floor c <= c_sp c).

(** How many values a function returns; the one it returns, given the state its code ended in
    and where its frame begins: the topmost value it left, or else the default of its type. *)
Definition returns (x : sym) : N := if has_return x then 1 else 0.
Definition default_value (ty tmp : N) (fr : frame) : Prop :=
  if ty =? T_FLOAT then fr = mkFrame None false (FFloat 0) 0
  else if (ty =? T_INT) || (ty =? T_FUNCTION) then fr = mkFrame None false (FInt 0) 0
  else if ty =? T_INSTANCE then fr = mkFrame None false (FInst None) 0
  else f_ref fr = true /\ f_val fr = FSym tmp.
Definition result_value (x : sym) (base : N) (s : vm) (fr : frame) : Prop :=
  if base <? v_sp s then v_slots s (v_sp s - 1) = Some fr else default_value (s_rtype x) (v_tmp s) fr.

(** The caller's view of a finished call of [x] from [s] to [s']: the program counter is [pc],
    the frames and the current instance are those of the caller, the arguments are gone, one
    value is on top if the function returns one, everything below the arguments is as it was. *)
Definition back_in_caller (x : sym) (pc : N) (s s' : vm) : Prop :=
  s_count x <= v_sp s /\
  v_pc s' = pc /\ v_calls s' = v_calls s /\ v_inst s' = v_inst s /\
  v_sp s' = v_sp s - s_count x + returns x /\
  forall i, i < v_sp s - s_count x -> v_slots s' i = v_slots s i.
