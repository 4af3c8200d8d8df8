(** Model of src/DaedalusVm.cc and include/zenkit/DaedalusVm.hh: the script virtual machine.

    Host callbacks are arbitrary state transformers.  Logging is left out.  Stack depth of the
    host is unlimited.  An exception that leaves the outermost call is assumed to be caught by
    the host (otherwise the program ends). *)

From Verif Require Import MBase MStream MDaedalus.
Local Open Scope N_scope.

(* ------------------------------------------------------------------ *)
(** * States *)

(** DaedalusVm.hh:72-77 *)
Inductive fval := FInt (v : Z) | FFloat (v : N) | FSym (i : N) | FInst (i : option N).
Record frame := mkFrame { f_ctx : option N; f_ref : bool; f_val : fval; f_idx : N }.

(** DaedalusVm.hh:80-85; [c_floor] is ghost state, see [ghost]. *)
Record call := mkCall { c_fun : N; c_pc : N; c_sp : N; c_ctx : option N; c_floor : N }.

(** Ghost state: the program never looks at it.
    [g_floor]: the stack pointer of the running function without its arguments.
    [g_under]: a function took a value from below its own arguments.
    [g_wrap]: a function was called with fewer values on the stack than it has parameters, or a
    result was dropped from an empty stack.
    [g_stale]: a script error was ignored although it had left a call frame behind. *)
Record ghost := mkGhost { g_floor : N; g_under : bool; g_wrap : bool; g_stale : bool }.

(** DaedalusVm.hh:1000-1028; the call stack and the stack of free strings have their top
    first.  [v_slots i] is [None] while the slot was never written.  The five well-known symbols
    are self, other, victim, hero, item. *)
Record vm := mkVm {
  v_syms : list sym; v_names : list (bytes * N); v_addrs : list (N * N); v_text : rstate;
  v_heap : list inst; v_slots : N -> option frame; v_sp : N; v_calls : list call; v_free : list N;
  v_tmp : N; v_inst : option N; v_pc : N; v_flags : N; v_glob : list (option N); v_ghost : ghost }.

Definition set_syms (x : list sym) (s : vm) : vm :=
  mkVm x (v_names s) (v_addrs s) (v_text s) (v_heap s) (v_slots s) (v_sp s) (v_calls s) (v_free s)
       (v_tmp s) (v_inst s) (v_pc s) (v_flags s) (v_glob s) (v_ghost s).
Definition set_text (x : rstate) (s : vm) : vm :=
  mkVm (v_syms s) (v_names s) (v_addrs s) x (v_heap s) (v_slots s) (v_sp s) (v_calls s) (v_free s)
       (v_tmp s) (v_inst s) (v_pc s) (v_flags s) (v_glob s) (v_ghost s).
Definition set_heap (x : list inst) (s : vm) : vm :=
  mkVm (v_syms s) (v_names s) (v_addrs s) (v_text s) x (v_slots s) (v_sp s) (v_calls s) (v_free s)
       (v_tmp s) (v_inst s) (v_pc s) (v_flags s) (v_glob s) (v_ghost s).
Definition set_stack (x : N -> option frame) (p : N) (s : vm) : vm :=
  mkVm (v_syms s) (v_names s) (v_addrs s) (v_text s) (v_heap s) x p (v_calls s) (v_free s)
       (v_tmp s) (v_inst s) (v_pc s) (v_flags s) (v_glob s) (v_ghost s).
Definition set_calls (x : list call) (s : vm) : vm :=
  mkVm (v_syms s) (v_names s) (v_addrs s) (v_text s) (v_heap s) (v_slots s) (v_sp s) x (v_free s)
       (v_tmp s) (v_inst s) (v_pc s) (v_flags s) (v_glob s) (v_ghost s).
Definition set_free (x : list N) (s : vm) : vm :=
  mkVm (v_syms s) (v_names s) (v_addrs s) (v_text s) (v_heap s) (v_slots s) (v_sp s) (v_calls s) x
       (v_tmp s) (v_inst s) (v_pc s) (v_flags s) (v_glob s) (v_ghost s).
Definition set_inst (x : option N) (s : vm) : vm :=
  mkVm (v_syms s) (v_names s) (v_addrs s) (v_text s) (v_heap s) (v_slots s) (v_sp s) (v_calls s) (v_free s)
       (v_tmp s) x (v_pc s) (v_flags s) (v_glob s) (v_ghost s).
Definition set_pc (x : N) (s : vm) : vm :=
  mkVm (v_syms s) (v_names s) (v_addrs s) (v_text s) (v_heap s) (v_slots s) (v_sp s) (v_calls s) (v_free s)
       (v_tmp s) (v_inst s) x (v_flags s) (v_glob s) (v_ghost s).
Definition set_ghost (x : ghost) (s : vm) : vm :=
  mkVm (v_syms s) (v_names s) (v_addrs s) (v_text s) (v_heap s) (v_slots s) (v_sp s) (v_calls s) (v_free s)
       (v_tmp s) (v_inst s) (v_pc s) (v_flags s) (v_glob s) x.

Definition under (s : vm) : bool := g_under (v_ghost s).
Definition wrapped (s : vm) : bool := g_wrap (v_ghost s).
Definition stale (s : vm) : bool := g_stale (v_ghost s).
Definition floor (s : vm) : N := g_floor (v_ghost s).

(* ------------------------------------------------------------------ *)
(** * Computations *)

(** Kinds of undefined behaviour. *)
Inductive ub :=
| StackOob    (** access outside the stack array *)
| StackIndet  (** use of a stack slot that was never written *)
| CallEmpty   (** the call stack is empty *)
| NullPtr     (** null or dangling pointer *)
| ArithUB     (** signed overflow, invalid shift *)
| ValueUB     (** value storage of a symbol or instance: missing, indeterminate, out of bounds *)
| TableOob    (** access outside the symbol table or a table of names *)
| Terminated. (** an exception was thrown while another one was being handled by a destructor *)

(** An exception keeps the changes made before it was thrown. *)
Inductive vres (A : Type) : Type :=
| VRet (a : A) (s : vm)
| VExc (e : exn) (s : vm)
| VUndef (k : ub) (s : vm)
| VFuel.
Arguments VRet {A} a s.
Arguments VExc {A} e s.
Arguments VUndef {A} k s.
Arguments VFuel {A}.

Definition V (A : Type) := vm -> vres A.
Definition vret {A} (a : A) : V A := fun s => VRet a s.
Definition vbind {A B} (m : V A) (k : A -> V B) : V B := fun s =>
  match m s with
  | VRet a s' => k a s'
  | VExc e s' => VExc e s'
  | VUndef u s' => VUndef u s'
  | VFuel => VFuel
  end.
Definition vthrow {A} (e : exn) : V A := fun s => VExc e s.
Definition vundef {A} (k : ub) : V A := fun s => VUndef k s.
Definition vget : V vm := fun s => VRet s s.
Definition vmod (f : vm -> vm) : V unit := fun s => VRet tt (f s).
Definition vlift {A} (o : outcome A) : V A := fun s =>
  match o with Ret a => VRet a s | Throw e => VExc e s | Undef => VUndef ValueUB s | Fuel => VFuel end.

Declare Scope v_scope.
Delimit Scope v_scope with v.
Notation "'let!' x := m 'in' k" := (vbind m (fun x => k))
  (at level 200, x binder, m at level 100, k at level 200) : v_scope.
Notation "m ;! k" := (vbind m (fun _ => k))
  (at level 100, right associativity) : v_scope.
Local Open Scope v_scope.

Fixpoint viter {A} (f : A -> V unit) (l : list A) : V unit :=
  match l with
  | [] => vret tt
  | a :: l' => f a ;! viter f l'
  end.

(** Following a pointer to a symbol, to an instance. *)
Definition the_sym (i : N) : V sym := fun s =>
  match nth_N (v_syms s) i with Some x => VRet x s | None => VUndef NullPtr s end.
Definition the_ctx (c : option N) : V (option inst) := fun s =>
  match c with
  | None => VRet None s
  | Some i => match nth_N (v_heap s) i with Some x => VRet (Some x) s | None => VUndef NullPtr s end
  end.

(** DaedalusSymbol accessors on the tables of the machine, see MDaedalus. *)
Definition rd_int (i idx : N) (c : option N) : V Z :=
  let! x := the_sym i in let! n := the_ctx c in vlift (sym_get_int x idx n).
Definition rd_float (i idx : N) (c : option N) : V N :=
  let! x := the_sym i in let! n := the_ctx c in vlift (sym_get_float x idx n).
Definition rd_string (i idx : N) (c : option N) : V bytes :=
  let! x := the_sym i in let! n := the_ctx c in vlift (sym_get_string x idx n).
Definition rd_inst (i : N) : V (option N) := let! x := the_sym i in vlift (sym_get_inst x).
Definition put_sym (i : N) (x : sym) : V unit := vmod (fun s => set_syms (set_N (v_syms s) i x) s).
Definition put_ctx (c : option N) (n : option inst) : V unit :=
  match c, n with
  | Some i, Some x => vmod (fun s => set_heap (set_N (v_heap s) i x) s)
  | _, _ => vret tt
  end.
Definition wr_sym (i : N) (c : option N) (f : sym -> option inst -> outcome (sym * option inst)) : V unit :=
  let! x := the_sym i in let! n := the_ctx c in
  let! r := vlift (f x n) in
  put_sym i (fst r) ;! put_ctx c (snd r).
Definition wr_int (i : N) (v : Z) (idx : N) (c : option N) : V unit :=
  wr_sym i c (fun x n => sym_set_int x v idx n).
Definition wr_float (i : N) (v : N) (idx : N) (c : option N) : V unit :=
  wr_sym i c (fun x n => sym_set_float x v idx n).
Definition wr_string (i : N) (v : bytes) (idx : N) (c : option N) : V unit :=
  wr_sym i c (fun x n => sym_set_string x v idx n).
Definition wr_inst (i : N) (v : option N) : V unit :=
  let! x := the_sym i in let! x' := vlift (sym_set_inst x v) in put_sym i x'.

(* ------------------------------------------------------------------ *)
(** * The stack *)

(** DaedalusVm.hh:104 *)
Definition stack_size : N := 2048.
(** DaedalusVm.hh:87-90 *)
Definition ALLOW_NULL : N := 2.
Definition IGNORE_CONST : N := 4.
Definition flag_on (s : vm) (f : N) : bool := negb (N.land (v_flags s) f =? 0).

Definition upd {A} (f : N -> A) (i : N) (x : A) : N -> A := fun j => if j =? i then x else f j.

(** What [std::move] leaves behind. *)
Definition moved (f : frame) : frame :=
  mkFrame None (f_ref f) (match f_val f with FInst _ => FInst None | v => v end) (f_idx f).

(** Reading [_m_stack[i]]. *)
Definition slot (i : N) : V frame := fun s =>
  if stack_size <=? i then VUndef StackOob s
  else match v_slots s i with Some f => VRet f s | None => VUndef StackIndet s end.

(** DaedalusVm.cc:647-651 and its copies in the other pushes: the index is a [uint16_t]. *)
Definition push_frame (f : frame) : V unit := fun s =>
  if v_sp s =? stack_size then VExc VmException s
  else if stack_size <=? v_sp s then VUndef StackOob s
  else VRet tt (set_stack (upd (v_slots s) (v_sp s) (Some f)) (u16 (v_sp s + 1)) s).

(** Ghost: note a pop below the arguments of the running function. *)
Definition note_under (b : bool) (s : vm) : vm :=
  let g := v_ghost s in set_ghost (mkGhost (g_floor g) (g_under g || b) (g_wrap g) (g_stale g)) s.
Definition note_pop : V unit := vmod (fun s => note_under (v_sp s <=? floor s) s).

(** [std::move(_m_stack[--_m_stack_ptr])]; the stack pointer is not 0. *)
Definition pop_frame : V frame :=
  note_pop ;!
  let! s := vget in
  let! f := slot (v_sp s - 1) in
  vmod (fun s => set_stack (upd (v_slots s) (v_sp s - 1) (Some (moved f))) (v_sp s - 1) s) ;!
  vret f.

Definition is_empty : V bool := fun s => VRet (v_sp s =? 0) s.

(** DaedalusVm.cc:646-652 *)
Definition push_int (v : Z) : V unit := push_frame (mkFrame None false (FInt v) 0).
(** DaedalusVm.cc:671-677 *)
Definition push_float (v : N) : V unit := push_frame (mkFrame None false (FFloat v) 0).
(** DaedalusVm.cc:679-685 *)
Definition push_instance (v : option N) : V unit := push_frame (mkFrame None false (FInst v) 0).
(** DaedalusVm.cc:654-660; [index] is a [uint8_t] *)
Definition push_reference (i index : N) : V unit :=
  let! s := vget in push_frame (mkFrame (v_inst s) true (FSym i) (u8 index)).

(** DaedalusVm.cc:1148-1150 *)
Definition mark_free_string (i : N) : V unit := vmod (fun s => set_free (i :: v_free s) s).
(** DaedalusVm.cc:1152-1168 *)
Definition get_free_string : V N :=
  let! s := vget in
  (match v_free s with
   | [] =>
       let! t := the_sym (v_tmp s) in
       let prev := s_count t in
       let! t' := vlift (sym_grow t (u32 (prev * 2))) in
       put_sym (v_tmp s) t' ;!
       vmod (fun s => set_free (rev (map (fun k => prev + N.of_nat k) (seq 0 (N.to_nat (s_count t' - prev)))) ++ v_free s) s)
   | _ => vret tt
   end) ;!
  let! s := vget in
  match v_free s with
  | i :: r => vmod (set_free r) ;! vret i
  | [] => vundef ValueUB
  end.
(** DaedalusVm.cc:662-669: the index is converted to [uint16_t] and to [uint8_t]. *)
Definition push_string (v : bytes) : V unit :=
  let! i := get_free_string in
  let! s := vget in
  wr_string (v_tmp s) v (u16 i) None ;!
  push_reference (v_tmp s) i.

(** [std::get<DaedalusSymbol*>] *)
Definition as_sym (f : frame) : V N := match f_val f with FSym i => vret i | _ => vthrow OtherExn end.

(** DaedalusVm.cc:1061-1079 *)
Definition vm_get_int (c : option N) (i idx : N) : V Z :=
  let! x := the_sym i in
  let! s := vget in
  if is_member x && (match c with None => true | _ => false end) then
    if flag_on s ALLOW_NULL then vret 0%Z else vthrow NoContext
  else rd_int i idx c.
(** DaedalusVm.cc:1081-1099 *)
Definition vm_get_float (c : option N) (i idx : N) : V N :=
  let! x := the_sym i in
  let! s := vget in
  if is_member x && (match c with None => true | _ => false end) then
    if flag_on s ALLOW_NULL then vret 0 else vthrow NoContext
  else rd_float i idx c.

(** DaedalusVm.cc:1100-1146 [set_int], [set_float], [set_string] share this shape. *)
Definition guarded_write (c : option N) (i : N) (w : V unit) : V unit :=
  let! x := the_sym i in
  let! s := vget in
  if is_const x && negb (flag_on s IGNORE_CONST) then vthrow IllegalConstAccess
  else if negb (is_member x) || (match c with None => false | _ => true end) || negb (flag_on s ALLOW_NULL)
       then w else vret tt.
Definition vm_set_int (c : option N) (i idx : N) (v : Z) : V unit := guarded_write c i (wr_int i v idx c).
Definition vm_set_float (c : option N) (i idx : N) (v : N) : V unit := guarded_write c i (wr_float i v idx c).
Definition vm_set_string (c : option N) (i idx : N) (v : bytes) : V unit := guarded_write c i (wr_string i v idx c).

(** DaedalusVm.cc:687-703 *)
Definition pop_int : V Z :=
  let! e := is_empty in
  if e then vret 0%Z
  else
    let! f := pop_frame in
    if f_ref f then let! i := as_sym f in vm_get_int (f_ctx f) i (f_idx f)
    else match f_val f with FInt v => vret v | _ => vthrow VmException end.
(** DaedalusVm.cc:705-730; the bits of an integer are taken as those of a float. *)
Definition pop_float : V N :=
  let! e := is_empty in
  if e then vret 0
  else
    let! f := pop_frame in
    if f_ref f then let! i := as_sym f in vm_get_float (f_ctx f) i (f_idx f)
    else match f_val f with FFloat v => vret v | FInt v => vret (uint 32 v) | _ => vthrow VmException end.
(** DaedalusVm.cc:732-751 *)
Definition pop_reference : V (N * N * option N) :=
  let! e := is_empty in
  if e then vthrow VmException
  else
    let! f := pop_frame in
    if negb (f_ref f) then vthrow VmException
    else
      let! i := as_sym f in
      let! s := vget in
      (if i =? v_tmp s then mark_free_string (f_idx f) else vret tt) ;!
      vret (i, u8 (f_idx f), f_ctx f).
(** DaedalusVm.cc:753-759 *)
Definition top_is_reference : V bool :=
  let! s := vget in
  if v_sp s =? 0 then vthrow VmException else let! f := slot (v_sp s - 1) in vret (f_ref f).
(** DaedalusVm.cc:761-777 *)
Definition pop_instance : V (option N) :=
  let! e := is_empty in
  if e then vthrow VmException
  else
    let! f := pop_frame in
    if f_ref f then let! i := as_sym f in rd_inst i
    else match f_val f with FInst v => vret v | _ => vthrow VmException end.
(** DaedalusVm.cc:779-795 *)
Definition pop_string : V bytes :=
  let! r := pop_reference in
  let '(i, idx, c) := r in
  let! x := the_sym i in
  let! s := vget in
  if is_member x && (match c with None => true | _ => false end) then
    if flag_on s ALLOW_NULL then vret [] else vthrow NoContext
  else rd_string i idx c.

(** DaedalusVm.cc:797-803 *)
Definition jump (a : N) : V unit := fun s =>
  if text_size (v_text s) <=? a then VExc VmException s else VRet tt (set_pc a s).

(** DaedalusVm.cc:50-70 [StackGuard::fix] *)
Definition fix_stack (ty : N) : V unit :=
  if ty =? T_FLOAT then push_float 0
  else if (ty =? T_INT) || (ty =? T_FUNCTION) then push_int 0
  else if ty =? T_STRING then push_string []
  else if ty =? T_INSTANCE then push_instance None
  else vret tt.
(** DaedalusVm.cc:37-41: the destructor runs when the guarded code throws; another exception
    then ends the program. *)
Definition guarded (ty : N) (m : V unit) : V unit := fun s =>
  match m s with
  | VExc e s' =>
      match fix_stack ty s' with
      | VRet _ s'' => VExc e s''
      | VExc _ s'' => VUndef Terminated s''
      | VUndef k s'' => VUndef k s''
      | VFuel => VFuel
      end
  | r => r
  end.

(* ------------------------------------------------------------------ *)
(** * Calls *)

(** DaedalusVm.cc:504-510 *)
Definition recursions (s : vm) (f : N) : N := len (filter (fun c => c_fun c =? f) (v_calls s)).

(** DaedalusVm.cc:519-537: the number of stack frames the values of a symbol take. *)
Definition saved_size (x : sym) : N :=
  if (s_type x =? T_FLOAT) || (s_type x =? T_FUNCTION) || (s_type x =? T_INT) || (s_type x =? T_STRING)
  then s_count x
  else if s_type x =? T_INSTANCE then 1 else 0.

Definition upto (n : N) : list N := map N.of_nat (seq 0 (N.to_nat n)).

(** DaedalusVm.cc:560-583 *)
Definition save_local (i : N) : V unit :=
  let! x := the_sym i in
  if s_type x =? T_FLOAT then viter (fun k => let! v := rd_float i (u16 k) None in push_float v) (upto (s_count x))
  else if (s_type x =? T_FUNCTION) || (s_type x =? T_INT) then
    viter (fun k => let! v := rd_int i (u16 k) None in push_int v) (upto (s_count x))
  else if s_type x =? T_STRING then
    viter (fun k => let! v := rd_string i (u16 k) None in push_string v) (upto (s_count x))
  else if s_type x =? T_INSTANCE then let! v := rd_inst i in push_instance v
  else vret tt.
(** DaedalusVm.cc:603-640 *)
Definition restore_local (i : N) : V unit :=
  let! x := the_sym i in
  if s_type x =? T_FLOAT then viter (fun k => let! v := pop_float in wr_float i v (u16 k) None) (rev (upto (s_count x)))
  else if (s_type x =? T_FUNCTION) || (s_type x =? T_INT) then
    viter (fun k => let! v := pop_int in wr_int i v (u16 k) None) (rev (upto (s_count x)))
  else if s_type x =? T_STRING then
    viter (fun k => let! v := pop_string in wr_string i v (u16 k) None) (rev (upto (s_count x)))
  else if s_type x =? T_INSTANCE then let! v := pop_instance in wr_inst i v
  else vret tt.

(** DaedalusVm.cc:550-554: one argument moves from [a] to [b]; a move onto itself changes nothing. *)
Definition move_slot (a b : N) : V unit :=
  let! f := slot a in
  if stack_size <=? b then vundef StackOob
  else vmod (fun s => set_stack (upd (if a =? b then v_slots s else upd (v_slots s) a (Some (moved f))) b (Some f)) (v_sp s) s).

(** DaedalusVm.cc:503-586 *)
Definition push_local_variables (f : N) (x : sym) : V unit :=
  let! s := vget in
  if recursions s f =? 0 then vret tt
  else
    let n := s_count x in
    let locals := locals_of (v_syms s) f x in
    let size := u32 (fold_right N.add 0
                  (map (fun i => match nth_N (v_syms s) i with Some l => saved_size l | None => 0 end) locals)) in
    if stack_size <? u32 (v_sp s + size) then vthrow VmException
    else if v_sp s <? n then vthrow VmException
    else
      vmod (note_under (v_sp s - n <? floor s)) ;!
      vmod (set_stack (v_slots s) (v_sp s - n)) ;!
      viter (fun k => move_slot (v_sp s - n + k) (v_sp s - n + size + k)) (upto n) ;!
      viter save_local locals ;!
      vmod (fun s => set_stack (v_slots s) (u16 (v_sp s + n)) s).

(** DaedalusVm.cc:588-644 *)
Definition pop_local_variables (f : N) (x : sym) : V unit :=
  let! s := vget in
  if recursions s f <=? 1 then vret tt
  else
    let! ret :=
      (if has_return x then
         if v_sp s =? 0 then vmod (note_under true) ;! vundef StackOob else let! r := pop_frame in vret (Some r)
       else vret None) in
    viter restore_local (rev (locals_of (v_syms s) f x)) ;!
    match ret with
    | None => vret tt
    | Some r => fun s =>
        if stack_size <=? v_sp s then VUndef StackOob s
        else VRet tt (set_stack (upd (v_slots s) (v_sp s) (Some r)) (u16 (v_sp s + 1)) s)
    end.

(** DaedalusVm.cc:457-463; the ghost state is maintained here. *)
Definition push_call (f : N) : V unit :=
  let! x := the_sym f in
  (if has_locals x then push_local_variables f x else vret tt) ;!
  vmod (fun s =>
    let n := s_count x in
    let base := uint 32 (Z.of_N (v_sp s) - Z.of_N n) in
    let g := v_ghost s in
    set_ghost (mkGhost base (g_under g || (v_sp s <? floor s + n)) (g_wrap g || (v_sp s <? n)) (g_stale g))
      (set_calls (mkCall f (v_pc s) base (v_inst s) (floor s) :: v_calls s) s)).

(** Ghost: the caller's arguments are accessible again. *)
Definition lower_floor (c : call) (s : vm) : vm :=
  let g := v_ghost s in
  set_ghost (mkGhost (c_floor c) (g_under g || (v_sp s <? c_sp c)) (g_wrap g) (g_stale g)) s.

(** DaedalusVm.cc:468-493: the stack is reset for the caller. *)
Definition reset_stack (c : call) (x : sym) : V unit := fun s =>
  if negb (has_return x) then VRet tt (set_stack (v_slots s) (u16 (c_sp c)) s)
  else
    let remaining := uint 32 (Z.of_N (v_sp s) - Z.of_N (c_sp c)) in
    if remaining =? 0 then fix_stack (s_rtype x) s
    else if 1 <? remaining then
      if v_sp s =? 0 then VUndef StackOob s
      else
        (let! f := slot (v_sp s - 1) in
         fun s => if stack_size <=? u16 (c_sp c) then VUndef StackOob s
                  else VRet tt (set_stack (upd (v_slots s) (u16 (c_sp c)) (Some f)) (u16 (u16 (c_sp c) + 1)) s)) s
    else VRet tt s.
(** DaedalusVm.cc:465-501 *)
Definition pop_call : V unit := fun s =>
  match v_calls s with
  | [] => VUndef CallEmpty s
  | c :: r =>
      (let! x := the_sym (c_fun c) in
       vmod (fun s => lower_floor c s) ;!
       reset_stack c x ;!
       (if has_locals x then pop_local_variables (c_fun c) x else vret tt) ;!
       vmod (fun s => set_calls (tl (v_calls s)) (set_inst (c_ctx c) (set_pc (c_pc c) s)))) s
  end.

(* ------------------------------------------------------------------ *)
(** * Execution *)

(** DaedalusVm.hh:60-69 *)
Inductive strategy := Continue | Return | Fail.

(** DaedalusVm.hh:1003-1011: what the host has registered. *)
Record host := mkHost {
  h_ext : N -> option (V unit);          (** by symbol *)
  h_over : N -> option (V unit);         (** by address *)
  h_default : option (N -> V unit);
  h_trap : option (N -> V unit);
  h_handler : option (exn -> instr -> V strategy) }.

(** The exceptions derived from [DaedalusScriptError]. *)
Definition is_script_error (e : exn) : bool :=
  match e with
  | ScriptError | SymbolNotFound | VmException | MemberRegistration | IllegalTypeAccess
  | IllegalIndexAccess | IllegalConstAccess | IllegalContextType | IllegalInstanceAccess
  | NoContext | UnboundMember | IllegalExternal => true
  | _ => false
  end.

(** DaedalusVm.cc:130, DaedalusScript.cc:121-124 *)
Definition fetch : V instr := fun s =>
  match instruction_at (v_pc s) (v_text s) with
  | Ret (i, t) => VRet i (set_text t s)
  | Throw e => VExc e s
  | Undef => VUndef ValueUB s
  | Fuel => VFuel
  end.

(** 32-bit signed arithmetic: overflow is undefined. *)
Definition imin : Z := (-2147483648)%Z.
Definition imax : Z := 2147483647%Z.
Definition ranged (v : Z) : V Z := if ((imin <=? v) && (v <=? imax))%Z then vret v else vundef ArithUB.
Definition zb (b : bool) : Z := if b then 1%Z else 0%Z.

(** C++ operators on [int32_t]; division truncates; shifts as in C++20. *)
Definition c_add (a b : Z) : V Z := ranged (a + b).
Definition c_sub (a b : Z) : V Z := ranged (a - b).
Definition c_mul (a b : Z) : V Z := ranged (a * b).
Definition c_div (a b : Z) : V Z := if (b =? 0)%Z then vundef ArithUB else ranged (Z.quot a b).
Definition c_mod (a b : Z) : V Z :=
  if (b =? 0)%Z then vundef ArithUB
  else if ((imin <=? Z.quot a b) && (Z.quot a b <=? imax))%Z then vret (Z.rem a b) else vundef ArithUB.
Definition c_shl (a b : Z) : V Z :=
  if ((0 <=? b) && (b <? 32))%Z then vret (sint 32 (uint 32 (Z.shiftl a b))) else vundef ArithUB.
Definition c_shr (a b : Z) : V Z :=
  if ((0 <=? b) && (b <? 32))%Z then vret (Z.shiftr a b) else vundef ArithUB.

(** How an instruction ended: [break], [return true], [return false]. *)
Inductive next := Step | Jumped | Stop.

Definition binop (f : Z -> Z -> V Z) : V next :=
  let! a := pop_int in let! b := pop_int in let! r := f a b in push_int r ;! vret Step.
Definition unop (f : Z -> V Z) : V next :=
  let! a := pop_int in let! r := f a in push_int r ;! vret Step.
Definition pure2 (f : Z -> Z -> Z) : Z -> Z -> V Z := fun a b => vret (f a b).
Definition pure1 (f : Z -> Z) : Z -> V Z := fun a => vret (f a).

(** DaedalusVm.cc:148-166 *)
Definition checked_div (f : Z -> Z -> V Z) (a b : Z) : V Z := if (b =? 0)%Z then vthrow VmException else f a b.

(** DaedalusVm.cc:318-402 [ADDMOVI], [SUBMOVI], [MULMOVI], [DIVMOVI] *)
Definition opmov (div : bool) (f : Z -> Z -> V Z) : V next :=
  let! r := pop_reference in
  let '(i, idx, c) := r in
  let! v := pop_int in
  (if div && (v =? 0)%Z then vthrow VmException else vret tt) ;!
  guarded_write c i
    (let! o := rd_int i idx c in let! n := f o v in wr_int i n idx c) ;!
  vret Step.

(** DaedalusVm.cc:136-437: the instruction itself.  [call] is [unsafe_call]. *)
Definition instruct (h : host) (call : N -> V unit) (i : instr) : V next :=
  let op := i_op i in
  if op =? 0 then binop c_add
  else if op =? 1 then binop c_sub
  else if op =? 2 then binop c_mul
  else if op =? 3 then binop (checked_div c_div)
  else if op =? 4 then binop (checked_div c_mod)
  else if op =? 5 then binop (pure2 Z.lor)
  else if op =? 6 then binop (pure2 Z.land)
  else if op =? 7 then binop (pure2 (fun a b => zb (a <? b)%Z))
  else if op =? 8 then binop (pure2 (fun a b => zb (a >? b)%Z))
  else if op =? 13 then binop c_shl
  else if op =? 14 then binop c_shr
  else if op =? 15 then binop (pure2 (fun a b => zb (a <=? b)%Z))
  else if op =? 16 then binop (pure2 (fun a b => zb (a =? b)%Z))
  else if op =? 17 then binop (pure2 (fun a b => zb (negb (a =? b)%Z)))
  else if op =? 18 then binop (pure2 (fun a b => zb (a >=? b)%Z))
  else if op =? 30 then unop (pure1 (fun a => a))
  else if op =? 31 then unop (fun a => ranged (- a))
  else if op =? 32 then unop (pure1 (fun a => zb (a =? 0)%Z))
  else if op =? 33 then unop (pure1 Z.lnot)
  else if op =? 11 then binop (pure2 (fun a b => zb (negb (a =? 0)%Z || negb (b =? 0)%Z)))
  else if op =? 12 then binop (pure2 (fun a b => zb (negb (a =? 0)%Z && negb (b =? 0)%Z)))
  else if op =? op_NOP then vret Step
  else if op =? op_RSR then vret Stop
  else if op =? op_BL then
    let! s := vget in
    let sym := find_by_address (v_addrs s) (i_addr i) in
    match h_over h (i_addr i) with
    | Some cb =>
        match sym with
        | None => vundef NullPtr
        | Some f => let! x := the_sym f in guarded (s_rtype x) cb ;! vret Step
        end
    | None =>
        match sym with
        | None => vthrow VmException
        | Some f => call f ;! vret Step
        end
    end
  else if op =? op_BE then
    let! s := vget in
    match find_by_index (v_syms s) (i_symb i) with
    | None => vthrow VmException
    | Some x =>
        guarded (s_rtype x)
          (match h_ext h (i_symb i) with
           | Some cb => push_call (i_symb i) ;! cb ;! pop_call
           | None =>
               match h_default h with
               | Some d => d (i_symb i)
               | None => vthrow VmException
               end
           end) ;!
        vret Step
    end
  else if op =? op_PUSHI then push_int (i_imm i) ;! vret Step
  else if (op =? op_PUSHV) || (op =? op_PUSHVI) then
    let! s := vget in
    match find_by_index (v_syms s) (i_symb i) with
    | None => vthrow VmException
    | Some x =>
        (match has_trap x, h_trap h with
         | true, Some t => t (i_symb i)
         | _, _ => push_reference (i_symb i) 0
         end) ;!
        vret Step
    end
  else if (op =? op_MOVI) || (op =? 72) then
    let! r := pop_reference in
    let '(t, idx, c) := r in
    let! v := pop_int in
    vm_set_int c t idx v ;! vret Step
  else if op =? 73 then
    let! r := pop_reference in
    let '(t, idx, c) := r in
    let! v := pop_float in
    vm_set_float c t idx v ;! vret Step
  else if op =? 70 then
    let! r := pop_reference in
    let '(t, idx, c) := r in
    let! v := pop_string in
    vm_set_string c t idx v ;! vret Step
  else if op =? 71 then vthrow VmException
  else if op =? 19 then opmov false c_add
  else if op =? 20 then opmov false c_sub
  else if op =? 21 then opmov false c_mul
  else if op =? 22 then opmov true c_div
  else if op =? 74 then
    let! r := pop_reference in
    let! v := pop_instance in
    wr_inst (fst (fst r)) v ;! vret Step
  else if op =? op_B then jump (i_addr i) ;! vret Jumped
  else if op =? op_BZ then
    let! v := pop_int in
    if (v =? 0)%Z then jump (i_addr i) ;! vret Jumped else vret Step
  else if op =? op_GMOVI then
    let! s := vget in
    match find_by_index (v_syms s) (i_symb i) with
    | None => vthrow VmException
    | Some _ => let! n := rd_inst (i_symb i) in vmod (set_inst n) ;! vret Step
    end
  else if op =? op_PUSHVV then
    let! s := vget in
    match find_by_index (v_syms s) (i_symb i) with
    | None => vthrow VmException
    | Some _ => push_reference (i_symb i) (i_idx i) ;! vret Step
    end
  else vret Step.

(** DaedalusVm.cc:134-418 with the increment of the program counter: [true] to go on. *)
Definition step (h : host) (call : N -> V unit) (i : instr) : V bool :=
  let! n := instruct h call i in
  match n with
  | Step => vmod (fun s => set_pc (u32 (v_pc s + i_size i)) s) ;! vret true
  | Jumped => vret true
  | Stop => vret false
  end.

(** DaedalusVm.cc:854-960 [print_stack_trace]: what can go wrong while values are printed. *)
Definition trace_frame (f : frame) : V unit :=
  let! s := vget in
  if f_ref f then
    let! i := as_sym f in
    let! x := the_sym i in
    if s_type x =? T_FLOAT then rd_float i (f_idx f) (v_inst s) ;! vret tt
    else if s_type x =? T_INT then rd_int i (f_idx f) (v_inst s) ;! vret tt
    else if s_type x =? T_STRING then rd_string i (f_idx f) (v_inst s) ;! vret tt
    else if s_type x =? T_FUNCTION then
      let! v := rd_int i (f_idx f) (v_inst s) in the_sym (uint 32 v) ;! vret tt
    else if s_type x =? T_INSTANCE then
      let! n := rd_inst i in
      let! n := the_ctx n in
      match n with Some n => (match n_type n with Some _ => vret tt | None => vundef NullPtr end) | None => vret tt end
    else vret tt
  else
    match f_val f with
    | FInst c =>
        let! n := the_ctx c in
        match n with Some n => (match n_type n with Some _ => vret tt | None => vundef NullPtr end) | None => vret tt end
    | _ => vret tt
    end.
(** The name of the symbol an instance is bound to. *)
Definition trace_inst (c : option N) : V unit :=
  let! n := the_ctx c in
  match n with
  | Some n => if n_sym n =? none32 then vret tt else the_sym (n_sym n) ;! vret tt
  | None => vret tt
  end.
Definition trace_glob (g : option N) : V unit :=
  match g with None => vret tt | Some i => let! c := rd_inst i in trace_inst c end.
Definition print_stack_trace : V unit :=
  let! s := vget in
  viter (fun c => the_sym (c_fun c) ;! vret tt) (v_calls s) ;!
  viter (fun k => let! f := slot k in trace_frame f) (rev (upto (v_sp s))) ;!
  viter trace_glob (v_glob s) ;!
  trace_inst (v_inst s).

(** Ghost: the error left [len (v_calls s)] frames, the instruction began with [n]. *)
Definition note_stale (n : N) : V unit :=
  vmod (fun s => let g := v_ghost s in
                 set_ghost (mkGhost (g_floor g) (g_under g) (g_wrap g) (g_stale g || negb (len (v_calls s) =? n))) s).

(** DaedalusVm.cc:419-443: the [catch] block. *)
Definition handle (h : host) (i : instr) (n : N) (e : exn) : V bool :=
  let! s := vget in
  let prev := v_pc s in
  match h_handler h with
  | None => print_stack_trace ;! vthrow e
  | Some hd =>
      let! st := hd e i in
      match st with
      | Fail => print_stack_trace ;! vthrow e
      | Return => note_stale n ;! vret false
      | Continue =>
          note_stale n ;!
          vmod (fun s => if v_pc s =? prev then set_pc (u32 (v_pc s + i_size i)) s else s) ;!
          vret true
      end
  end.

(** DaedalusVm.cc:129-446 [exec] *)
Definition exec (h : host) (call : N -> V unit) : V bool :=
  let! i := fetch in
  fun s =>
    match step h call i s with
    | VExc e s' => if is_script_error e then handle h i (len (v_calls s)) e s' else VExc e s'
    | r => r
    end.

(** DaedalusVm.cc:106-116 [unsafe_call] *)
Definition call_with (run : V unit) (f : N) : V unit :=
  push_call f ;!
  let! x := the_sym f in
  jump (s_addr x) ;!
  run ;!
  pop_call.
Fixpoint run (fuel : nat) (h : host) : V unit :=
  match fuel with
  | O => fun _ => VFuel
  | S n =>
      let! go := exec h (call_with (run n h)) in
      if go then run n h else vret tt
  end.
Definition unsafe_call (fuel : nat) (h : host) (f : N) : V unit := call_with (run fuel h) f.

(** DaedalusVm.cc:78-87, the constructor. *)
Definition boot (sc : script) (flags : N) : vm :=
  let find n := find_by_name (sc_names sc) n in
  mkVm (sc_syms sc ++ [temp_symbol]) (sc_names sc) (sc_addrs sc) (sc_text sc) [] (fun _ => None) 0 [] [0]
       (len (sc_syms sc)) None 0 flags
       [find (lit "HERO"); find (lit "SELF"); find (lit "OTHER"); find (lit "VICTIM"); find (lit "ITEM")]
       (mkGhost 0 false false false).

(** DaedalusVm.cc:988-1058 [lenient_vm_exception_handler] *)
Definition lenient_handler (_ : exn) (i : instr) : V strategy :=
  (if (i_op i <=? 8) || ((11 <=? i_op i) && (i_op i <=? 18)) || ((30 <=? i_op i) && (i_op i <=? 33)) ||
      (i_op i =? op_PUSHI) || (i_op i =? op_PUSHV) || (i_op i =? op_PUSHVI) || (i_op i =? op_PUSHVV)
   then push_int 0 else vret tt) ;!
  vret Continue.

(* ------------------------------------------------------------------ *)
(** * Instances *)

Definition is_null {A} (o : option A) : bool := match o with None => true | _ => false end.

(** DaedalusVm.hh:305-307, DaedalusVm.cc:90-93: following parents up to a class. *)
Fixpoint class_of (fuel : nat) (l : list sym) (i : N) : outcome (option N) :=
  match fuel with
  | O => Fuel
  | S n =>
      match nth_N l i with
      | None => Ret None
      | Some x => if s_type x =? T_CLASS then Ret (Some i) else class_of n l (s_parent x)
      end
  end.
(** DaedalusVm.hh:288-319 [allocate_instance] for an instance of C++ type [t] *)
Definition allocate_instance (fuel : nat) (t : N) (n : N) (f : option N) : V unit :=
  match f with
  | None => vthrow VmException
  | Some i =>
      let! x := the_sym i in
      if negb (s_type x =? T_INSTANCE) then vthrow VmException
      else
        let! s := vget in
        match nth_N (v_syms s) (s_parent x) with
        | None => vthrow VmException
        | Some _ =>
            let! p := vlift (class_of fuel (v_syms s) (s_parent x)) in
            match p with
            | None => vundef NullPtr
            | Some p =>
                let! y := the_sym p in
                match s_reg y with
                | None => vundef NullPtr
                | Some r =>
                    if negb (r =? t) then vthrow VmException
                    else
                      let! o := the_ctx (Some n) in
                      match o with
                      | None => vundef NullPtr
                      | Some o =>
                          put_ctx (Some n) (Some (mkInst i (Some t) (n_size o) (n_mem o))) ;!
                          wr_inst i (Some n)
                      end
                end
            end
        end
  end.
(** DaedalusVm.hh:213-231 [init_instance] *)
Definition init_instance (fuel : nat) (h : host) (t : N) (n : N) (f : option N) : V unit :=
  allocate_instance fuel t n f ;!
  let! s := vget in
  let self := nth 1 (v_glob s) None in
  let! old := (match self with Some i => rd_inst i | None => vret None end) in
  vmod (set_inst (Some n)) ;!
  (match self with Some i => wr_inst i (Some n) | None => vret tt end) ;!
  (match f with Some i => unsafe_call fuel h i | None => vundef NullPtr end) ;!
  vmod (set_inst (v_inst s)) ;!
  match self with Some i => wr_inst i old | None => vret tt end.
(** DaedalusVm.cc:89-104 [init_opaque_instance] *)
Definition init_opaque_instance (fuel : nat) (h : host) (f : N) : V N :=
  let! s := vget in
  let! c := vlift (class_of fuel (v_syms s) f) in
  match c with
  | None => vthrow VmException
  | Some c =>
      let! o := vlift (new_opaque (v_syms s) c) in
      let n := len (v_heap s) in
      vmod (fun s => set_heap (v_heap s ++ [o]) s) ;!
      init_instance fuel h opaque_type n (Some f) ;!
      vret n
  end.

(* ------------------------------------------------------------------ *)
(** * Native functions *)

(** The C++ types a native function's parameters can have (DaedalusVm.hh:777-784). *)
Inductive ptype :=
| PInst (t : option N)  (** [shared_ptr<t>]; [None] for [DaedalusInstance] itself *)
| PRaw (t : option N)   (** [t*] *)
| PSym                  (** [DaedalusSymbol*] *)
| PFloat | PInt | PBool | PFunc | PStr.
(** The C++ types of its result. *)
Inductive rtype := RVoid | RInst | RFloat | RInt | RStr | RFunc.

Inductive cval := VInst (i : option N) | VSym (i : N) | VFloat (b : N) | VInt (z : Z) | VBool (b : bool)
| VFunc (i : option N) | VStr (s : bytes) | VVoid.

(** DaedalusVm.cc:969-985: both exceptions look up the name of a type. *)
Definition bad_external {A} (ty : N) : V A := if 8 <=? ty then vundef TableOob else vthrow IllegalExternal.

(** DaedalusVm.hh:421-440 *)
Definition check_return (x : sym) (r : rtype) : V unit :=
  match r with
  | RVoid => if has_return x then bad_external (s_rtype x) else vret tt
  | _ =>
      if negb (has_return x) then bad_external (s_rtype x)
      else
        match r with
        | RInst => if s_rtype x =? T_INSTANCE then vret tt else bad_external (s_rtype x)
        | RFloat => if s_rtype x =? T_FLOAT then vret tt else bad_external (s_rtype x)
        | RInt => if s_rtype x =? T_INT then vret tt else bad_external (s_rtype x)
        | RStr => if s_rtype x =? T_STRING then vret tt else bad_external (s_rtype x)
        | _ => vthrow VmException
        end
  end.
(** DaedalusVm.hh:746-769 [check_external_params] *)
Definition ptype_ok (p : ptype) (ty : N) : bool :=
  match p with
  | PInst _ | PRaw _ | PSym => ty =? T_INSTANCE
  | PFloat => ty =? T_FLOAT
  | PInt | PBool | PFunc => (ty =? T_INT) || (ty =? T_FUNCTION)
  | PStr => ty =? T_STRING
  end.
Fixpoint check_params (first : N) (ps : list ptype) : V unit :=
  match ps with
  | [] => vret tt
  | p :: ps' =>
      let! s := vget in
      match nth_N (v_syms s) first with
      | None => vundef TableOob
      | Some y => if ptype_ok p (s_type y) then check_params (first + 1) ps' else bad_external (s_type y)
      end
  end.

(** DaedalusVm.hh:785-846 [pop_value_for_external]; [n] bounds the chain of function variables. *)
Definition check_inst_type (t : option N) (c : option N) : V unit :=
  let! n := the_ctx c in
  match n, t with
  | Some n, Some t =>
      match n_type n with
      | None => vundef NullPtr
      | Some t' => if t =? t' then vret tt else vthrow VmException
      end
  | _, _ => vret tt
  end.
Fixpoint follow_func (n : nat) (id : N) : V (option N) :=
  match n with
  | O => fun _ => VFuel
  | S k =>
      let! s := vget in
      match nth_N (v_syms s) id with
      | None => vret None
      | Some x =>
          if (s_type x =? T_FUNCTION) && negb (is_const x) then
            let! v := rd_int id 0 None in follow_func k (uint 32 v)
          else vret (if s_type x =? T_FUNCTION then Some id else None)
      end
  end.
Definition pop_value (p : ptype) : V cval :=
  match p with
  | PInst t | PRaw t => let! c := pop_instance in check_inst_type t c ;! vret (VInst c)
  | PFloat => let! v := pop_float in vret (VFloat v)
  | PInt => let! v := pop_int in vret (VInt v)
  | PBool => let! v := pop_int in vret (VBool (negb (v =? 0)%Z))
  | PStr => let! v := pop_string in vret (VStr v)
  | PSym => let! r := pop_reference in vret (VSym (fst (fst r)))
  | PFunc =>
      let! v := pop_int in
      let! s := vget in
      let! f := follow_func (S (S (length (v_syms s)))) (uint 32 v) in vret (VFunc f)
  end.
(** DaedalusVm.hh:891-901 [pop_values_for_external]: the last parameter is popped first. *)
Fixpoint pop_values (ps : list ptype) : V (list cval) :=
  match ps with
  | [] => vret []
  | p :: ps' => let! vs := pop_values ps' in let! v := pop_value p in vret (v :: vs)
  end.
(** DaedalusVm.hh:857-880 [push_value_from_external] *)
Definition push_value (v : cval) : V unit :=
  match v with
  | VInst i => push_instance i
  | VFloat b => push_float b
  | VInt z => push_int z
  | VBool b => push_int (zb b)
  | VStr s => push_string s
  | VFunc (Some i) => push_int (sint 32 i)
  | VFunc None => vundef NullPtr
  | VSym _ | VVoid => vthrow VmException
  end.
(** DaedalusVm.hh:458-474: the function the machine calls. *)
Definition wrap_external (ps : list ptype) (r : rtype) (cb : list cval -> V cval) : V unit :=
  let! vs := pop_values ps in
  let! v := cb vs in
  match r with RVoid => vret tt | _ => push_value v end.

(** DaedalusVm.hh:415-475 [register_external] *)
Definition add_ext (h : host) (i : N) (f : V unit) : host :=
  mkHost (fun j => if j =? i then Some f else h_ext h j) (h_over h) (h_default h) (h_trap h) (h_handler h).
Definition add_over (h : host) (a : N) (f : V unit) : host :=
  mkHost (h_ext h) (fun b => if b =? a then Some f else h_over h b) (h_default h) (h_trap h) (h_handler h).
Definition check_native (i : N) (x : sym) (ps : list ptype) (r : rtype) : V unit :=
  check_return x r ;!
  if negb (s_count x =? len ps) then vthrow IllegalExternal
  else check_params (i + 1) ps.
Definition register_external (h : host) (name : bytes) (ps : list ptype) (r : rtype) (cb : list cval -> V cval)
  : V host :=
  let! s := vget in
  match find_by_name (v_names s) name with
  | None => vret h
  | Some i =>
      let! x := the_sym i in
      if negb (is_external x) then vthrow VmException
      else check_native i x ps r ;! vret (add_ext h i (wrap_external ps r cb))
  end.
(** DaedalusVm.hh:503-562 [override_function] *)
Definition override_function (h : host) (name : bytes) (ps : list ptype) (r : rtype) (cb : list cval -> V cval)
  : V host :=
  let! s := vget in
  match find_by_name (v_names s) name with
  | None => vthrow SymbolNotFound
  | Some i =>
      let! x := the_sym i in
      if is_external x then vthrow VmException
      else
        check_native i x ps r ;!
        vret (add_over h (s_addr x) (push_call i ;! wrap_external ps r cb ;! pop_call))
  end.
(** DaedalusVm.hh:572-578: the override that gets the machine. *)
Definition override_naked (h : host) (name : bytes) (cb : V unit) : V host :=
  let! s := vget in
  match find_by_name (v_names s) name with
  | None => vthrow SymbolNotFound
  | Some i =>
      let! x := the_sym i in
      if is_external x then vthrow VmException else vret (add_over h (s_addr x) cb)
  end.
(** DaedalusVm.cc:809-845 [register_default_external] *)
Definition default_external (cb : N -> V unit) (i : N) : V unit :=
  let! x := the_sym i in
  viter (fun k =>
    let! s := vget in
    match nth_N (v_syms s) (i + 1 + k) with
    | None => vundef TableOob
    | Some p =>
        if s_type p =? T_INT then pop_int ;! vret tt
        else if s_type p =? T_FLOAT then pop_float ;! vret tt
        else if (s_type p =? T_INSTANCE) || (s_type p =? T_STRING) then pop_reference ;! vret tt
        else vret tt
    end) (rev (upto (s_count x))) ;!
  (if has_return x then
     if s_rtype x =? T_FLOAT then push_float 0
     else if s_rtype x =? T_INT then push_int 0
     else if s_rtype x =? T_STRING then push_string []
     else if s_rtype x =? T_INSTANCE then push_instance None
     else vret tt
   else vret tt) ;!
  cb i.

(** Arguments of [call_function] (DaedalusVm.hh:936-961 [push_call_parameters]) and what it
    returns ([RIgnore] is the default [IgnoreReturnValue]). *)
Definition arg_ok (v : cval) (ty : N) : bool :=
  match v with
  | VInst _ => ty =? T_INSTANCE
  | VFloat _ => ty =? T_FLOAT
  | VInt _ | VBool _ => (ty =? T_INT) || (ty =? T_FUNCTION)
  | VStr _ => ty =? T_STRING
  | _ => false
  end.
Fixpoint push_params (first : N) (vs : list cval) : V unit :=
  match vs with
  | [] => vret tt
  | v :: vs' =>
      let! s := vget in
      match nth_N (v_syms s) first with
      | None => vundef TableOob
      | Some y => if arg_ok v (s_type y) then push_value v ;! push_params (first + 1) vs' else bad_external (s_type y)
      end
  end.
Inductive cret := KIgnore | KVoid | KInst (t : N) | KFloat | KInt | KStr.
(** DaedalusVm.hh:903-927 [check_call_return_type] *)
Definition check_call_return (x : sym) (r : cret) : V unit :=
  let ok := match r with
            | KIgnore => true
            | KVoid => s_rtype x =? T_VOID
            | KInst _ => s_rtype x =? T_INSTANCE
            | KFloat => s_rtype x =? T_FLOAT
            | KInt => (s_rtype x =? T_INT) || (s_rtype x =? T_FUNCTION)
            | KStr => s_rtype x =? T_STRING
            end in
  if ok then vret tt else vthrow VmException.
(** Ghost: a value is dropped from an empty stack or from below the running function. *)
Definition note_drop (s : vm) : vm :=
  let g := v_ghost s in
  set_ghost (mkGhost (g_floor g) (g_under g || (v_sp s <=? g_floor g)) (g_wrap g || (v_sp s =? 0)) (g_stale g)) s.
(** DaedalusVm.hh:964-991 [pop_call_return_value] and 152-160 *)
Definition take_result (x : sym) (r : cret) : V cval :=
  match r with
  | KIgnore =>
      (if has_return x then
         vmod note_drop ;! vmod (fun s => set_stack (v_slots s) (uint 16 (Z.of_N (v_sp s) - 1)) s)
       else vret tt) ;!
      vret VVoid
  | KVoid => vret VVoid
  | KInst t => let! c := pop_instance in check_inst_type (Some t) c ;! vret (VInst c)
  | KFloat => let! v := pop_float in vret (VFloat v)
  | KInt => let! v := pop_int in vret (VInt v)
  | KStr => let! v := pop_string in vret (VStr v)
  end.
(** DaedalusVm.hh:124-161 [call_function] *)
Definition call_function (fuel : nat) (h : host) (f : option N) (args : list cval) (r : cret) : V cval :=
  match f with
  | None => vthrow VmException
  | Some i =>
      let! x := the_sym i in
      if negb (s_type x =? T_FUNCTION) then vthrow VmException
      else if negb (s_count x =? len args) then vthrow VmException
      else
        check_call_return x r ;!
        push_params (i + 1) args ;!
        unsafe_call fuel h i ;!
        take_result x r
  end.
