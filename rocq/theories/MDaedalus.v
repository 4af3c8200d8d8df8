(** Model of src/DaedalusScript.cc and include/zenkit/DaedalusScript.hh: instructions,
    symbols, the symbol table, access to symbol values, opaque instances.

    Floats are their 32-bit patterns.  A pointer to a symbol is its index in the symbol
    table, a pointer to an instance is a number ([None] is the null pointer).  Transient
    instances, whose members are accessed through virtual functions of the host, are in
    MTransient: here no context is one. *)

From Verif Require Import MBase MStream MVfs.
Local Open Scope N_scope.
Local Open Scope m_scope.

(* ------------------------------------------------------------------ *)
(** * Instructions *)

(** DaedalusScript.hh:74-234, the opcodes used below by value. *)
Definition op_MOVI := 9. Definition op_BL := 61. Definition op_BE := 62. Definition op_PUSHI := 64.
Definition op_PUSHV := 65. Definition op_PUSHVI := 67. Definition op_B := 75. Definition op_BZ := 76.
Definition op_GMOVI := 80. Definition op_PUSHVV := 245. Definition op_RSR := 60. Definition op_NOP := 45.

(** DaedalusScript.hh:737-749 *)
Record instr := mkI { i_op : N; i_addr : N; i_symb : N; i_imm : Z; i_idx : N; i_size : N }.

(** DaedalusScript.cc:55-88 [DaedalusInstruction::decode] *)
Definition decode : rd instr :=
  let* op := read_ubyte in
  if (op =? op_BL) || (op =? op_BZ) || (op =? op_B) then
    let* a := read_uint in ret (mkI op a 0 0 0 5)
  else if op =? op_PUSHI then
    let* v := read_int in ret (mkI op 0 0 v 0 5)
  else if (op =? op_BE) || (op =? op_PUSHV) || (op =? op_PUSHVI) || (op =? op_GMOVI) then
    let* s := read_uint in ret (mkI op 0 s 0 0 5)
  else if op =? op_PUSHVV then
    let* s := read_uint in let* x := read_ubyte in ret (mkI op 0 s 0 x 6)
  else ret (mkI op 0 0 0 0 1).

(* ------------------------------------------------------------------ *)
(** * Symbols *)

(** DaedalusScript.hh:22-31 *)
Definition T_VOID := 0. Definition T_FLOAT := 1. Definition T_INT := 2. Definition T_STRING := 3.
Definition T_CLASS := 4. Definition T_FUNCTION := 5. Definition T_PROTOTYPE := 6. Definition T_INSTANCE := 7.

(** DaedalusScript.hh:55-62 *)
Definition F_CONST := 1. Definition F_RETURN := 2. Definition F_MEMBER := 4. Definition F_EXTERNAL := 8.
Definition F_TRAP := 64. Definition F_LOCALS := 128.

(** DaedalusScript.hh:709-713 [_m_value].  A cell of an array is [None] while it has never
    been written; the empty list stands for the null pointer of a default-constructed value. *)
Inductive sval :=
| SInts (l : list (option Z))
| SFloats (l : list (option N))
| SStrs (l : list bytes)
| SInst (i : option N).

(** DaedalusScript.hh:708-733.  Addresses and parents are kept as the unsigned numbers the
    accessors return; -1 is [none32].  [s_pos] holds the five source location fields. *)
Definition none32 : N := 4294967295.
Record sym := mkSym {
  s_name : bytes; s_val : sval; s_addr : N; s_parent : N; s_coff : Z; s_count : N; s_type : N;
  s_flags : N; s_gen : bool; s_pos : list N; s_moff : N; s_csize : N; s_rtype : N; s_reg : option N }.

Definition with_val (s : sym) (v : sval) : sym :=
  mkSym (s_name s) v (s_addr s) (s_parent s) (s_coff s) (s_count s) (s_type s) (s_flags s) (s_gen s)
        (s_pos s) (s_moff s) (s_csize s) (s_rtype s) (s_reg s).
Definition with_grown (s : sym) (v : sval) (c : N) : sym :=
  mkSym (s_name s) v (s_addr s) (s_parent s) (s_coff s) c (s_type s) (s_flags s) (s_gen s)
        (s_pos s) (s_moff s) (s_csize s) (s_rtype s) (s_reg s).
Definition with_member (s : sym) (off : N) (r : option N) : sym :=
  mkSym (s_name s) (s_val s) (s_addr s) (s_parent s) (s_coff s) (s_count s) (s_type s) (s_flags s) (s_gen s)
        (s_pos s) off (s_csize s) (s_rtype s) r.
Definition with_class (s : sym) (size : N) (r : option N) : sym :=
  mkSym (s_name s) (s_val s) (s_addr s) (s_parent s) (s_coff s) (s_count s) (s_type s) (s_flags s) (s_gen s)
        (s_pos s) (s_moff s) size (s_rtype s) r.
Definition with_flags (s : sym) (f : N) : sym :=
  mkSym (s_name s) (s_val s) (s_addr s) (s_parent s) (s_coff s) (s_count s) (s_type s) f (s_gen s)
        (s_pos s) (s_moff s) (s_csize s) (s_rtype s) (s_reg s).

(** DaedalusScript.hh:568-612 *)
Definition has_flag (s : sym) (f : N) : bool := negb (N.land (s_flags s) f =? 0).
Definition is_const (s : sym) : bool := has_flag s F_CONST.
Definition is_member (s : sym) : bool := has_flag s F_MEMBER.
Definition is_external (s : sym) : bool := has_flag s F_EXTERNAL.
Definition has_return (s : sym) : bool := has_flag s F_RETURN.
Definition has_trap (s : sym) : bool := has_flag s F_TRAP.
Definition has_locals (s : sym) : bool := has_flag s F_LOCALS.

(** DaedalusScript.cc:608-620 *)
Definition set_flag (s : sym) (f : N) (on : bool) : sym :=
  with_flags s (if on then N.lor (s_flags s) f else N.ldiff (s_flags s) f).

(** DaedalusScript.cc:289-306 [zk_internal_escape] *)
Fixpoint escape (s : bytes) : bytes :=
  match s with
  | [] => []
  | c :: r =>
      if beq c x5c then
        match r with
        | d :: r' => if beq d x6e then x0a :: escape r' else if beq d x74 then x09 :: escape r' else c :: escape r
        | [] => [c]
        end
      else c :: escape r
  end.

(** The cells of [new T[count]] after reading [b] into them. *)
Definition cells (count : N) (b : bytes) : list (option N) :=
  map (fun i => let o := 4 * N.of_nat i in
                if o + 4 <=? len b then Some (le_dec (take 4 (drop o b))) else None)
      (seq 0 (N.to_nat count)).

(** DaedalusScript.cc:390-401: at most four more attempts, one byte further each. *)
Fixpoint find_parent (tries : nat) : rd (option N) :=
  match tries with
  | O => ret None
  | S t =>
      rd_seek (-3) CUR ;;
      let* p := read_uint in
      if p =? none32 then ret (Some p) else find_parent t
  end.

(** DaedalusScript.cc:308-410 [DaedalusSymbol::load] *)
Definition load_symbol : rd sym :=
  let* named := read_uint in
  let* nm := if named =? 0 then ret ([], false)
             else (let* n := read_line false in
                   match n with
                   | c :: r => if beq c xff then ret (x24 :: r, true) else ret (n, false)
                   | [] => ret (n, false)
                   end) in
  let* vary := read_uint in
  let* props := read_uint in
  let count := N.land props 4095 in
  let ty := N.land (N.shiftr props 12) 15 in
  let flags := N.land (N.shiftr props 16) 63 in
  let member := negb (N.land flags F_MEMBER =? 0) in
  let constant := negb (N.land flags F_CONST =? 0) in
  let moff := if member then vary else none32 in
  let csize := if negb member && (ty =? T_CLASS) then vary else none32 in
  let rtype := if negb member && (ty =? T_FUNCTION) then vary else T_VOID in
  let* fi := read_uint in
  let* ls := read_uint in
  let* lc := read_uint in
  let* cs := read_uint in
  let* cc := read_uint in
  let pos := [N.land fi 524287; N.land ls 524287; N.land lc 524287; N.land cs 16777215; N.land cc 16777215] in
  let* body :=
    (if member then ret (SInts [], none32, (-1)%Z)
     else if ty =? T_FLOAT then
       let* b := rd_read (count * 4) in ret (SFloats (cells count b), none32, (-1)%Z)
     else if ty =? T_INT then
       let* b := rd_read (count * 4) in
       ret (SInts (map (option_map (sint 32)) (cells count b)), none32, (-1)%Z)
     else if ty =? T_STRING then
       let* l := repM (N.to_nat count) (read_line false) in ret (SStrs (map escape l), none32, (-1)%Z)
     else if ty =? T_CLASS then let* o := read_int in ret (SInts [], none32, o)
     else if ty =? T_INSTANCE then let* a := read_uint in ret (SInst None, a, (-1)%Z)
     else if ty =? T_FUNCTION then
       let* a := read_uint in ret (SInts (if constant then [] else [None]), a, (-1)%Z)
     else if ty =? T_PROTOTYPE then let* a := read_uint in ret (SInts [], a, (-1)%Z)
     else ret (SInts [], none32, (-1)%Z)) in
  let '(val, addr, coff) := body in
  let* parent := read_uint in
  let* parent :=
    if (ty =? T_STRING) && negb member && constant && isspace (n2b parent) then
      let* here := rd_tell in
      let* p := find_parent 4 in
      match p with
      | Some p => ret p
      | None => rd_seek (sint 64 here) BEG ;; read_uint
      end
    else ret parent in
  ret (mkSym (fst nm) val addr parent coff count ty flags (snd nm) pos moff csize rtype None).

(* ------------------------------------------------------------------ *)
(** * The script *)

(** DaedalusScript.hh:948-953.  The two hash maps are association lists, latest entry first. *)
Record script := mkScript {
  sc_syms : list sym; sc_names : list (bytes * N); sc_addrs : list (N * N); sc_text : rstate }.

(** DaedalusScript.cc:104-106 *)
Definition has_address (s : sym) : bool :=
  (s_type s =? T_PROTOTYPE) || (s_type s =? T_INSTANCE) ||
  ((s_type s =? T_FUNCTION) && is_const s && negb (is_member s)).

(** DaedalusScript.cc:98-109, starting at index [i]. *)
Fixpoint load_symbols (n : nat) (i : N) (names : list (bytes * N)) (addrs : list (N * N))
  : rd (list sym * list (bytes * N) * list (N * N)) :=
  match n with
  | O => ret ([], names, addrs)
  | S n' =>
      let* s := load_symbol in
      let* r := load_symbols n' (i + 1) ((s_name s, i) :: names)
                  (if has_address s then (s_addr s, i) :: addrs else addrs) in
      let '(l, nm, ad) := r in ret (s :: l, nm, ad)
  end.

(** DaedalusScript.cc:90-119 [DaedalusScript::load] into an empty script; memory is unlimited. *)
Definition load_script : rd script :=
  let* _ := read_ubyte in
  let* count := read_uint in
  rd_seek (Z.of_N (count * 4)) CUR ;;
  let* r := load_symbols (N.to_nat count) 0 [] [] in
  let '(l, nm, ad) := r in
  let* size := read_uint in
  let* code := rd_read size in
  ret (mkScript l nm ad (r_from (code ++ zeros (size - len code)))).

(** DaedalusScript.cc:121-124 [instruction_at]; the position of the text stream is kept. *)
Definition instruction_at (address : N) : rd instr := rd_seek (Z.of_N address) BEG ;; decode.

(** DaedalusScript.cc:281-287 [size] *)
Definition text_size (t : rstate) : N := u32 (len (rdata t)).

(** [toupper] in the "C" locale. *)
Definition upc (c : byte) : byte := if (97 <=? b2n c) && (b2n c <=? 122) then n2b (b2n c - 32) else c.
Definition upper (s : bytes) : bytes := map upc s.

(** DaedalusScript.cc:126-131, 152-157 *)
Definition find_by_index (l : list sym) (i : N) : option sym := nth_N l i.
(** DaedalusScript.cc:133-142, 159-168: the index; the map is searched for the upper-cased name. *)
Definition find_by_name (names : list (bytes * N)) (n : bytes) : option N :=
  match find (fun p => bytes_eqb (fst p) (upper n)) names with Some p => Some (snd p) | None => None end.
(** DaedalusScript.cc:144-150, 170-176 *)
Definition find_by_address (addrs : list (N * N)) (a : N) : option N :=
  match find (fun p => fst p =? a) addrs with Some p => Some (snd p) | None => None end.

(** DaedalusScript.cc:195-198, 213-216 [find_parameters_for_function]: [count] symbols behind
    the function; elements outside the table are undefined. *)
Definition params_of (l : list sym) (f : N) (s : sym) : list (option sym) :=
  map (fun k => nth_N l (f + 1 + N.of_nat k)) (seq 0 (N.to_nat (s_count s))).

(** [std::string::find(x) == 0] *)
Fixpoint is_prefix (p s : bytes) : bool :=
  match p, s with
  | [], _ => true
  | a :: p', b :: s' => beq a b && is_prefix p' s'
  | _, [] => false
  end.
(** DaedalusScript.cc:203-205 *)
Definition is_local_name (fn name : bytes) : bool :=
  is_prefix fn name && (len fn <=? len name) && beq (hd x00 (drop (len fn) name)) x2e.
(** DaedalusScript.cc:200-211 [find_locals_for_function]: the indices of the symbols; nothing
    if the table ends before another symbol was met. *)
Fixpoint locals_from (fn : bytes) (l : list sym) : option nat :=
  match l with
  | [] => None
  | s :: l' => if is_local_name fn (s_name s) then option_map S (locals_from fn l') else Some O
  end.
Definition locals_of (l : list sym) (f : N) (s : sym) : list N :=
  let first := u32 (f + 1 + s_count s) in
  match locals_from (s_name s) (drop first l) with
  | None => []
  | Some n => map (fun k => first + N.of_nat k) (seq 0 n)
  end.

(** DaedalusScript.cc:178-193 [enumerate_instances_by_class_name]: the symbols the callback is
    called with. *)
Fixpoint enum_instances (cls : N) (protos : list N) (i : N) (l : list sym) : list N :=
  match l with
  | [] => []
  | s :: l' =>
      if (s_type s =? T_PROTOTYPE) && (s_parent s =? cls) then enum_instances cls (protos ++ [i]) (i + 1) l'
      else if (s_type s =? T_INSTANCE) && is_const s &&
              (existsb (N.eqb (s_parent s)) protos || (s_parent s =? cls))
      then i :: enum_instances cls protos (i + 1) l'
      else enum_instances cls protos (i + 1) l'
  end.
Definition enumerate_instances (sc : script) (name : bytes) : list N :=
  match find_by_name (sc_names sc) name with
  | None => []
  | Some cls => enum_instances cls [] 0 (sc_syms sc)
  end.

(* ------------------------------------------------------------------ *)
(** * Instances *)

(** A member of an instance in memory: a 32-bit word or a [std::string] (32 bytes, aligned to
    8, as in libstdc++ on 64-bit machines). *)
Inductive cell := CWord (w : N) | CStr (s : bytes).
Definition str_size : N := 32.
Definition str_align : N := 8.

(** DaedalusScript.hh:238-306: symbol index, C++ type (a number), storage. *)
Record inst := mkInst { n_sym : N; n_type : option N; n_size : N; n_mem : N -> option cell }.

Definition is_str (c : option cell) : bool := match c with Some (CStr _) => true | _ => false end.
(** Writing a word over part of a string object is undefined; over other words it replaces
    their bytes, and those words are not looked at again in this model. *)
Definition str_near (m : N -> option cell) (o : N) : bool :=
  existsb (fun k => is_str (m (o + N.of_nat k))) [0; 1; 2; 3]%nat ||
  existsb (fun k => (N.of_nat k <=? o) && is_str (m (o - N.of_nat k))) (seq 1 31).
Definition put_word (m : N -> option cell) (o : N) (w : N) : N -> option cell := fun p =>
  if p =? o then Some (CWord w)
  else if (o <? p + 4) && (p <? o + 4) then None
  else m p.
Definition put_str (m : N -> option cell) (o : N) (s : bytes) : N -> option cell := fun p =>
  if p =? o then Some (CStr s) else m p.

Definition mem_word (n : inst) (o : N) : outcome N :=
  match n_mem n o with
  | Some (CWord w) => if o + 4 <=? n_size n then Ret w else Undef
  | _ => Undef
  end.
Definition mem_str (n : inst) (o : N) : outcome bytes :=
  match n_mem n o with
  | Some (CStr s) => if o + str_size <=? n_size n then Ret s else Undef
  | _ => Undef
  end.
Definition mem_set_word (n : inst) (o : N) (w : N) : outcome inst :=
  if (n_size n <? o + 4) || str_near (n_mem n) o then Undef
  else Ret (mkInst (n_sym n) (n_type n) (n_size n) (put_word (n_mem n) o w)).
Definition mem_set_str (n : inst) (o : N) (s : bytes) : outcome inst :=
  match n_mem n o with
  | Some (CStr _) =>
      if o + str_size <=? n_size n then Ret (mkInst (n_sym n) (n_type n) (n_size n) (put_str (n_mem n) o s))
      else Undef
  | _ => Undef
  end.

(** DaedalusScript.cc:218-227 [find_class_members]: the indices. *)
Fixpoint members_from (cls : N) (i : N) (l : list sym) : list N :=
  match l with
  | [] => []
  | s :: l' =>
      if is_member s && (s_parent s =? cls) then i :: members_from cls (i + 1) l'
      else members_from cls (i + 1) l'
  end.
Definition class_members (l : list sym) (cls : N) : list N := members_from cls 0 l.

(** The C++ type of opaque instances. *)
Definition opaque_type : N := 0.

(** DaedalusScript.cc:236-262: the offset of a member that follows [size] bytes, and the
    size with it. *)
Definition place (size : N) (ty count : N) : option N * N :=
  if ty =? T_STRING then
    let rem := size mod str_align in
    let size := u32 (size + (if rem =? 0 then 0 else str_align - rem)) in
    (Some size, u32 (size + str_size * count))
  else if ty <? 8 then (Some size, u32 (size + 4 * count))
  else (None, size).

(** Replace an element of a list. *)
Fixpoint set_nth {A} (l : list A) (n : nat) (x : A) : list A :=
  match l, n with
  | [], _ => []
  | _ :: l', O => x :: l'
  | a :: l', S n' => a :: set_nth l' n' x
  end.
Definition set_N {A} (l : list A) (n : N) (x : A) : list A := if n <? len l then set_nth l (N.to_nat n) x else l.

(** DaedalusScript.cc:229-267 [register_as_opaque] *)
Fixpoint place_members (l : list sym) (ms : list N) (size : N) : list sym * N :=
  match ms with
  | [] => (l, size)
  | m :: ms' =>
      match nth_N l m with
      | None => (l, size)
      | Some s =>
          let (o, size') := place size (s_type s) (s_count s) in
          place_members (set_N l m (with_member s (match o with Some o => o | None => s_moff s end) (Some opaque_type)))
                        ms' size'
      end
  end.
Definition register_as_opaque (l : list sym) (cls : N) : list sym :=
  let (l', size) := place_members l (class_members l cls) 0 in
  match nth_N l' cls with
  | Some s => set_N l' cls (with_class s size (Some opaque_type))
  | None => l'
  end.

(** DaedalusScript.cc:622-663 [DaedalusOpaqueInstance]: storage with every element of every
    member constructed; an element outside the storage is undefined. *)
Definition align_up (o a : N) : N := if o mod a =? 0 then o else o + (a - o mod a).
Definition cell_size (ty : N) : N := if ty =? T_STRING then str_size else 4.
Definition construct (n : inst) (o : N) (ty : N) : outcome inst :=
  let o := align_up o (if ty =? T_STRING then str_align else 4) in
  if n_size n <? o + cell_size ty then Undef
  else if ty =? T_STRING then Ret (mkInst (n_sym n) (n_type n) (n_size n) (put_str (n_mem n) o []))
  else mem_set_word n o 0.
Fixpoint construct_n (k : nat) (n : inst) (o : N) (ty : N) : outcome inst :=
  match k with
  | O => Ret n
  | S k' => obind (construct n o ty) (fun n' => construct_n k' n' (u32 (o + cell_size ty)) ty)
  end.
Fixpoint construct_all (l : list sym) (ms : list N) (n : inst) : outcome inst :=
  match ms with
  | [] => Ret n
  | m :: ms' =>
      match nth_N l m with
      | None => Undef
      | Some s =>
          obind (if s_type s <? 8 then construct_n (N.to_nat (s_count s)) n (s_moff s) (s_type s) else Ret n)
                (construct_all l ms')
      end
  end.
Definition new_opaque (l : list sym) (cls : N) : outcome inst :=
  match nth_N l cls with
  | None => Undef
  | Some s => construct_all l (class_members l cls) (mkInst none32 None (s_csize s) (fun _ => None))
  end.

(* ------------------------------------------------------------------ *)
(** * Symbol values *)

(** DaedalusScript.hh:687-704 [get_member_ptr]: the offset in the context's storage.  The
    caller has checked that there is a context. *)
Definition member_at (s : sym) (index size : N) (c : inst) : outcome N :=
  match s_reg s with
  | None => Throw UnboundMember
  | Some r =>
      match n_type c with
      | None => Undef
      | Some t => if r =? t then Ret (u32 (s_moff s + index * size)) else Throw IllegalContextType
      end
  end.

(** DaedalusScript.cc:460-482 [get_int]; [index] is a [uint16_t]. *)
Definition sym_get_int (s : sym) (index : N) (ctx : option inst) : outcome Z :=
  if negb ((s_type s =? T_INT) || (s_type s =? T_FUNCTION)) then Throw IllegalTypeAccess
  else if s_count s <=? index then Throw IllegalIndexAccess
  else if is_member s then
    match ctx with
    | None => Throw NoContext
    | Some c => obind (member_at s index 4 c) (fun o => obind (mem_word c o) (fun w => Ret (sint 32 w)))
    end
  else
    match s_val s with
    | SInts l => match nth_N l index with Some (Some v) => Ret v | _ => Undef end
    | _ => Throw OtherExn
    end.
(** DaedalusScript.cc:436-458 [get_float]: the member index is converted to [uint8_t]. *)
Definition sym_get_float (s : sym) (index : N) (ctx : option inst) : outcome N :=
  if negb (s_type s =? T_FLOAT) then Throw IllegalTypeAccess
  else if s_count s <=? index then Throw IllegalIndexAccess
  else if is_member s then
    match ctx with
    | None => Throw NoContext
    | Some c => obind (member_at s (u8 index) 4 c) (mem_word c)
    end
  else
    match s_val s with
    | SFloats l => match nth_N l index with Some (Some v) => Ret v | _ => Undef end
    | _ => Throw OtherExn
    end.
(** DaedalusScript.cc:412-434 [get_string] *)
Definition sym_get_string (s : sym) (index : N) (ctx : option inst) : outcome bytes :=
  if negb (s_type s =? T_STRING) then Throw IllegalTypeAccess
  else if s_count s <=? index then Throw IllegalIndexAccess
  else if is_member s then
    match ctx with
    | None => Throw NoContext
    | Some c => obind (member_at s index str_size c) (mem_str c)
    end
  else
    match s_val s with
    | SStrs l => match nth_N l index with Some v => Ret v | None => Undef end
    | _ => Throw OtherExn
    end.

(** What a setter changes: the symbol or the context instance. *)
Definition upd_cell {A} (l : list A) (i : N) (x : A) (k : list A -> sval) (s : sym) (ctx : option inst)
  : outcome (sym * option inst) :=
  if i <? len l then Ret (with_val s (k (set_N l i x)), ctx) else Undef.

(** DaedalusScript.cc:534-557 [set_int] *)
Definition sym_set_int (s : sym) (v : Z) (index : N) (ctx : option inst) : outcome (sym * option inst) :=
  if negb ((s_type s =? T_INT) || (s_type s =? T_FUNCTION)) then Throw IllegalTypeAccess
  else if s_count s <=? index then Throw IllegalIndexAccess
  else if is_member s then
    match ctx with
    | None => Throw NoContext
    | Some c =>
        obind (member_at s index 4 c) (fun o =>
        obind (mem_set_word c o (uint 32 v)) (fun c' => Ret (s, Some c')))
    end
  else
    match s_val s with
    | SInts l => upd_cell l index (Some v) SInts s ctx
    | _ => Throw OtherExn
    end.
(** DaedalusScript.cc:509-532 [set_float] *)
Definition sym_set_float (s : sym) (v : N) (index : N) (ctx : option inst) : outcome (sym * option inst) :=
  if negb (s_type s =? T_FLOAT) then Throw IllegalTypeAccess
  else if s_count s <=? index then Throw IllegalIndexAccess
  else if is_member s then
    match ctx with
    | None => Throw NoContext
    | Some c =>
        obind (member_at s index 4 c) (fun o =>
        obind (mem_set_word c o v) (fun c' => Ret (s, Some c')))
    end
  else
    match s_val s with
    | SFloats l => upd_cell l index (Some v) SFloats s ctx
    | _ => Throw OtherExn
    end.
(** DaedalusScript.cc:484-507 [set_string] *)
Definition sym_set_string (s : sym) (v : bytes) (index : N) (ctx : option inst) : outcome (sym * option inst) :=
  if negb (s_type s =? T_STRING) then Throw IllegalTypeAccess
  else if s_count s <=? index then Throw IllegalIndexAccess
  else if is_member s then
    match ctx with
    | None => Throw NoContext
    | Some c =>
        obind (member_at s index str_size c) (fun o =>
        obind (mem_set_str c o v) (fun c' => Ret (s, Some c')))
    end
  else
    match s_val s with
    | SStrs l => upd_cell l index v SStrs s ctx
    | _ => Throw OtherExn
    end.
(** DaedalusScript.cc:559-573 [get_instance], [set_instance] *)
Definition sym_get_inst (s : sym) : outcome (option N) :=
  if negb (s_type s =? T_INSTANCE) then Throw IllegalTypeAccess
  else match s_val s with SInst i => Ret i | _ => Throw OtherExn end.
Definition sym_set_inst (s : sym) (i : option N) : outcome sym :=
  if negb (s_type s =? T_INSTANCE) then Throw IllegalTypeAccess
  else match s_val s with SInst _ => Ret (with_val s (SInst i)) | _ => Throw OtherExn end.

(** DaedalusScript.cc:575-606 [grow]; [copy_n] of fewer elements than counted is undefined. *)
Definition sym_grow (s : sym) (n : N) : outcome sym :=
  let c := u32 (s_count s + n) in
  let pad {A} (l : list A) (d : A) := l ++ repeat d (N.to_nat (c - len l)) in
  match s_val s with
  | SStrs l => if (len l =? s_count s) && (s_count s <=? c) then Ret (with_grown s (SStrs (pad l [])) c) else Undef
  | SInts l => if (len l =? s_count s) && (s_count s <=? c) then Ret (with_grown s (SInts (pad l (Some 0%Z))) c) else Undef
  | SFloats l => if (len l =? s_count s) && (s_count s <=? c) then Ret (with_grown s (SFloats (pad l (Some 0))) c) else Undef
  | SInst _ => Throw IllegalTypeAccess
  end.

(** DaedalusScript.cc:269-279 [add_temporary_strings_symbol] *)
Definition temp_symbol : sym :=
  mkSym (lit "$PHOENIX_FAKE_STRINGS") (SStrs [[]]) none32 none32 (-1) 1 T_STRING 0 true [0; 0; 0; 0; 0]
        none32 none32 T_VOID None.

(** DaedalusScript.hh:913-947 [_check_member] and 767-800 [register_member]: a member of C++
    type [ty] (0 [std::string], 1 [float], 2 a 32-bit integer or enum, 3 anything else) with
    [n] elements at offset [off] of the class [cls].  The table after the call and how it ended:
    the class is bound before the type is checked. *)
Definition check_member (l : list sym) (names : list (bytes * N)) (ty n : N) (name : bytes) (cls : N)
  : list sym * outcome N :=
  match find_by_name names name with
  | None => (l, Throw SymbolNotFound)
  | Some i =>
      match nth_N l i with
      | None => (l, Undef)
      | Some s =>
          if negb (is_member s) then (l, Throw MemberRegistration)
          else if n <? s_count s then (l, Throw MemberRegistration)
          else
            match nth_N l (s_parent s) with
            | None => (l, Throw MemberRegistration)
            | Some p =>
                match s_reg p with
                | Some r => if r =? cls then
                              (l, if (if ty =? 0 then s_type s =? T_STRING
                                      else if ty =? 1 then s_type s =? T_FLOAT
                                      else if ty =? 2 then (s_type s =? T_INT) || (s_type s =? T_FUNCTION)
                                      else false) then Ret i else Throw MemberRegistration)
                            else (l, Throw MemberRegistration)
                | None =>
                    (set_N l (s_parent s) (with_class p (s_csize p) (Some cls)),
                     if (if ty =? 0 then s_type s =? T_STRING
                         else if ty =? 1 then s_type s =? T_FLOAT
                         else if ty =? 2 then (s_type s =? T_INT) || (s_type s =? T_FUNCTION)
                         else false) then Ret i else Throw MemberRegistration)
                end
            end
      end
  end.
Definition register_member (l : list sym) (names : list (bytes * N)) (ty n : N) (name : bytes) (cls off : N)
  : list sym * outcome unit :=
  match check_member l names ty n name cls with
  | (l', Ret i) =>
      match nth_N l' i with
      | None => (l', Undef)
      | Some s => (set_N l' i (with_member s (u32 off) (Some cls)), Ret tt)
      end
  | (l', Throw e) => (l', Throw e)
  | (l', Undef) => (l', Undef)
  | (l', Fuel) => (l', Fuel)
  end.
