(** Specification vocabulary for compiled scripts. *)

From Verif Require Import MBase MStream MVfs MDaedalus SStream.
Local Open Scope N_scope.

(* ------------------------------------------------------------------ *)
(** * Assembly *)

(** The five forms of instructions: without operand, with an address, with an immediate value,
    with a symbol, with a symbol and an element. *)
Inductive asm := ACode (op : N) | AAddr (op a : N) | AImm (v : Z) | ASym (op s : N) | AElem (s x : N).
Definition asm_bytes (i : asm) : bytes :=
  match i with
  | ACode op => [n2b op]
  | AAddr op a => n2b op :: le_enc 4 a
  | AImm v => n2b op_PUSHI :: le_enc 4 (uint 32 v)
  | ASym op s => n2b op :: le_enc 4 s
  | AElem s x => n2b op_PUSHVV :: le_enc 4 s ++ [n2b x]
  end.
Definition asm_ok (i : asm) : Prop :=
  match i with
  | ACode op => op < 256 /\ ~ In op [61; 62; 64; 65; 67; 75; 76; 80; 245]
  | AAddr op a => In op [61; 75; 76] /\ a < 2 ^ 32
  | AImm v => (- 2 ^ 31 <= v < 2 ^ 31)%Z
  | ASym op s => In op [62; 65; 67; 80] /\ s < 2 ^ 32
  | AElem s x => s < 2 ^ 32 /\ x < 256
  end.
(** What the interpreter should see. *)
Definition asm_instr (i : asm) : instr :=
  match i with
  | ACode op => mkI op 0 0 0 0 1
  | AAddr op a => mkI op a 0 0 0 5
  | AImm v => mkI op_PUSHI 0 0 v 0 5
  | ASym op s => mkI op 0 s 0 0 5
  | AElem s x => mkI op_PUSHVV 0 s 0 x 6
  end.
Definition assemble (l : list asm) : bytes := flat_map asm_bytes l.

(* ------------------------------------------------------------------ *)
(** * Compiled symbols *)

(** A symbol as the compiler writes it: the data of strings is not yet unescaped. *)
Inductive cbody :=
| CNone                  (** members and void *)
| CFloats (l : list N) | CInts (l : list Z) | CStrings (l : list bytes)
| CClass (offset : Z) | CAddr (a : N).
Record csym := mkC {
  c_name : option bytes; c_vary : N; c_count : N; c_type : N; c_flags : N; c_pos : list N; c_body : cbody; c_parent : N }.

Definition body_bytes (b : cbody) : bytes :=
  match b with
  | CNone => []
  | CFloats l => flat_map (le_enc 4) l
  | CInts l => flat_map (fun v => le_enc 4 (uint 32 v)) l
  | CStrings l => flat_map (fun s => s ++ [x0a]) l
  | CClass o => le_enc 4 (uint 32 o)
  | CAddr a => le_enc 4 a
  end.
Definition csym_bytes (c : csym) : bytes :=
  match c_name c with None => le_enc 4 0 | Some n => le_enc 4 1 ++ n ++ [x0a] end ++
  le_enc 4 (c_vary c) ++ le_enc 4 (c_count c + 4096 * c_type c + 65536 * c_flags c) ++
  flat_map (le_enc 4) (c_pos c) ++ body_bytes (c_body c) ++ le_enc 4 (c_parent c).

Definition c_member (c : csym) : bool := N.testbit (c_flags c) 2.
Definition c_const (c : csym) : bool := N.testbit (c_flags c) 0.
(** The body a symbol has. *)
Definition body_ok (c : csym) : Prop :=
  if c_member c then c_body c = CNone
  else match c_type c with
  | 1 => exists l, c_body c = CFloats l /\ len l = c_count c /\ Forall f32 l
  | 2 => exists l, c_body c = CInts l /\ len l = c_count c /\ Forall (fun v => - 2 ^ 31 <= v < 2 ^ 31)%Z l
  | 3 => exists l, c_body c = CStrings l /\ len l = c_count c /\ Forall no_eol l
  | 4 => exists o, c_body c = CClass o /\ (- 2 ^ 31 <= o < 2 ^ 31)%Z
  | 5 | 6 | 7 => exists a, c_body c = CAddr a /\ a < 2 ^ 32
  | _ => c_body c = CNone
  end.
Definition csym_ok (c : csym) : Prop :=
  (forall n, c_name c = Some n -> no_eol n) /\
  c_vary c < 2 ^ 32 /\ c_count c < 4096 /\ c_type c < 16 /\ c_flags c < 64 /\
  length (c_pos c) = 5%nat /\ Forall (fun p => p < 2 ^ 19) (c_pos c) /\ c_parent c < 2 ^ 32 /\ body_ok c.
(** The symbols whose parent is read back: not those for which the loader looks for a
    terminator it may have missed. *)
Definition parent_clear (c : csym) : Prop :=
  c_type c = T_STRING -> c_member c = false -> c_const c = true -> isspace (n2b (c_parent c)) = false.

(** What a compiled symbol means. *)
Definition c_value (c : csym) : sval :=
  match c_body c with
  | CFloats l => SFloats (map Some l)
  | CInts l => SInts (map Some l)
  | CStrings l => SStrs (map escape l)
  | CAddr _ => if c_type c =? T_INSTANCE then SInst None
               else if (c_type c =? T_FUNCTION) && negb (c_const c) then SInts [None] else SInts []
  | _ => SInts []
  end.
Definition meaning (c : csym) : sym :=
  let gen := match c_name c with Some (b :: _) => beq b xff | _ => false end in
  mkSym (match c_name c with None => [] | Some (b :: r) => if beq b xff then x24 :: r else b :: r | Some [] => [] end)
        (c_value c)
        (match c_body c with CAddr a => a | _ => none32 end)
        (c_parent c)
        (match c_body c with CClass o => o | _ => (-1)%Z end)
        (c_count c) (c_type c) (c_flags c) gen (c_pos c)
        (if c_member c then c_vary c else none32)
        (if negb (c_member c) && (c_type c =? T_CLASS) then c_vary c else none32)
        (if negb (c_member c) && (c_type c =? T_FUNCTION) then c_vary c else T_VOID)
        None.
(** A script file: version, the order table, the symbols, the code. *)
Definition script_bytes (version : byte) (order : list N) (l : list csym) (code : bytes) : bytes :=
  version :: le_enc 4 (len l) ++ flat_map (le_enc 4) order ++ flat_map csym_bytes l ++ le_enc 4 (len code) ++ code.
(** The last entry of a table whose key is [k]. *)
Definition last_index {A} (P : A -> bool) (l : list A) (r : option N) : Prop :=
  match r with
  | Some i => (exists x, nth_N l i = Some x /\ P x = true) /\ forall j x, i < j -> nth_N l j = Some x -> P x = false
  | None => forall x, In x l -> P x = false
  end.
