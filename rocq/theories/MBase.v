(** Common vocabulary of the model: bytes, machine integers, outcomes.

    Nothing here models a particular function of the library; these are the
    C++ language notions the model files are written in. *)

From Coq Require Export List NArith ZArith Bool.
From Coq Require Export Strings.Byte.
From Coq Require Strings.String.
Export String.StringSyntax.
Export ListNotations.

Local Open Scope N_scope.

(** A byte string: a C++ [std::string], [std::vector<std::byte>] or raw buffer. *)
Definition bytes := list byte.

(** Byte string literals, for readability only. *)
Definition lit (s : String.string) : bytes := String.list_byte_of_string s.
Arguments lit s%string_scope.

Definition b2n (b : byte) : N := Byte.to_N b.
(** Conversion to an 8-bit unsigned integer keeps the low 8 bits. *)
Definition n2b (n : N) : byte :=
  match Byte.of_N (n mod 256) with Some b => b | None => x00 end.

Definition beq (a b : byte) : bool := Byte.eqb a b.

Fixpoint bytes_eqb (a b : bytes) : bool :=
  match a, b with
  | [], [] => true
  | x :: a', y :: b' => beq x y && bytes_eqb a' b'
  | _, _ => false
  end.

(** Lengths and slices, indexed by [N] ([size_t]). *)
Definition len {A} (l : list A) : N := N.of_nat (length l).
Definition take {A} (n : N) (l : list A) : list A := firstn (N.to_nat (N.min n (len l))) l.
Definition drop {A} (n : N) (l : list A) : list A := skipn (N.to_nat (N.min n (len l))) l.
Definition zeros (n : N) : bytes := repeat x00 (N.to_nat n).
Definition nth_N {A} (l : list A) (n : N) : option A :=
  if n <? len l then nth_error l (N.to_nat n) else None.

(** Wrap-around of unsigned machine integers. *)
Definition u8 (n : N) : N := n mod 2 ^ 8.
Definition u16 (n : N) : N := n mod 2 ^ 16.
Definition u32 (n : N) : N := n mod 2 ^ 32.
Definition u64 (n : N) : N := n mod 2 ^ 64.

(** Two's complement: the signed value of a [w]-bit pattern and back. *)
Definition sint (w : N) (n : N) : Z :=
  if n mod 2 ^ w <? 2 ^ (w - 1) then Z.of_N (n mod 2 ^ w)
  else (Z.of_N (n mod 2 ^ w) - Z.of_N (2 ^ w))%Z.
Definition uint (w : N) (z : Z) : N := Z.to_N (z mod Z.of_N (2 ^ w)).

(** Little-endian representation (the library assumes a little-endian host). *)
Fixpoint le_enc (k : nat) (v : N) : bytes :=
  match k with
  | O => []
  | S k' => n2b v :: le_enc k' (v / 256)
  end.
Fixpoint le_dec (bs : bytes) : N :=
  match bs with
  | [] => 0
  | b :: bs' => b2n b + 256 * le_dec bs'
  end.

(** Misc.hh:10-12 [GameVersion] *)
Inductive game := G1 | G2.

(** Exceptions the library throws, by class and (for parser errors) origin. *)
Inductive exn :=
| ParserError            (** zenkit::ParserError *)
| VfsBrokenDisk          (** zenkit::VfsBrokenDiskError *)
| VfsFileExists          (** zenkit::VfsFileExistsError *)
| VfsNotFound            (** zenkit::VfsNotFoundError *)
| ScriptError            (** zenkit::DaedalusScriptError and subclasses without a special role *)
| SymbolNotFound         (** zenkit::DaedalusSymbolNotFound *)
| VmException            (** zenkit::DaedalusVmException *)
| MemberRegistration     (** zenkit::DaedalusMemberRegistrationError and subclasses *)
| IllegalTypeAccess      (** zenkit::DaedalusIllegalTypeAccess *)
| IllegalIndexAccess     (** zenkit::DaedalusIllegalIndexAccess *)
| IllegalConstAccess     (** zenkit::DaedalusIllegalConstAccess *)
| IllegalContextType     (** zenkit::DaedalusIllegalContextType *)
| IllegalInstanceAccess  (** zenkit::DaedalusIllegalInstanceAccess *)
| NoContext              (** zenkit::DaedalusNoContextError *)
| UnboundMember          (** zenkit::DaedalusUnboundMemberAccess *)
| IllegalExternal        (** DaedalusIllegalExternal{Definition,Parameter,ReturnType} *)
| OutOfRange             (** std::out_of_range *)
| InvalidMipmapSize      (** zenkit::... "InvalidMipmapSize" *)
| UnsupportedFormat
| ScriptSyntaxError      (** zenkit::ScriptSyntaxError *)
| OtherExn.

(** What a call of a C++ function can do. [Undef] is undefined behaviour or
    abnormal termination, [Fuel] means that the model's recursion budget ran out:
    both are outcomes no positive theorem allows. *)
Inductive outcome (A : Type) : Type :=
| Ret (a : A)
| Throw (e : exn)
| Undef
| Fuel.
Arguments Ret {A} a.
Arguments Throw {A} e.
Arguments Undef {A}.
Arguments Fuel {A}.

Definition obind {A B} (m : outcome A) (k : A -> outcome B) : outcome B :=
  match m with
  | Ret a => k a
  | Throw e => Throw e
  | Undef => Undef
  | Fuel => Fuel
  end.

(** Stateful computations over a state [S] (a stream, a machine, ...). *)
Definition M (S A : Type) := S -> outcome (A * S).
Definition ret {S A} (a : A) : M S A := fun s => Ret (a, s).
Definition bind {S A B} (m : M S A) (k : A -> M S B) : M S B :=
  fun s => match m s with
           | Ret (a, s') => k a s'
           | Throw e => Throw e
           | Undef => Undef
           | Fuel => Fuel
           end.
Definition throw {S A} (e : exn) : M S A := fun _ => Throw e.
Definition undef {S A} : M S A := fun _ => Undef.
Definition fuelout {S A} : M S A := fun _ => Fuel.
Definition get {S} : M S S := fun s => Ret (s, s).
Definition put {S} (s : S) : M S unit := fun _ => Ret (tt, s).
Definition lift {S A} (o : outcome A) : M S A :=
  fun s => match o with Ret a => Ret (a, s) | Throw e => Throw e | Undef => Undef | Fuel => Fuel end.

Declare Scope m_scope.
Delimit Scope m_scope with m.
Notation "'let*' x := m 'in' k" := (bind m (fun x => k))
  (at level 200, x binder, m at level 100, k at level 200) : m_scope.
Notation "m ;; k" := (bind m (fun _ => k))
  (at level 100, right associativity) : m_scope.

(** Loops over a list / a fixed number of times. *)
Fixpoint mapM {S A B} (f : A -> M S B) (l : list A) : M S (list B) :=
  match l with
  | [] => ret []
  | a :: l' => bind (f a) (fun b => bind (mapM f l') (fun bs => ret (b :: bs)))
  end.
Fixpoint iterM {S A} (f : A -> M S unit) (l : list A) : M S unit :=
  match l with
  | [] => ret tt
  | a :: l' => bind (f a) (fun _ => iterM f l')
  end.
Fixpoint repM {S A} (n : nat) (m : M S A) : M S (list A) :=
  match n with
  | O => ret []
  | S n' => bind m (fun a => bind (repM n' m) (fun l => ret (a :: l)))
  end.
