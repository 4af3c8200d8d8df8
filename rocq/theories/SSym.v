(** Specification vocabulary for symbol values and instances. *)

From Verif Require Import MBase MStream MDaedalus MVm.
Local Open Scope N_scope.
Local Open Scope v_scope.

(** The host's access to element [idx] of symbol [i] with context [c], by kind. *)
Inductive kind := KInt | KFlt | KStr.
Definition read_el (k : kind) (i idx : N) (c : option N) : V cval :=
  match k with
  | KInt => let! v := rd_int i idx c in vret (VInt v)
  | KFlt => let! v := rd_float i idx c in vret (VFloat v)
  | KStr => let! v := rd_string i idx c in vret (VStr v)
  end.
Inductive value := XInt (z : Z) | XFlt (b : N) | XStr (s : bytes).
Definition kind_of (v : value) : kind := match v with XInt _ => KInt | XFlt _ => KFlt | XStr _ => KStr end.
Definition seen (v : value) : cval := match v with XInt z => VInt z | XFlt b => VFloat b | XStr s => VStr s end.
Definition value_ok (v : value) : Prop :=
  match v with XInt z => (- 2 ^ 31 <= z < 2 ^ 31)%Z | XFlt b => b < 2 ^ 32 | XStr _ => True end.
Definition write_el (v : value) (i idx : N) (c : option N) : V unit :=
  match v with XInt z => wr_int i z idx c | XFlt b => wr_float i b idx c | XStr s => wr_string i s idx c end.

(** The kind of access a symbol's type asks for; its elements' size in an instance. *)
Definition kind_fits (k : kind) (t : N) : bool :=
  match k with KInt => (t =? T_INT) || (t =? T_FUNCTION) | KFlt => t =? T_FLOAT | KStr => t =? T_STRING end.
Definition el_size (t : N) : N := if t =? T_STRING then 32 else 4.

(** The documented errors, in the order they are checked. *)
Definition access_error (k : kind) (x : sym) (idx : N) (n : option inst) : option exn :=
  if negb (kind_fits k (s_type x)) then Some IllegalTypeAccess
  else if s_count x <=? idx then Some IllegalIndexAccess
  else if is_member x then
    match n with
    | None => Some NoContext
    | Some n =>
        match s_reg x with
        | None => Some UnboundMember
        | Some r => match n_type n with Some t => if r =? t then None else Some IllegalContextType | None => None end
        end
    end
  else None.

(** A symbol's storage is of the kind of its type; an instance has been given a type. *)
Definition stored (x : sym) : Prop :=
  match s_val x with
  | SInts _ => kind_fits KFlt (s_type x) = false /\ kind_fits KStr (s_type x) = false
  | SFloats _ => s_type x = T_FLOAT
  | SStrs _ => s_type x = T_STRING
  | SInst _ => kind_fits KInt (s_type x) = false /\ kind_fits KFlt (s_type x) = false /\ kind_fits KStr (s_type x) = false
  end \/ is_member x = true.

(** The same element: the context matters for members only. *)
Definition same_el (member : bool) (i idx : N) (c : option N) (i' idx' : N) (c' : option N) : bool :=
  (i =? i') && (idx =? idx') && (negb member || match c, c' with Some a, Some b => a =? b | None, None => true | _, _ => false end).

(** The members among the symbols [U] that are bound to the same C++ type do not overlap. *)
Definition range_of (x : sym) (lo hi : N) : Prop := lo = s_moff x /\ hi = s_moff x + s_count x * el_size (s_type x).
Definition layout_ok (U : N -> Prop) (s : vm) : Prop :=
  forall i x, U i -> nth_N (v_syms s) i = Some x -> is_member x = true ->
    s_moff x + s_count x * el_size (s_type x) <= 2 ^ 32 /\
    forall j y, U j -> i <> j -> nth_N (v_syms s) j = Some y -> is_member y = true -> s_reg y = s_reg x ->
      s_moff x + s_count x * el_size (s_type x) <= s_moff y \/ s_moff y + s_count y * el_size (s_type y) <= s_moff x.

(** Replay of a history of writes, of which some may fail with an exception, keeping track of
    what element [(k, i, idx, c)] should hold: what the last successful write to it wrote. *)
Record write := mkWrite { w_val : value; w_sym : N; w_idx : N; w_ctx : option N }.
Definition holds_after (k : kind) (i idx : N) (c : option N) (member : bool) (w : write) (cur : vres cval) (s : vm) : vres cval :=
  let same := same_el member i idx c (w_sym w) (w_idx w) (w_ctx w) in
  match same, k, w_val w with
  | true, KInt, XInt z => VRet (VInt z) s
  | true, KFlt, XFlt b => VRet (VFloat b) s
  | true, KStr, XStr b => VRet (VStr b) s
  | _, _, _ => match cur with VRet v _ => VRet v s | VExc e _ => VExc e s | VUndef u _ => VUndef u s | VFuel => VFuel end
  end.
Fixpoint replay (k : kind) (i idx : N) (c : option N) (member : bool) (ws : list write) (cur : vres cval) (s : vm)
  : option (vres cval * vm) :=
  match ws with
  | [] => Some (cur, s)
  | w :: r =>
      match write_el (w_val w) (w_sym w) (w_idx w) (w_ctx w) s with
      | VRet _ s' => replay k i idx c member r (holds_after k i idx c member w cur s') s'
      | VExc _ s' => replay k i idx c member r cur s'
      | _ => None
      end
  end.

(** ** Opaque instances *)
(** The alignment of an element; the bytes the members of a class can take, alignment included;
    what a fresh element holds. *)
Definition al (t : N) : N := if t =? T_STRING then 8 else 4.
Fixpoint need (l : list sym) (ms : list N) : N :=
  match ms with
  | [] => 0
  | m :: r => match nth_N l m with Some x => 8 + s_count x * el_size (s_type x) | None => 0 end + need l r
  end.
Definition fresh_cell (ty : N) : cell := if ty =? T_STRING then CStr [] else CWord 0.
(** A class whose members have one of the eight types and fit in 32-bit offsets. *)
Definition class_fits (l : list sym) (cls : N) : Prop :=
  (exists x, nth_N l cls = Some x /\ is_member x = false) /\
  (forall m x, nth_N l m = Some x -> is_member x = true -> s_parent x = cls -> s_type x < 8) /\
  need l (class_members l cls) < 2 ^ 32.
