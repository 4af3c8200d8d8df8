(** Specification vocabulary: values on the stack of the script machine. *)

From Coq Require Import Permutation.
From Verif Require Import MBase MStream MDaedalus MVm SVm.
Local Open Scope N_scope.
Local Open Scope v_scope.

(** A stack of values; the top comes first. *)
Inductive item := IInt (z : Z) | IFloat (b : N) | IStr (s : bytes) | IInst (i : option N).
Inductive sop := Put (v : item) | TakeInt | TakeFloat | TakeStr | TakeInst.
Definition strings (l : list item) : N := len (filter (fun v => match v with IStr _ => true | _ => false end) l).
(** At most [deep] values, at most [many] strings among them; values are taken as what they are. *)
Definition ideal (deep many : N) (o : sop) (l : list item) : option (list item * option item) :=
  match o, l with
  | Put v, _ => if (len (v :: l) <=? deep) && (strings (v :: l) <=? many) then Some (v :: l, None) else None
  | TakeInt, IInt z :: r => Some (r, Some (IInt z))
  | TakeFloat, IFloat b :: r => Some (r, Some (IFloat b))
  | TakeStr, IStr s :: r => Some (r, Some (IStr s))
  | TakeInst, IInst i :: r => Some (r, Some (IInst i))
  | _, _ => None
  end.
Fixpoint ideal_run (deep many : N) (os : list sop) (l : list item) : option (list item * list (option item)) :=
  match os with
  | [] => Some (l, [])
  | o :: os' =>
      match ideal deep many o l with
      | None => None
      | Some (l1, r) => match ideal_run deep many os' l1 with None => None | Some (l2, rs) => Some (l2, r :: rs) end
      end
  end.

(** The machine's operations. *)
Definition operate (o : sop) : V (option item) :=
  match o with
  | Put (IInt z) => push_int z ;! vret None
  | Put (IFloat b) => push_float b ;! vret None
  | Put (IStr s) => push_string s ;! vret None
  | Put (IInst i) => push_instance i ;! vret None
  | TakeInt => let! z := pop_int in vret (Some (IInt z))
  | TakeFloat => let! b := pop_float in vret (Some (IFloat b))
  | TakeStr => let! s := pop_string in vret (Some (IStr s))
  | TakeInst => let! i := pop_instance in vret (Some (IInst i))
  end.
Fixpoint operate_all (os : list sop) : V (list (option item)) :=
  match os with
  | [] => vret []
  | o :: os' => let! r := operate o in let! rs := operate_all os' in vret (r :: rs)
  end.

(** ** The values a state holds *)
(** The context of a reference exists. *)
Definition there (s : vm) (c : option N) : Prop := match c with None => True | Some i => i < len (v_heap s) end.
(** [ks] are the indices of the strings among the values, top first. *)
Fixpoint in_slots (s : vm) (strs : list bytes) (l : list item) (ks : list N) : Prop :=
  match l with
  | [] => ks = []
  | IInt z :: r => v_slots s (len r) = Some (mkFrame None false (FInt z) 0) /\ in_slots s strs r ks
  | IFloat b :: r => v_slots s (len r) = Some (mkFrame None false (FFloat b) 0) /\ in_slots s strs r ks
  | IInst i :: r => v_slots s (len r) = Some (mkFrame None false (FInst i) 0) /\ in_slots s strs r ks
  | IStr b :: r => exists k ks' c, ks = k :: ks' /\ v_slots s (len r) = Some (mkFrame c true (FSym (v_tmp s)) k) /\ there s c /\ nth_N strs k = Some b /\ in_slots s strs r ks'
  end.
(** The stack of [s] holds exactly the values [l]: strings are references to elements of the
    machine's table of temporary strings, whose other elements are free. *)
Record Holds (s : vm) (l : list item) : Prop := mkHolds {
  ho_sp : v_sp s = len l;
  ho_deep : len l <= stack_size;
  ho_ctx : there s (v_inst s);
  ho_data : exists T strs ks,
    nth_N (v_syms s) (v_tmp s) = Some T /\ s_type T = T_STRING /\ is_member T = false /\ s_val T = SStrs strs /\ s_count T = len strs /\
    In (len strs) [1; 3; 9; 27; 81; 243] /\ Permutation (ks ++ v_free s) (upto (len strs)) /\ in_slots s strs l ks }.

(** ** Arguments of native functions *)
(** What the script pushed, the type of the parameter, what the native function gets. *)
Inductive delivered : ptype -> item -> cval -> Prop :=
| D_int : forall z, delivered PInt (IInt z) (VInt z)
| D_bool : forall z, delivered PBool (IInt z) (VBool (negb (z =? 0)%Z))
| D_float : forall b, delivered PFloat (IFloat b) (VFloat b)
| D_string : forall b, delivered PStr (IStr b) (VStr b)
| D_inst : forall t i, delivered (PInst t) (IInst i) (VInst i)
| D_raw : forall t i, delivered (PRaw t) (IInst i) (VInst i).
Inductive all_delivered : list ptype -> list item -> list cval -> Prop :=
| AD_nil : all_delivered [] [] []
| AD_cons : forall p ps i is v vs, delivered p i v -> all_delivered ps is vs -> all_delivered (p :: ps) (i :: is) (v :: vs).
(** The instances among the values exist and have the C++ types the parameters ask for. *)
Definition inst_fits (heap : list inst) (p : ptype) (i : item) : Prop :=
  match p, i with
  | (PInst t | PRaw t), IInst (Some n) =>
      exists o, nth_N heap n = Some o /\ match t with Some t => n_type o = Some t | None => True end
  | _, _ => True
  end.
