(** Transient instances: contexts whose members are kept by the host
    (include/zenkit/DaedalusScript.hh:332-352, src/DaedalusScript.cc:412-557). *)

From Verif Require Import MBase MStream MVfs MDaedalus.
Local Open Scope N_scope.

(** DaedalusScript.hh:332-352 [DaedalusTransientInstance]: the six virtual functions of a host with
    the state [H].  Each may throw.  [h_type] is the number of the type
    [DaedalusTransientInstance]. *)
Record host (H : Type) := mkHost {
  h_type : N;
  h_get_int : sym -> N -> H -> outcome Z; h_set_int : sym -> N -> Z -> H -> outcome H;
  h_get_float : sym -> N -> H -> outcome N; h_set_float : sym -> N -> N -> H -> outcome H;
  h_get_string : sym -> N -> H -> outcome bytes; h_set_string : sym -> N -> bytes -> H -> outcome H }.
Arguments mkHost {H}. Arguments h_type {H}.
Arguments h_get_int {H}. Arguments h_set_int {H}. Arguments h_get_float {H}.
Arguments h_set_float {H}. Arguments h_get_string {H}. Arguments h_set_string {H}.

(** The context of an access: none, an instance whose members are in memory, or an object of a class
    derived from [DaedalusTransientInstance] with its symbol index, its type and the host's state. *)
Inductive tctx (H : Type) := XNone | XInst (c : inst) | XHost (k t : N) (x : H).
Arguments XNone {H}. Arguments XInst {H}. Arguments XHost {H}.

(** DaedalusScript.cc:681-683: a new transient instance; DaedalusScript.hh [_m_symbol_index] is -1. *)
Definition transient {H} (h : host H) (x : H) : tctx H := XHost none32 (h_type h) x.

(** DaedalusScript.cc:426-427, and the same in the other five *)
Definition at_host {H} (h : host H) (k t : N) : bool := (k =? none32) && (t =? h_type h).

(** DaedalusScript.hh:687-704 [get_member_ptr] on the object of the host: what its memory holds is
    not modelled, an access that gets through the checks is [Undef]. *)
Definition host_member {A} (s : sym) (t : N) : outcome A :=
  match s_reg s with
  | None => Throw UnboundMember
  | Some r => if r =? t then Undef else Throw IllegalContextType
  end.

Definition is_int (s : sym) : bool := (s_type s =? T_INT) || (s_type s =? T_FUNCTION).

(** The context as it is without transient instances *)
Definition plain {H} (c : tctx H) : option inst := match c with XInst i => Some i | _ => None end.

(** DaedalusScript.cc:460-482 [get_int] *)
Definition t_get_int {H} (h : host H) (s : sym) (index : N) (c : tctx H) : outcome Z :=
  match c with
  | XHost k t x =>
      if negb (is_int s) then Throw IllegalTypeAccess
      else if s_count s <=? index then Throw IllegalIndexAccess
      else if is_member s then
        if at_host h k t then h_get_int h s index x else host_member s t
      else sym_get_int s index None
  | _ => sym_get_int s index (plain c)
  end.
(** DaedalusScript.cc:436-458 [get_float] *)
Definition t_get_float {H} (h : host H) (s : sym) (index : N) (c : tctx H) : outcome N :=
  match c with
  | XHost k t x =>
      if negb (s_type s =? T_FLOAT) then Throw IllegalTypeAccess
      else if s_count s <=? index then Throw IllegalIndexAccess
      else if is_member s then
        if at_host h k t then h_get_float h s index x else host_member s t
      else sym_get_float s index None
  | _ => sym_get_float s index (plain c)
  end.
(** DaedalusScript.cc:412-434 [get_string] *)
Definition t_get_string {H} (h : host H) (s : sym) (index : N) (c : tctx H) : outcome bytes :=
  match c with
  | XHost k t x =>
      if negb (s_type s =? T_STRING) then Throw IllegalTypeAccess
      else if s_count s <=? index then Throw IllegalIndexAccess
      else if is_member s then
        if at_host h k t then h_get_string h s index x else host_member s t
      else sym_get_string s index None
  | _ => sym_get_string s index (plain c)
  end.

(** What a setter changes without transient instances, put back into the context [c] *)
Definition lift {H} (c : tctx H) (r : outcome (sym * option inst)) : outcome (sym * tctx H) :=
  obind r (fun p => Ret (fst p, match c, snd p with XInst _, Some i => XInst i | _, _ => c end)).

(** DaedalusScript.cc:534-557 [set_int] *)
Definition t_set_int {H} (h : host H) (s : sym) (v : Z) (index : N) (c : tctx H) : outcome (sym * tctx H) :=
  match c with
  | XHost k t x =>
      if negb (is_int s) then Throw IllegalTypeAccess
      else if s_count s <=? index then Throw IllegalIndexAccess
      else if is_member s then
        if at_host h k t then obind (h_set_int h s index v x) (fun x' => Ret (s, XHost k t x')) else host_member s t
      else lift c (sym_set_int s v index None)
  | _ => lift c (sym_set_int s v index (plain c))
  end.
(** DaedalusScript.cc:509-532 [set_float] *)
Definition t_set_float {H} (h : host H) (s : sym) (v : N) (index : N) (c : tctx H) : outcome (sym * tctx H) :=
  match c with
  | XHost k t x =>
      if negb (s_type s =? T_FLOAT) then Throw IllegalTypeAccess
      else if s_count s <=? index then Throw IllegalIndexAccess
      else if is_member s then
        if at_host h k t then obind (h_set_float h s index v x) (fun x' => Ret (s, XHost k t x')) else host_member s t
      else lift c (sym_set_float s v index None)
  | _ => lift c (sym_set_float s v index (plain c))
  end.
(** DaedalusScript.cc:484-507 [set_string] *)
Definition t_set_string {H} (h : host H) (s : sym) (v : bytes) (index : N) (c : tctx H) : outcome (sym * tctx H) :=
  match c with
  | XHost k t x =>
      if negb (s_type s =? T_STRING) then Throw IllegalTypeAccess
      else if s_count s <=? index then Throw IllegalIndexAccess
      else if is_member s then
        if at_host h k t then obind (h_set_string h s index v x) (fun x' => Ret (s, XHost k t x')) else host_member s t
      else lift c (sym_set_string s v index None)
  | _ => lift c (sym_set_string s v index (plain c))
  end.

(** A run of stores by the host program, which stops at the first that throws *)
Inductive store := PutInt (s : sym) (i : N) (v : Z) | PutFloat (s : sym) (i v : N) | PutString (s : sym) (i : N) (v : bytes).
Definition put {H} (h : host H) (o : store) (c : tctx H) : outcome (tctx H) :=
  obind (match o with
         | PutInt s i v => t_set_int h s v i c
         | PutFloat s i v => t_set_float h s v i c
         | PutString s i v => t_set_string h s v i c
         end) (fun p => Ret (snd p)).
Fixpoint puts {H} (h : host H) (l : list store) (c : tctx H) : outcome (tctx H) :=
  match l with
  | [] => Ret c
  | o :: l' => obind (put h o c) (puts h l')
  end.
