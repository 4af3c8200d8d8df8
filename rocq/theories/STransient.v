(** What is said about transient instances. *)

From Verif Require Import MBase MStream MVfs MDaedalus MTransient.
Local Open Scope N_scope.

(** [s] is a member with an element [i]. *)
Definition member_element (s : sym) (i : N) : Prop := is_member s = true /\ i < s_count s.
Definition int_symbol (s : sym) : Prop := s_type s = T_INT \/ s_type s = T_FUNCTION.

(** Two accesses are to the same element: the symbols have the same name, which is what a script
    knows them by, and the indices are equal. *)
Definition same (s : sym) (i : N) (s' : sym) (i' : N) : bool := bytes_eqb (s_name s) (s_name s') && (i =? i').

(** A host that keeps what it is given: a store never fails and changes what is read at that
    element, for values of that kind, and nothing else. *)
Record keeps {H} (h : host H) : Prop := {
  k_int : forall s i v x, exists x', h_set_int h s i v x = Ret x' /\
    (forall s' i', h_get_int h s' i' x' = if same s i s' i' then Ret v else h_get_int h s' i' x) /\
    (forall s' i', h_get_float h s' i' x' = h_get_float h s' i' x) /\
    (forall s' i', h_get_string h s' i' x' = h_get_string h s' i' x);
  k_float : forall s i v x, exists x', h_set_float h s i v x = Ret x' /\
    (forall s' i', h_get_float h s' i' x' = if same s i s' i' then Ret v else h_get_float h s' i' x) /\
    (forall s' i', h_get_int h s' i' x' = h_get_int h s' i' x) /\
    (forall s' i', h_get_string h s' i' x' = h_get_string h s' i' x);
  k_string : forall s i v x, exists x', h_set_string h s i v x = Ret x' /\
    (forall s' i', h_get_string h s' i' x' = if same s i s' i' then Ret v else h_get_string h s' i' x) /\
    (forall s' i', h_get_int h s' i' x' = h_get_int h s' i' x) /\
    (forall s' i', h_get_float h s' i' x' = h_get_float h s' i' x) }.

(** The store is to an element of a member of its kind. *)
Definition proper (o : store) : Prop :=
  match o with
  | PutInt s i _ => int_symbol s /\ member_element s i
  | PutFloat s i _ => s_type s = T_FLOAT /\ member_element s i
  | PutString s i _ => s_type s = T_STRING /\ member_element s i
  end.

(** The last value stored at an element, or what was there before *)
Fixpoint last_int (l : list store) (s : sym) (i : N) (old : outcome Z) : outcome Z :=
  match l with
  | [] => old
  | PutInt s' i' v :: l' => last_int l' s i (if same s' i' s i then Ret v else old)
  | _ :: l' => last_int l' s i old
  end.
Fixpoint last_float (l : list store) (s : sym) (i : N) (old : outcome N) : outcome N :=
  match l with
  | [] => old
  | PutFloat s' i' v :: l' => last_float l' s i (if same s' i' s i then Ret v else old)
  | _ :: l' => last_float l' s i old
  end.
Fixpoint last_string (l : list store) (s : sym) (i : N) (old : outcome bytes) : outcome bytes :=
  match l with
  | [] => old
  | PutString s' i' v :: l' => last_string l' s i (if same s' i' s i then Ret v else old)
  | _ :: l' => last_string l' s i old
  end.

(** A host for the examples: a log of what was stored. *)
Definition log_host : host (list store) :=
  mkHost 9
    (fun s i x => last_int x s i (Ret 0%Z)) (fun s i v x => Ret (x ++ [PutInt s i v]))
    (fun s i x => last_float x s i (Ret 0)) (fun s i v x => Ret (x ++ [PutFloat s i v]))
    (fun s i x => last_string x s i (Ret [])) (fun s i v x => Ret (x ++ [PutString s i v])).
