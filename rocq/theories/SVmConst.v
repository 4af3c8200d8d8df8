(** Specification vocabulary: what the machine leaves alone. *)

From Verif Require Import MBase MStream MDaedalus MVm SVm.
Local Open Scope N_scope.
Local Open Scope v_scope.

(** However it ends, symbol [i] is what it was. *)
Definition leaves {A} (i : N) (m : V A) : Prop := forall s,
  match m s with
  | VRet _ s' | VExc _ s' | VUndef _ s' => nth_N (v_syms s') i = nth_N (v_syms s) i
  | VFuel => True
  end.
(** The host's own functions do not assign to symbol [i]. *)
Record hands_off (i : N) (h : host) : Prop := mkHandsOff {
  ho_ext : forall j cb, h_ext h j = Some cb -> leaves i cb;
  ho_over : forall a cb, h_over h a = Some cb -> leaves i cb;
  ho_default : forall d, h_default h = Some d -> forall j, leaves i (d j);
  ho_trap : forall d, h_trap h = Some d -> forall j, leaves i (d j);
  ho_handler : forall d, h_handler h = Some d -> forall e j, leaves i (d e j) }.
(** No function that saves its local variables has [i] among them. *)
Definition not_local (s : vm) (i : N) : Prop :=
  forall f y, nth_N (v_syms s) f = Some y -> has_locals y = true -> ~ In i (locals_of (v_syms s) f y).
