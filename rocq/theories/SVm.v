(** Specification vocabulary for the script machine. *)

From Verif Require Import MBase MStream MDaedalus MVm.
Local Open Scope N_scope.
Local Open Scope v_scope.

(* ------------------------------------------------------------------ *)
(** * What a host can do *)

(** Computations made of public operations of the machine, and hosts whose callbacks are such
    computations.  A callback may look at everything but changes the machine through its
    interface only, and lets exceptions pass. *)
Inductive api : forall {A : Type}, V A -> Prop :=
| api_ret : forall A (a : A), api (vret a)
| api_throw : forall A e, api (@vthrow A e)
| api_bind : forall A B (m : V A) (k : A -> V B), api m -> (forall a, api (k a)) -> api (vbind m k)
| api_look : api vget
| api_push_int : forall z, api (push_int z)
| api_push_float : forall b, api (push_float b)
| api_push_instance : forall i, api (push_instance i)
| api_push_reference : forall i x, api (push_reference i x)
| api_push_string : forall s, api (push_string s)
| api_pop_int : api pop_int
| api_pop_float : api pop_float
| api_pop_instance : api pop_instance
| api_pop_reference : api pop_reference
| api_pop_string : api pop_string
| api_set_int : forall i v idx c, api (wr_int i v idx c)
| api_set_float : forall i v idx c, api (wr_float i v idx c)
| api_set_string : forall i v idx c, api (wr_string i v idx c)
| api_set_instance : forall i v, api (wr_inst i v)
| api_gi : forall i, api (vmod (set_inst i))
| api_new : forall o, api (vmod (fun s => set_heap (v_heap s ++ [o]) s))
| api_unsafe_call : forall n h f, api_host h -> api (unsafe_call n h f)
| api_call : forall n h f args r, api_host h -> api (call_function n h f args r)
| api_init : forall n h t i f, api_host h -> api (init_instance n h t i f)
| api_init_opaque : forall n h f, api_host h -> api (init_opaque_instance n h f)
| api_native : forall ps r cb, (forall l, api (cb l)) -> api (wrap_external ps r cb)
| api_override : forall i ps r cb, (forall l, api (cb l)) -> api (push_call i ;! wrap_external ps r cb ;! pop_call)
| api_default : forall cb i, (forall j, api (cb j)) -> api (default_external cb i)
| api_lenient : forall e i, api (lenient_handler e i)
with api_host : host -> Prop :=
| api_host_intro : forall h,
    (forall i cb, h_ext h i = Some cb -> api cb) ->
    (forall a cb, h_over h a = Some cb -> api cb) ->
    (forall d, h_default h = Some d -> forall i, api (d i)) ->
    (forall d, h_trap h = Some d -> forall i, api (d i)) ->
    (forall d, h_handler h = Some d -> forall e i, api (d e i)) ->
    api_host h.

(** A host that registers nothing. *)
Definition bare : host := mkHost (fun _ => None) (fun _ => None) None None None.
(** A host with one external / with an error handler. *)
Definition with_ext (i : N) (cb : V unit) : host := mkHost (fun j => if j =? i then Some cb else None) (fun _ => None) None None None.
Definition with_handler (f : exn -> instr -> V strategy) : host := mkHost (fun _ => None) (fun _ => None) None None (Some f).

(** A history: operations one after the other; the host catches what they throw. *)
Fixpoint perform (hist : list (V unit)) : V unit := fun s =>
  match hist with
  | [] => VRet tt s
  | m :: r => match m s with VRet _ s' | VExc _ s' => perform r s' | VUndef k s' => VUndef k s' | VFuel => VFuel end
  end.

(** Compiled scripts: fewer than 2^19 symbols, at most 4095 elements, functions that return
    something return a value. *)
Definition value_kind (t : N) : Prop := t = T_FLOAT \/ t = T_INT \/ t = T_STRING \/ t = T_FUNCTION \/ t = T_INSTANCE.
Definition script_ok (sc : script) : Prop :=
  len (sc_syms sc) < 524287 /\
  (forall x, In x (sc_syms sc) -> s_count x <= 4095) /\
  (forall x, In x (sc_syms sc) -> has_return x = true -> value_kind (s_rtype x)).

(** A state a host can bring about. *)
Definition reachable (s : vm) : Prop :=
  exists sc flags hist, script_ok sc /\ Forall api hist /\ perform hist (boot sc flags) = VRet tt s.

(** The execution so far was disciplined: no function took values from below its arguments, every
    function had its arguments, no ignored error left a call frame behind (see [ghost]). *)
Definition disciplined (s : vm) : Prop := under s = false /\ wrapped s = false /\ stale s = false.

(* ------------------------------------------------------------------ *)
(** * Scripts for examples *)

Definition a_sym (name : bytes) (ty flags count : N) (v : sval) (addr rt : N) : sym :=
  mkSym name v addr none32 (-1) count ty flags false [0; 0; 0; 0; 0] none32 none32 rt None.
Definition a_func (name : bytes) (params : N) (rt addr : N) : sym :=
  a_sym name T_FUNCTION (if rt =? T_VOID then F_CONST else F_CONST + F_RETURN) params (SInts []) addr rt.
Fixpoint index {A} (f : A -> option N) (i : N) (l : list A) : list (N * N) :=
  match l with [] => [] | a :: r => match f a with Some k => (k, i) :: index f (i + 1) r | None => index f (i + 1) r end end.
Fixpoint index_names (i : N) (l : list sym) : list (bytes * N) :=
  match l with [] => [] | a :: r => (s_name a, i) :: index_names (i + 1) r end.
Definition a_script (l : list sym) (code : bytes) : script :=
  mkScript l (index_names 0 l) (index (fun x => if has_address x then Some (s_addr x) else None) 0 l) (r_from code).

(** Machine code. *)
Definition op0 (o : N) : bytes := [n2b o].
Definition op4 (o v : N) : bytes := n2b o :: le_enc 4 v.
