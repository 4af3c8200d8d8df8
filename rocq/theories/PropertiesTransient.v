(** Property C142: members kept by the host. *)

From Coq Require Import Lia.
From Verif Require Import MBase MStream MVfs MDaedalus MTransient STransient LTransient.
Local Open Scope N_scope.

(** ** C142 *)
(** Reading a member of a transient instance is the host's answer for that symbol and that index,
    whatever the host does, even throwing; *)
Theorem C142_reads : forall H (h : host H) s i x, member_element s i ->
  (int_symbol s -> t_get_int h s i (transient h x) = h_get_int h s i x) /\
  (s_type s = T_FLOAT -> t_get_float h s i (transient h x) = h_get_float h s i x) /\
  (s_type s = T_STRING -> t_get_string h s i (transient h x) = h_get_string h s i x).
Proof. exact reads. Qed.
Print Assumptions C142_reads.
(** storing is the host's store of that value, and the symbol stays as it is. *)
Theorem C142_stores : forall H (h : host H) s i x, member_element s i ->
  (forall v, int_symbol s -> t_set_int h s v i (transient h x) =
     obind (h_set_int h s i v x) (fun x' => Ret (s, transient h x'))) /\
  (forall v, s_type s = T_FLOAT -> t_set_float h s v i (transient h x) =
     obind (h_set_float h s i v x) (fun x' => Ret (s, transient h x'))) /\
  (forall v, s_type s = T_STRING -> t_set_string h s v i (transient h x) =
     obind (h_set_string h s i v x) (fun x' => Ret (s, transient h x'))).
Proof. exact stores. Qed.
Print Assumptions C142_stores.
(** The host is not asked for values of another type or for elements that are not there. *)
Theorem C142_wrong_type : forall H (h : host H) s i c,
  (~ int_symbol s -> t_get_int h s i c = Throw IllegalTypeAccess /\ forall v, t_set_int h s v i c = Throw IllegalTypeAccess) /\
  (s_type s <> T_FLOAT -> t_get_float h s i c = Throw IllegalTypeAccess /\ forall v, t_set_float h s v i c = Throw IllegalTypeAccess) /\
  (s_type s <> T_STRING -> t_get_string h s i c = Throw IllegalTypeAccess /\ forall v, t_set_string h s v i c = Throw IllegalTypeAccess).
Proof. exact wrong_type. Qed.
Print Assumptions C142_wrong_type.
Theorem C142_outside : forall H (h : host H) s i c, s_count s <= i ->
  (int_symbol s -> t_get_int h s i c = Throw IllegalIndexAccess /\ forall v, t_set_int h s v i c = Throw IllegalIndexAccess) /\
  (s_type s = T_FLOAT -> t_get_float h s i c = Throw IllegalIndexAccess /\ forall v, t_set_float h s v i c = Throw IllegalIndexAccess) /\
  (s_type s = T_STRING -> t_get_string h s i c = Throw IllegalIndexAccess /\ forall v, t_set_string h s v i c = Throw IllegalIndexAccess).
Proof. exact outside. Qed.
Print Assumptions C142_outside.
(** A symbol that is not a member keeps its own values: reads are as without a context, *)
Theorem C142_own_reads : forall H (h : host H) s i k t x, is_member s = false ->
  t_get_int h s i (XHost k t x) = t_get_int h s i XNone /\
  t_get_float h s i (XHost k t x) = t_get_float h s i XNone /\
  t_get_string h s i (XHost k t x) = t_get_string h s i XNone.
Proof. exact own_reads. Qed.
Print Assumptions C142_own_reads.
(** and stores leave the host as it was. *)
Theorem C142_own_stores : forall H (h : host H) s i k t x s' c', is_member s = false ->
  (forall v, t_set_int h s v i (XHost k t x) = Ret (s', c') -> c' = XHost k t x /\ t_set_int h s v i XNone = Ret (s', XNone)) /\
  (forall v, t_set_float h s v i (XHost k t x) = Ret (s', c') -> c' = XHost k t x /\ t_set_float h s v i XNone = Ret (s', XNone)) /\
  (forall v, t_set_string h s v i (XHost k t x) = Ret (s', c') -> c' = XHost k t x /\ t_set_string h s v i XNone = Ret (s', XNone)).
Proof. exact own_stores. Qed.
Print Assumptions C142_own_stores.
(** With a host that keeps what it is given, after any run of stores every element of every member
    reads as the last value stored there, at every index. *)
Theorem C142_kept : forall H (h : host H) l x, keeps h -> Forall proper l ->
  exists c, puts h l (transient h x) = Ret c /\ forall s i, member_element s i ->
    (int_symbol s -> t_get_int h s i c = last_int l s i (t_get_int h s i (transient h x))) /\
    (s_type s = T_FLOAT -> t_get_float h s i c = last_float l s i (t_get_float h s i (transient h x))) /\
    (s_type s = T_STRING -> t_get_string h s i c = last_string l s i (t_get_string h s i (transient h x))).
Proof. exact kept. Qed.
Print Assumptions C142_kept.
(** Once the object has been made the instance of a script symbol the host is not asked any more:
    every access to a member ends in an error, unless the member is registered for its class. *)
Theorem C142_bound : forall H (h : host H) s i k t x, k <> none32 -> s_reg s <> Some t -> member_element s i ->
  let e := match s_reg s with None => UnboundMember | Some _ => IllegalContextType end in
  (int_symbol s -> t_get_int h s i (XHost k t x) = Throw e /\ forall v, t_set_int h s v i (XHost k t x) = Throw e) /\
  (s_type s = T_FLOAT -> t_get_float h s i (XHost k t x) = Throw e /\ forall v, t_set_float h s v i (XHost k t x) = Throw e) /\
  (s_type s = T_STRING -> t_get_string h s i (XHost k t x) = Throw e /\ forall v, t_set_string h s v i (XHost k t x) = Throw e).
Proof. exact bound. Qed.
Print Assumptions C142_bound.

(** A host that logs what it is given keeps it. *)
Theorem C142_example_host : keeps log_host.
Proof. exact log_keeps. Qed.
Print Assumptions C142_example_host.
Definition demo_member (name : bytes) (type count : N) : sym :=
  mkSym name (SInts []) none32 none32 0 count type F_MEMBER false [0; 0; 0; 0; 0] none32 none32 T_VOID None.
Definition demo_stores : list store :=
  [PutFloat (demo_member (lit "C.F") T_FLOAT 400) 300 7; PutInt (demo_member (lit "C.I") T_INT 2) 1 5;
   PutFloat (demo_member (lit "C.F") T_FLOAT 400) 44 8; PutInt (demo_member (lit "C.I") T_INT 2) 1 6].
Example C142_example :
  Forall proper demo_stores /\
  exists c, puts log_host demo_stores (transient log_host []) = Ret c /\
    t_get_float log_host (demo_member (lit "C.F") T_FLOAT 400) 300 c = Ret 7 /\
    t_get_float log_host (demo_member (lit "C.F") T_FLOAT 400) 44 c = Ret 8 /\
    t_get_int log_host (demo_member (lit "C.I") T_INT 2) 1 c = Ret 6%Z /\
    t_get_int log_host (demo_member (lit "C.I") T_INT 2) 2 c = Throw IllegalIndexAccess /\
    t_get_int log_host (demo_member (lit "C.I") T_INT 2) 1 (XHost 5 9 []) = Throw UnboundMember.
Proof.
  split.
  - unfold demo_stores. repeat (apply Forall_cons; [cbn; unfold int_symbol, member_element; cbn; intuition lia |]). apply Forall_nil.
  - eexists. split; [vm_compute; reflexivity |]. vm_compute. repeat (split; [reflexivity |]). reflexivity.
Qed.
