(** Lemmas for creating script instances. *)

From Coq Require Import Lia ZifyN ZifyBool ZifyNat.
From Verif Require Import MBase MStream MDaedalus MVm SVm SInst LBase LVm LVmLocals.
Local Open Scope N_scope.
Local Open Scope v_scope.

Lemma nth_set_same {A} (l : list A) n x y : nth_N l n = Some y -> nth_N (set_N l n x) n = Some x.
Proof. intros H. apply nth_N_lt in H. rewrite nth_set_N, N.eqb_refl. replace (n <? len l) with true by lia. reflexivity. Qed.
Lemma nth_set_other {A} (l : list A) n m x : m <> n -> nth_N (set_N l n x) m = nth_N l m.
Proof. intros H. rewrite nth_set_N. replace (m =? n) with false by lia. reflexivity. Qed.

Lemma class_of_above n l i c : class_of n l i = Ret (Some c) -> class_above l i c.
Proof.
  revert i. induction n as [|n IH]; intros i; cbn [class_of]; [discriminate|].
  destruct (nth_N l i) as [x|] eqn:X; [|discriminate].
  destruct (N.eqb_spec (s_type x) T_CLASS) as [E|E].
  - intros [= <-]. exact (above_here l i x X E).
  - intros H. exact (above_parent l i x c X E (IH _ H)).
Qed.
Lemma above_class_of l i c : class_above l i c -> exists n, forall k, (n <= k)%nat -> class_of k l i = Ret (Some c).
Proof.
  induction 1 as [i x X E|i x c X E H IH].
  - exists 1%nat. intros [|k] Hk; [lia|]. cbn [class_of]. rewrite X. destruct (N.eqb_spec (s_type x) T_CLASS); [reflexivity|contradiction].
  - destruct IH as [n IH]. exists (S n). intros [|k] Hk; [lia|]. cbn [class_of]. rewrite X.
    destruct (N.eqb_spec (s_type x) T_CLASS); [contradiction|]. apply IH. lia.
Qed.

Lemma wr_inst_bound i v s s' : wr_inst i v s = VRet tt s' <->
  exists x w, nth_N (v_syms s) i = Some x /\ s_type x = T_INSTANCE /\ s_val x = SInst w /\
    s' = set_syms (set_N (v_syms s) i (with_val x (SInst v))) s.
Proof.
  unfold wr_inst, vbind, the_sym, vlift, put_sym, vmod, sym_set_inst.
  destruct (nth_N (v_syms s) i) as [x|] eqn:X.
  - destruct (N.eqb_spec (s_type x) T_INSTANCE) as [E|E]; cbn [negb].
    + destruct (s_val x) as [?|?|?|w] eqn:W; (split; [try discriminate|intros (y & w' & [= <-] & _ & K & ->); congruence]).
      intros [= <-]. exists x, w. auto.
    + split; [discriminate|]. intros (y & w & [= <-] & K & _). congruence.
  - split; [discriminate|]. intros (y & w & K & _). congruence.
Qed.
Lemma rd_inst_bound i v s : rd_inst i s = VRet v s <-> bound s i v.
Proof.
  unfold rd_inst, vbind, the_sym, vlift, sym_get_inst, bound.
  destruct (nth_N (v_syms s) i) as [x|] eqn:X.
  - destruct (N.eqb_spec (s_type x) T_INSTANCE) as [E|E]; cbn [negb].
    + destruct (s_val x) as [?|?|?|w] eqn:W; (split; [try discriminate|intros (y & [= <-] & _ & K); congruence]).
      intros [= <-]. exists x. auto.
    + split; [discriminate|]. intros (y & [= <-] & K & _). congruence.
  - split; [discriminate|]. intros (y & K & _). congruence.
Qed.
Lemma rd_inst_state i v s s' : rd_inst i s = VRet v s' -> s' = s.
Proof.
  unfold rd_inst, vbind, the_sym, vlift. destruct (nth_N (v_syms s) i); [|discriminate]. destruct (sym_get_inst _); try discriminate. intros [= _ <-]. reflexivity.
Qed.

Lemma bound_after i v w s x : nth_N (v_syms s) i = Some x -> s_type x = T_INSTANCE ->
  bound (set_syms (set_N (v_syms s) i (with_val x (SInst v))) s) i w <-> w = v.
Proof.
  intros X E. unfold bound. cbn [v_syms set_syms]. rewrite (nth_set_same _ _ _ _ X). split.
  - intros (y & [= <-] & _ & [= ->]). reflexivity.
  - intros ->. eexists. split; [reflexivity|]. split; [exact E|reflexivity].
Qed.
Lemma bound_other i j v w s x : i <> j ->
  bound (set_syms (set_N (v_syms s) i (with_val x (SInst v))) s) j w <-> bound s j w.
Proof.
  intros D. unfold bound. cbn [v_syms set_syms]. rewrite nth_set_other by congruence. reflexivity.
Qed.

Lemma allocate_iff fuel t n f s s' : allocate_instance fuel t n (Some f) s = VRet tt s' ->
  exists x o c y, nth_N (v_syms s) f = Some x /\ s_type x = T_INSTANCE /\ class_above (v_syms s) (s_parent x) c /\
    nth_N (v_syms s) c = Some y /\ s_reg y = Some t /\ nth_N (v_heap s) n = Some o /\
    s' = set_syms (set_N (v_syms s) f (with_val x (SInst (Some n)))) (set_heap (set_N (v_heap s) n (mkInst f (Some t) (n_size o) (n_mem o))) s).
Proof.
  unfold allocate_instance. unfold vbind at 1. unfold the_sym at 1. destruct (nth_N (v_syms s) f) as [x|] eqn:X; [|discriminate].
  destruct (N.eqb_spec (s_type x) T_INSTANCE) as [E|E]; cbn [negb]; [|discriminate].
  unfold vbind at 1. unfold vget. destruct (nth_N (v_syms s) (s_parent x)) as [p|] eqn:P; [|discriminate].
  unfold vbind at 1. unfold vlift at 1. destruct (class_of fuel (v_syms s) (s_parent x)) as [[c|]| | |] eqn:C; try discriminate.
  unfold vbind at 1. unfold the_sym at 1. destruct (nth_N (v_syms s) c) as [y|] eqn:Y; [|discriminate].
  destruct (s_reg y) as [r|] eqn:R; [|discriminate]. destruct (N.eqb_spec r t) as [->|]; cbn [negb]; [|discriminate].
  unfold vbind at 1. unfold the_ctx. destruct (nth_N (v_heap s) n) as [o|] eqn:O; [|discriminate].
  unfold put_ctx. unfold vbind at 1. unfold vmod at 1. intros H. apply wr_inst_bound in H. cbn [v_syms set_heap] in H.
  destruct H as (x' & w & X' & _ & _ & ->). rewrite X in X'. injection X' as <-.
  exists x, o, c, y. repeat split; try assumption. exact (class_of_above _ _ _ _ C).
Qed.

Lemma allocate_bound fuel t n f s s' : allocate_instance fuel t n (Some f) s = VRet tt s' ->
  made_as s f t /\ bound s' f (Some n) /\
  (exists o, nth_N (v_heap s) n = Some o /\ nth_N (v_heap s') n = Some (mkInst f (Some t) (n_size o) (n_mem o))) /\
  rest_same f n s s'.
Proof.
  intros H. apply allocate_iff in H. destruct H as (x & o & c & y & X & E & C & Y & R & O & ->). split; [|split; [|split]].
  - exists x, c, y. auto.
  - apply (bound_after f (Some n) (Some n) (set_heap _ s) x); [exact X|exact E|reflexivity].
  - exists o. split; [exact O|]. cbn [v_heap set_syms set_heap]. rewrite (nth_set_same _ _ _ _ O). reflexivity.
  - unfold rest_same. cbn [v_heap v_syms v_inst v_pc v_calls v_sp v_slots v_glob set_syms set_heap]. repeat split; intros j D; apply nth_set_other, D.
Qed.

(** When it succeeds. *)
Lemma allocate_succeeds t n f s o : made_as s f t -> (exists v, bound s f v) -> nth_N (v_heap s) n = Some o ->
  exists k, forall fuel, (k <= fuel)%nat -> exists s', allocate_instance fuel t n (Some f) s = VRet tt s'.
Proof.
  intros (x & c & y & X & E & C & Y & R) (v & x' & X' & _ & W) O. rewrite X in X'. injection X' as <-.
  destruct (above_class_of _ _ _ C) as [k K]. exists k. intros fuel Hf.
  eexists. unfold allocate_instance. unfold vbind at 1. unfold the_sym at 1. rewrite X, E. cbn [negb N.eqb T_INSTANCE Pos.eqb].
  unfold vbind at 1. unfold vget.
  assert (P : exists p, nth_N (v_syms s) (s_parent x) = Some p) by (destruct C; eauto). destruct P as [p ->].
  unfold vbind at 1. unfold vlift at 1. rewrite (K fuel Hf). unfold vbind at 1. unfold the_sym at 1. rewrite Y, R, N.eqb_refl. cbn [negb].
  unfold vbind at 1. unfold the_ctx. rewrite O. unfold put_ctx. unfold vbind at 1. unfold vmod at 1.
  apply wr_inst_bound. exists x, v. cbn [v_syms set_heap]. repeat split; assumption.
Qed.

(** What is refused changes nothing. *)
Lemma allocate_refused fuel t n s : allocate_instance fuel t n None s = VExc VmException s /\
  (forall f x, nth_N (v_syms s) f = Some x -> s_type x <> T_INSTANCE -> allocate_instance fuel t n (Some f) s = VExc VmException s) /\
  (forall f x, nth_N (v_syms s) f = Some x -> s_type x = T_INSTANCE -> nth_N (v_syms s) (s_parent x) = None ->
     allocate_instance fuel t n (Some f) s = VExc VmException s) /\
  (forall f r, made_as s f r -> r <> t -> allocate_instance fuel t n (Some f) s = VExc VmException s \/ allocate_instance fuel t n (Some f) s = VFuel).
Proof.
  split; [reflexivity|split; [|split]].
  - intros f x X E. unfold allocate_instance, vbind, the_sym. rewrite X. replace (s_type x =? T_INSTANCE) with false by lia. reflexivity.
  - intros f x X E P. unfold allocate_instance, vbind, the_sym, vget. rewrite X, E. change (negb (T_INSTANCE =? T_INSTANCE)) with false. cbv beta iota. rewrite P. reflexivity.
  - intros f r (x & c & y & X & E & C & Y & R) D. enough (K : forall z, allocate_instance fuel t n (Some f) s = z -> z = VExc VmException s \/ z = VFuel) by (apply K; reflexivity).
    intros z. unfold allocate_instance. unfold vbind at 1. unfold the_sym at 1. rewrite X, E. cbn [negb N.eqb T_INSTANCE Pos.eqb].
    unfold vbind, vget. assert (P : exists p, nth_N (v_syms s) (s_parent x) = Some p) by (destruct C; eauto). destruct P as [p ->].
    unfold vlift at 1. destruct (class_of fuel (v_syms s) (s_parent x)) as [[d|]|e| |] eqn:K; [| | | |intros <-; right; reflexivity].
    + assert (d = c) as ->.
      { apply class_of_above in K. clear - C K. induction C as [i z Z Ez|i z c Z Ez C IH]; inversion K as [i' z' Z' Ez' Q|i' z' c' Z' Ez' C']; subst; rewrite Z in Z'; injection Z' as <-; try congruence. apply IH. exact C'. }
      unfold the_sym. rewrite Y, R. replace (r =? t) with false by lia. intros <-. left. reflexivity.
    + exfalso. destruct (above_class_of _ _ _ C) as [k Hk]. clear - K Hk.
      assert (M : forall a b i v, class_of a (v_syms s) i = Ret v -> (a <= b)%nat -> class_of b (v_syms s) i = Ret v).
      { induction a as [|a IH]; intros b i v; [discriminate|]. destruct b as [|b]; [lia|]. cbn [class_of]. destruct (nth_N (v_syms s) i) as [z|]; [|auto].
        destruct (s_type z =? T_CLASS); [auto|]. intros; apply IH; [assumption|lia]. }
      specialize (Hk (Nat.max k fuel) ltac:(lia)). rewrite (M fuel (Nat.max k fuel) _ _ K) in Hk by lia. discriminate.
    + exfalso. clear - K. revert K. generalize (s_parent x). induction fuel as [|n IH]; intros i; cbn [class_of]; [discriminate|].
      destruct (nth_N (v_syms s) i) as [z|]; [|discriminate]. destruct (s_type z =? T_CLASS); [discriminate|apply IH].
    + exfalso. clear - K. revert K. generalize (s_parent x). induction fuel as [|n IH]; intros i; cbn [class_of]; [discriminate|].
      destruct (nth_N (v_syms s) i) as [z|]; [|discriminate]. destruct (s_type z =? T_CLASS); [discriminate|apply IH].
Qed.

(** Running the constructor. *)
Lemma init_ran fuel h t n f s s' : init_instance fuel h t n (Some f) s = VRet tt s' ->
  exists s0 s1 s2, allocate_instance fuel t n (Some f) s = VRet tt s0 /\
    v_inst s1 = Some n /\ bound s1 f (Some n) /\ (forall k, self_of s = Some k -> bound s1 k (Some n)) /\
    (forall j, j <> f -> self_of s <> Some j -> nth_N (v_syms s1) j = nth_N (v_syms s) j) /\
    unsafe_call fuel h f s1 = VRet tt s2 /\
    v_inst s' = v_inst s /\
    (forall k v, self_of s = Some k -> k <> f -> bound s k v -> bound s' k v) /\
    (forall j, self_of s <> Some j -> nth_N (v_syms s') j = nth_N (v_syms s2) j) /\
    v_heap s' = v_heap s2 /\ v_pc s' = v_pc s2 /\ v_calls s' = v_calls s2 /\ v_sp s' = v_sp s2 /\ v_slots s' = v_slots s2.
Proof.
  unfold init_instance. unfold vbind at 1. destruct (allocate_instance fuel t n (Some f) s) as [[] s0| | |] eqn:A; try discriminate.
  destruct (allocate_iff _ _ _ _ _ _ A) as (x & o & c & y & X & E & C & Y & R & O & S0).
  destruct (allocate_bound _ _ _ _ _ _ A) as (_ & B & _ & (Rs & _ & Ri & _ & _ & _ & _ & Rg)).
  unfold vbind at 1. unfold vget. unfold self_of. rewrite Rg. unfold vbind at 1.
  destruct (nth 1 (v_glob s) None) as [k|] eqn:K.
  - destruct (rd_inst k s0) as [old s0'| | |] eqn:D; try discriminate. pose proof (rd_inst_state _ _ _ _ D). subst s0'.
    apply rd_inst_bound in D. unfold vbind at 1. unfold vmod at 1. unfold vbind at 1.
    destruct (wr_inst k (Some n) (set_inst (Some n) s0)) as [[] s1| | |] eqn:W; try discriminate.
    apply wr_inst_bound in W. destruct W as (z & w & Z & Zt & Zv & W). cbn [v_syms set_inst] in Z.
    unfold vbind at 1. destruct (unsafe_call fuel h f s1) as [[] s2| | |] eqn:U; try discriminate.
    unfold vbind at 1. unfold vmod at 1. intros F. apply wr_inst_bound in F. destruct F as (z2 & w2 & Z2 & Zt2 & Zv2 & F). cbn [v_syms set_inst] in Z2.
    exists s0, s1, s2. split; [reflexivity|].
    assert (Bk : bound s1 k (Some n)) by (subst s1; apply (bound_after k (Some n) (Some n) (set_inst (Some n) s0) z Z Zt); reflexivity).
    split; [subst s1; reflexivity|]. split.
    { destruct (N.eq_dec k f) as [->|D1]; [exact Bk|]. subst s1. apply (bound_other k f (Some n) (Some n) (set_inst (Some n) s0) z D1). exact B. }
    split; [intros k' [= <-]; exact Bk|]. split.
    { intros j D1 D2. subst s1. cbn [v_syms set_syms set_inst]. rewrite nth_set_other by congruence. apply Rs. exact D1. }
    split; [exact U|]. subst s'. split; [cbn [v_inst set_syms set_inst]; exact Ri|]. split.
    { intros k' v [= <-] D1 Bs. apply (bound_after k old v (set_inst (v_inst s0) s2) z2 Z2 Zt2).
      destruct Bs as (a & A1 & A2 & A3), D as (b & B1 & B2 & B3). rewrite (Rs k D1), A1 in B1. injection B1 as <-. congruence. }
    split; [|repeat split; reflexivity].
    intros j D1. cbn [v_syms set_syms set_inst]. rewrite nth_set_other by congruence. reflexivity.
  - unfold vret at 1. unfold vbind at 1. unfold vmod at 1. unfold vbind at 1. unfold vret at 1. unfold vbind at 1.
    destruct (unsafe_call fuel h f (set_inst (Some n) s0)) as [[] s2| | |] eqn:U; try discriminate.
    unfold vbind, vmod, vret. intros [= <-]. exists s0, (set_inst (Some n) s0), s2. split; [reflexivity|].
    split; [reflexivity|]. split; [exact B|]. split; [discriminate|]. split; [intros j D1 _; apply Rs, D1|]. split; [exact U|].
    split; [exact Ri|]. split; [discriminate|]. repeat split; reflexivity.
Qed.

(** A constructor that throws. *)
Lemma init_threw fuel h t n f s s0 s1 e s2 k : allocate_instance fuel t n (Some f) s = VRet tt s0 -> self_of s = Some k ->
  (exists v, bound s0 k v) -> wr_inst k (Some n) (set_inst (Some n) s0) = VRet tt s1 -> unsafe_call fuel h f s1 = VExc e s2 ->
  init_instance fuel h t n (Some f) s = VExc e s2.
Proof.
  intros A K (v & D) W U. pose proof (allocate_bound _ _ _ _ _ _ A) as (_ & _ & _ & (_ & _ & _ & _ & _ & _ & _ & Rg)).
  unfold init_instance. unfold vbind at 1. rewrite A. unfold vbind at 1. unfold vget. unfold self_of in K. rewrite Rg, K.
  apply rd_inst_bound in D. unfold vbind at 1. rewrite D. unfold vbind at 1. unfold vmod at 1. unfold vbind at 1. rewrite W. unfold vbind at 1. rewrite U. reflexivity.
Qed.

(** Nobody looks whether the class is registered, or whether there is one. *)
Lemma unregistered t n f s x c y : nth_N (v_syms s) f = Some x -> s_type x = T_INSTANCE ->
  class_above (v_syms s) (s_parent x) c -> nth_N (v_syms s) c = Some y -> s_reg y = None ->
  exists k, forall fuel, (k <= fuel)%nat -> allocate_instance fuel t n (Some f) s = VUndef NullPtr s.
Proof.
  intros X E C Y R. destruct (above_class_of _ _ _ C) as [k K]. exists k. intros fuel Hf.
  unfold allocate_instance. unfold vbind at 1. unfold the_sym at 1. rewrite X, E. cbn [negb N.eqb T_INSTANCE Pos.eqb].
  unfold vbind at 1. unfold vget.
  assert (P : exists p, nth_N (v_syms s) (s_parent x) = Some p) by (destruct C; eauto). destruct P as [p ->].
  unfold vbind at 1. unfold vlift at 1. rewrite (K fuel Hf). unfold vbind at 1. unfold the_sym at 1. rewrite Y, R. reflexivity.
Qed.
