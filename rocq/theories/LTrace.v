(** Stack traces. *)

From Coq Require Import Lia ZifyN ZifyBool ZifyNat.
From Verif Require Import MBase LBase MStream MDaedalus MVm SVm SSym LVm LVmCall LVmRun LVmExact LVmApi LSym LDaedalus LVmOps LVmProps STrace.
Local Open Scope N_scope.
Local Open Scope v_scope.

Lemma trace_silent s : match print_stack_trace s with VRet _ s' | VExc _ s' | VUndef _ s' => s' = s | VFuel => True end.
Proof. pose proof (trace_spec s) as T. destruct (print_stack_trace s); auto. apply T. Qed.

(** Looking computations return in the state they started in. *)
Lemma looks_bind_iff {A} (m : V A) (k : A -> V unit) s : looks m ->
  (vbind m k s = VRet tt s <-> exists a, m s = VRet a s /\ k a s = VRet tt s).
Proof.
  intros L. specialize (L s). unfold vbind. destruct (m s) as [a s1|e s1|u s1|].
  - subst. split; [intros H; exists a; auto|]. intros (b & H & K). injection H as <-. exact K.
  - split; [discriminate|]. intros (b & H & _). discriminate.
  - split; [discriminate|]. intros (b & H & _). discriminate.
  - split; [discriminate|]. intros (b & H & _). discriminate.
Qed.
Lemma looks_iter_iff {A} (f : A -> V unit) l s : (forall a, looks (f a)) ->
  (viter f l s = VRet tt s <-> forall a, In a l -> f a s = VRet tt s).
Proof.
  intros L. induction l as [|a l IH]; cbn [viter].
  - split; [intros _ b []|reflexivity].
  - rewrite looks_bind_iff by apply L. split.
    + intros ([] & H & K) b [<-|I]; [exact H|]. apply (proj1 IH K), I.
    + intros H. exists tt. split; [apply H; left; reflexivity|]. apply IH. intros b I. apply H. right. exact I.
Qed.
Lemma the_sym_iff i s : (exists x, the_sym i s = VRet x s) <-> exists x, nth_N (v_syms s) i = Some x.
Proof. unfold the_sym. destruct (nth_N (v_syms s) i); split; intros (y & H); try discriminate; eauto. Qed.
Lemma then_unit {A} (m : V A) s : looks m -> ((m ;! vret tt) s = VRet tt s <-> exists a, m s = VRet a s).
Proof. intros L. rewrite looks_bind_iff by exact L. split; intros (a & H); [exists a; apply H|exists a; split; [exact H|reflexivity]]. Qed.
Lemma named_iff c s : trace_inst c s = VRet tt s <-> named s c.
Proof.
  unfold trace_inst. rewrite looks_bind_iff by apply looks_ctx. unfold the_ctx, named. destruct c as [k|].
  - destruct (nth_N (v_heap s) k) as [n|] eqn:E.
    + split.
      * intros (a & H & K). injection H as <-. exists n. split; [reflexivity|]. destruct (n_sym n =? none32) eqn:Q; [left; apply N.eqb_eq, Q|right].
        apply then_unit in K; [|apply looks_sym]. apply the_sym_iff, K.
      * intros (m & H & K). injection H as <-. exists (Some n). split; [reflexivity|]. destruct (n_sym n =? none32) eqn:Q; [reflexivity|].
        apply N.eqb_neq in Q. destruct K as [K|K]; [contradiction|]. apply then_unit; [apply looks_sym|]. apply the_sym_iff, K.
    + split; [intros (a & H & _); discriminate|intros (n & H & _); discriminate].
  - split; [auto|]. intros _. exists None. split; reflexivity.
Qed.
Lemma typed_iff c s : (let! n := the_ctx c in
      match n with Some n => (match n_type n with Some _ => vret tt | None => vundef NullPtr end) | None => vret tt end) s = VRet tt s <-> typed s c.
Proof.
  rewrite looks_bind_iff by apply looks_ctx. unfold the_ctx, typed. destruct c as [k|].
  - destruct (nth_N (v_heap s) k) as [n|] eqn:E.
    + split.
      * intros (a & H & K). injection H as <-. destruct (n_type n) as [t|] eqn:T; [|discriminate]. exists n, t. auto.
      * intros (m & t & H & K). injection H as <-. exists (Some n). split; [reflexivity|]. rewrite K. reflexivity.
    + split; [intros (a & H & _); discriminate|intros (n & t & H & _); discriminate].
  - split; [auto|]. intros _. exists None. split; reflexivity.
Qed.
Lemma looks_rd_int i idx c : looks (rd_int i idx c). Proof. unfold rd_int. lookss. Qed.
Lemma looks_rd_float i idx c : looks (rd_float i idx c). Proof. unfold rd_float. lookss. Qed.
Lemma looks_rd_string i idx c : looks (rd_string i idx c). Proof. unfold rd_string. lookss. Qed.
Lemma looks_rd_inst i : looks (rd_inst i). Proof. unfold rd_inst. lookss. Qed.
Lemma read_iff k i idx c s : (exists v, read_el k i idx c s = VRet v s) <->
  match k with KInt => exists v, rd_int i idx c s = VRet v s | KFlt => exists v, rd_float i idx c s = VRet v s | KStr => exists v, rd_string i idx c s = VRet v s end.
Proof.
  destruct k; unfold read_el, vbind, vret.
  - destruct (rd_int i idx c s); split; intros (v & H); try discriminate; injection H; intros; subst; eauto.
  - destruct (rd_float i idx c s); split; intros (v & H); try discriminate; injection H; intros; subst; eauto.
  - destruct (rd_string i idx c s); split; intros (v & H); try discriminate; injection H; intros; subst; eauto.
Qed.

Ltac other := repeat split; intros T; try (rewrite T in *; discriminate).
Lemma shown_iff f s : trace_frame f s = VRet tt s <-> shown s f.
Proof.
  unfold trace_frame. rewrite vbind_get. unfold shown. destruct (f_ref f).
  2:{ destruct (f_val f); try (split; [auto|reflexivity]). apply typed_iff. }
  unfold as_sym. destruct (f_val f) as [z|b|i|c] eqn:V;
    try (split; [intros H; discriminate|intros (i & x & H & _); discriminate]).
  unfold vbind at 1, vret at 1. rewrite looks_bind_iff by apply looks_sym.
  assert (E : (exists a, the_sym i s = VRet a s /\
      (if s_type a =? T_FLOAT then rd_float i (f_idx f) (v_inst s) ;! vret tt
       else if s_type a =? T_INT then rd_int i (f_idx f) (v_inst s) ;! vret tt
       else if s_type a =? T_STRING then rd_string i (f_idx f) (v_inst s) ;! vret tt
       else if s_type a =? T_FUNCTION then let! v := rd_int i (f_idx f) (v_inst s) in the_sym (uint 32 v) ;! vret tt
       else if s_type a =? T_INSTANCE then
         let! n := rd_inst i in let! n := the_ctx n in
         match n with Some n => (match n_type n with Some _ => vret tt | None => vundef NullPtr end) | None => vret tt end
       else vret tt) s = VRet tt s) <-> exists x, nth_N (v_syms s) i = Some x /\ shown_symbol s i (f_idx f) x).
  2:{ etransitivity; [exact E|]. split; [intros (x & H); exists i, x; auto|]. intros (j & x & J & H). injection J as ->. exists x. exact H. }
  assert (D : forall x, (if s_type x =? T_FLOAT then rd_float i (f_idx f) (v_inst s) ;! vret tt
       else if s_type x =? T_INT then rd_int i (f_idx f) (v_inst s) ;! vret tt
       else if s_type x =? T_STRING then rd_string i (f_idx f) (v_inst s) ;! vret tt
       else if s_type x =? T_FUNCTION then let! v := rd_int i (f_idx f) (v_inst s) in the_sym (uint 32 v) ;! vret tt
       else if s_type x =? T_INSTANCE then
         let! n := rd_inst i in let! n := the_ctx n in
         match n with Some n => (match n_type n with Some _ => vret tt | None => vundef NullPtr end) | None => vret tt end
       else vret tt) s = VRet tt s <-> shown_symbol s i (f_idx f) x).
  { intros x. unfold shown_symbol.
    destruct (s_type x =? T_FLOAT) eqn:T1.
    { apply N.eqb_eq in T1. rewrite then_unit by apply looks_rd_float. rewrite <- (read_iff KFlt). split; [intros H; other; exact H|intros (H & _); apply H, T1]. }
    apply N.eqb_neq in T1. destruct (s_type x =? T_INT) eqn:T2.
    { apply N.eqb_eq in T2. rewrite then_unit by apply looks_rd_int. rewrite <- (read_iff KInt). split; [intros H; other; exact H|intros (_ & H & _); apply H, T2]. }
    apply N.eqb_neq in T2. destruct (s_type x =? T_STRING) eqn:T3.
    { apply N.eqb_eq in T3. rewrite then_unit by apply looks_rd_string. rewrite <- (read_iff KStr). split; [intros H; other; exact H|intros (_ & _ & H & _); apply H, T3]. }
    apply N.eqb_neq in T3. destruct (s_type x =? T_FUNCTION) eqn:T4.
    { apply N.eqb_eq in T4. rewrite looks_bind_iff by apply looks_rd_int. split.
      - intros (z & H & K). apply then_unit in K; [|apply looks_sym]. apply the_sym_iff in K as (y & K). other. exists z, y. auto.
      - intros (_ & _ & _ & H & _). destruct (H T4) as (z & y & R & Y). exists z. split; [exact R|]. apply then_unit; [apply looks_sym|]. apply the_sym_iff. eauto. }
    apply N.eqb_neq in T4. destruct (s_type x =? T_INSTANCE) eqn:T5.
    { apply N.eqb_eq in T5. rewrite looks_bind_iff by apply looks_rd_inst. split.
      - intros (c & H & K). apply typed_iff in K. other. exists c. auto.
      - intros (_ & _ & _ & _ & H). destruct (H T5) as (c & R & Y). exists c. split; [exact R|]. apply typed_iff, Y. }
    apply N.eqb_neq in T5. split; [intros _; repeat split; intros; contradiction|reflexivity]. }
  unfold the_sym. destruct (nth_N (v_syms s) i) as [x|]; [|split; intros (y & H & _); discriminate].
  split; intros (y & H & K); injection H as <-; exists x; (split; [reflexivity|apply D, K]).
Qed.
Lemma slots_iff s l : (viter (fun k => let! f := slot k in trace_frame f) l s = VRet tt s) <->
  forall k, In k l -> k < stack_size /\ exists f, v_slots s k = Some f /\ shown s f.
Proof.
  induction l as [|k l IH]; cbn [viter].
  - split; [intros _ k []|reflexivity].
  - unfold vbind at 1, vbind at 1, slot. destruct (stack_size <=? k) eqn:E.
    { split; [discriminate|]. intros H. destruct (H k (or_introl eq_refl)) as [L _]. apply N.leb_le in E. lia. }
    apply N.leb_gt in E. destruct (v_slots s k) as [f|] eqn:F.
    2:{ split; [discriminate|]. intros H. destruct (H k (or_introl eq_refl)) as [_ (f & G & _)]. congruence. }
    pose proof (looks_trace_frame f s) as L. pose proof (shown_iff f s) as Q. destruct (trace_frame f s) as [[] s1|e s1|u s1|].
    + subst. rewrite IH. split.
      * intros H j [<-|J]; [|auto]. split; [exact E|]. exists f. split; [exact F|]. apply Q. reflexivity.
      * intros H j J. apply H. right. exact J.
    + split; [discriminate|]. intros H. destruct (H k (or_introl eq_refl)) as [_ (g & G & S)]. assert (g = f) by congruence. subst. apply Q in S. discriminate.
    + split; [discriminate|]. intros H. destruct (H k (or_introl eq_refl)) as [_ (g & G & S)]. assert (g = f) by congruence. subst. apply Q in S. discriminate.
    + split; [discriminate|]. intros H. destruct (H k (or_introl eq_refl)) as [_ (g & G & S)]. assert (g = f) by congruence. subst. apply Q in S. discriminate.
Qed.
Lemma trace_iff s : print_stack_trace s = VRet tt s <-> traceable s.
Proof.
  unfold print_stack_trace. rewrite vbind_get. unfold traceable.
  assert (L1 : forall c, looks (the_sym (c_fun c) ;! vret tt)) by (intros c; apply looks_bind; [apply looks_sym|intros; apply looks_ret]).
  rewrite looks_bind_iff by (apply looks_iter, L1). 
  assert (A : (exists a, viter (fun c => the_sym (c_fun c) ;! vret tt) (v_calls s) s = VRet a s) <-> forall c, In c (v_calls s) -> exists x, nth_N (v_syms s) (c_fun c) = Some x).
  { transitivity (viter (fun c => the_sym (c_fun c) ;! vret tt) (v_calls s) s = VRet tt s); [split; [intros ([] & H); exact H|intros H; exists tt; exact H]|].
    rewrite looks_iter_iff by exact L1. split; intros H c C; specialize (H c C); [apply the_sym_iff; apply then_unit in H; [exact H|apply looks_sym]|apply then_unit; [apply looks_sym|apply the_sym_iff, H]]. }
  assert (B : (viter trace_glob (v_glob s) ;! trace_inst (v_inst s)) s = VRet tt s <->
    (forall i, In (Some i) (v_glob s) -> exists c, rd_inst i s = VRet c s /\ named s c) /\ named s (v_inst s)).
  { rewrite looks_bind_iff by (apply looks_iter, looks_trace_glob). rewrite <- named_iff.
    assert (G : (forall g, In g (v_glob s) -> trace_glob g s = VRet tt s) <-> forall i, In (Some i) (v_glob s) -> exists c, rd_inst i s = VRet c s /\ named s c).
    { split.
      - intros H i I. specialize (H _ I). unfold trace_glob in H. apply looks_bind_iff in H; [|apply looks_rd_inst]. destruct H as (c & R & T). exists c. split; [exact R|apply named_iff, T].
      - intros H [i|] I; [|reflexivity]. destruct (H i I) as (c & R & T). unfold trace_glob. apply looks_bind_iff; [apply looks_rd_inst|]. exists c. split; [exact R|apply named_iff, T]. }
    rewrite <- G, <- (looks_iter_iff _ _ _ looks_trace_glob). split; [intros ([] & H); exact H|intros H; exists tt; exact H]. }
  assert (C : (viter (fun k => let! f := slot k in trace_frame f) (rev (upto (v_sp s))) s = VRet tt s) <->
    forall k, k < v_sp s -> k < stack_size /\ exists f, v_slots s k = Some f /\ shown s f).
  { rewrite slots_iff. split; intros H k K; apply H; [apply -> in_rev; apply in_upto, K|apply in_upto, in_rev, K]. }
  pose proof (trace_slots (rev (upto (v_sp s))) s) as TS.
  split.
  - intros (a & H & K). split; [apply A; exists a; exact H|]. unfold vbind at 1 in K.
    match type of K with match ?m with _ => _ end = _ => change m with (viter (fun k => let! f := slot k in trace_frame f) (rev (upto (v_sp s))) s) in K end.
    destruct (viter (fun k => let! f := slot k in trace_frame f) (rev (upto (v_sp s))) s) as [[] s1|e s1|u s1|]; try discriminate.
    assert (E : s1 = s) by (apply TS; intros k Hk; apply in_rev, in_upto in Hk; exact Hk). subst s1.
    split; [apply C; reflexivity|]. apply B, K.
  - intros (H1 & H2 & H3). apply A in H1 as (a & H1). exists a. split; [exact H1|]. unfold vbind at 1.
    match goal with |- match ?m with _ => _ end = _ => change m with (viter (fun k => let! f := slot k in trace_frame f) (rev (upto (v_sp s))) s) end.
    rewrite (proj2 C H2). apply B, H3.
Qed.
Lemma trace_error h call s i s1 e s2 :
  fetch s = VRet i s1 -> step h call i s1 = VExc e s2 -> is_script_error e = true -> h_handler h = None -> traceable s2 -> exec h call s = VExc e s2.
Proof. intros F S E H T. eapply exec_unhandled; eauto. apply trace_iff, T. Qed.
