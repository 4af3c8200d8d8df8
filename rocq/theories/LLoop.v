(** Scripts that cannot loop end. *)

From Coq Require Import ZArith Lia.
From Verif Require Import MBase LBase MStream MDaedalus MVm SVm LVm LVmCall LVmRun SLoop.
Local Open Scope N_scope.
Local Open Scope v_scope.

Lemma un_refl s : undisturbed s s.
Proof. constructor; reflexivity. Qed.
Lemma un_trans a b c : undisturbed a b -> undisturbed b c -> undisturbed a c.
Proof. intros [] []. constructor; congruence. Qed.

Notation quietly := ends_quietly.
Lemma q_ret {A} (a : A) : quietly (vret a). Proof. intro s. apply un_refl. Qed.
Lemma q_throw {A} e : quietly (@vthrow A e). Proof. intro s. exact I. Qed.
Lemma q_undef {A} k : quietly (@vundef A k). Proof. intro s. exact I. Qed.
Lemma q_get : quietly vget. Proof. intro s. apply un_refl. Qed.
Lemma q_mod f : (forall s, undisturbed s (f s)) -> quietly (vmod f). Proof. intros H s. apply H. Qed.
Lemma q_bind {A B} (m : V A) (k : A -> V B) : quietly m -> (forall a, quietly (k a)) -> quietly (vbind m k).
Proof.
  intros H1 H2 s. unfold vbind. specialize (H1 s). destruct (m s) as [a s1| | |]; auto.
  specialize (H2 a s1). destruct (k a s1); auto. eapply un_trans; eauto.
Qed.
Lemma q_iter {A} (f : A -> V unit) l : (forall a, quietly (f a)) -> quietly (viter f l).
Proof. intros H. induction l; cbn; [apply q_ret|]. apply q_bind; auto. Qed.
Lemma q_lift {A} (o : outcome A) : o <> Fuel -> quietly (vlift o).
Proof. intros H s. unfold vlift. destruct o; auto. apply un_refl. Qed.
Lemma q_sym i : quietly (the_sym i). Proof. intro s. unfold the_sym. destruct (nth_N _ _); auto. apply un_refl. Qed.
Lemma q_ctx c : quietly (the_ctx c).
Proof. intro s. unfold the_ctx. destruct c; [|apply un_refl]. destruct (nth_N _ _); auto. apply un_refl. Qed.
Lemma q_slot i : quietly (slot i).
Proof. intro s. unfold slot. destruct (_ <=? _); auto. destruct (v_slots s i); auto. apply un_refl. Qed.
Lemma q_push f : quietly (push_frame f).
Proof. intro s. unfold push_frame. destruct (_ =? _); auto. destruct (_ <=? _); auto. constructor; reflexivity. Qed.
Lemma q_empty : quietly is_empty. Proof. intro s. apply un_refl. Qed.

Ltac inner := repeat match goal with |- context [match ?b with _ => _ end] => lazymatch b with context [match _ with _ => _ end] => fail | _ => destruct b end end.
Lemma get_int_fuel x i c : sym_get_int x i c <> Fuel.
Proof.
  unfold sym_get_int, member_at, mem_word, obind. inner; discriminate.
Qed.
Lemma get_float_fuel x i c : sym_get_float x i c <> Fuel.
Proof.
  unfold sym_get_float, member_at, mem_word, obind. inner; discriminate.
Qed.
Lemma get_string_fuel x i c : sym_get_string x i c <> Fuel.
Proof.
  unfold sym_get_string, member_at, mem_str, obind. inner; discriminate.
Qed.
Lemma get_inst_fuel x : sym_get_inst x <> Fuel.
Proof. unfold sym_get_inst. destruct (negb _); [discriminate|]. destruct (s_val x); discriminate. Qed.

(** A setter ends and leaves the address. *)
Definition set_ok (o : outcome (sym * option inst)) (x : sym) : Prop :=
  match o with Ret r => s_addr (fst r) = s_addr x | Fuel => False | _ => True end.
Ltac sets := inner; cbn; auto.
Lemma set_int_ok x v i c : set_ok (sym_set_int x v i c) x.
Proof. unfold set_ok, sym_set_int, upd_cell, member_at, mem_set_word, obind. sets. Qed.
Lemma set_float_ok x v i c : set_ok (sym_set_float x v i c) x.
Proof. unfold set_ok, sym_set_float, upd_cell, member_at, mem_set_word, obind. sets. Qed.
Lemma set_string_ok x v i c : set_ok (sym_set_string x v i c) x.
Proof. unfold set_ok, sym_set_string, upd_cell, member_at, mem_set_str, obind. sets. Qed.

Lemma un_put s i x y : nth_N (v_syms s) i = Some x -> s_addr y = s_addr x -> undisturbed s (set_syms (set_N (v_syms s) i y) s).
Proof.
  intros E A. constructor; try reflexivity. intros j. cbn.
  rewrite nth_set_N. destruct (j =? i) eqn:Q; [|reflexivity]. apply N.eqb_eq in Q. subst j. rewrite E. cbn.
  rewrite (proj2 (N.ltb_lt _ _) (nth_N_lt _ _ _ E)). cbn. congruence.
Qed.
Lemma q_wr_sym i c f : (forall x n, set_ok (f x n) x) -> quietly (wr_sym i c f).
Proof.
  intros H s. unfold wr_sym, vbind, the_sym. destruct (nth_N (v_syms s) i) as [x|] eqn:E; auto.
  pose proof (q_ctx c s) as Q. unfold the_ctx in *. 
  assert (G : forall n, match match vlift (f x n) s with VRet a s' => match put_sym i (fst a) s' with VRet _ s'0 => put_ctx c (snd a) s'0 | VExc e s'0 => VExc e s'0 | VUndef u s'0 => VUndef u s'0 | VFuel => VFuel end
     | VExc e s' => VExc e s' | VUndef u s' => VUndef u s' | VFuel => VFuel end with VRet _ s' => undisturbed s s' | VFuel => False | _ => True end).
  { intros n. specialize (H x n). unfold vlift. destruct (f x n) as [r| | |]; cbn in H; auto. unfold put_sym, vmod.
    pose proof (un_put s i x (fst r) E H) as U. unfold put_ctx. destruct c as [k|]; [|exact U]. destruct (snd r); [|exact U].
    eapply un_trans; [exact U|]. constructor; reflexivity. }
  destruct c as [k|]; [destruct (nth_N (v_heap s) k); [|exact I]|]; apply G.
Qed.
Lemma q_wr_int i v x c : quietly (wr_int i v x c). Proof. apply q_wr_sym. intros. apply set_int_ok. Qed.
Lemma q_wr_float i v x c : quietly (wr_float i v x c). Proof. apply q_wr_sym. intros. apply set_float_ok. Qed.
Lemma q_wr_string i v x c : quietly (wr_string i v x c). Proof. apply q_wr_sym. intros. apply set_string_ok. Qed.
Lemma q_wr_inst i v : quietly (wr_inst i v).
Proof.
  intros s. unfold wr_inst, vbind, the_sym. destruct (nth_N (v_syms s) i) as [x|] eqn:E; auto. unfold vlift, sym_set_inst.
  destruct (negb _); auto. destruct (s_val x); auto. apply (un_put s i x); auto.
Qed.
Lemma grow_ok x n : match sym_grow x n with Ret y => s_addr y = s_addr x | Fuel => False | _ => True end.
Proof. unfold sym_grow. cbv zeta. destruct (s_val x); auto; destruct (_ && _); cbn; auto. Qed.

Ltac qs :=
  repeat first
    [ apply q_ret | apply q_throw | apply q_undef | apply q_get | apply q_sym | apply q_ctx | apply q_slot | apply q_push | apply q_empty
    | apply q_wr_int | apply q_wr_float | apply q_wr_string | apply q_wr_inst
    | (apply q_lift; first [apply get_int_fuel | apply get_float_fuel | apply get_string_fuel | apply get_inst_fuel])
    | (apply q_mod; intros; constructor; reflexivity)
    | (apply q_iter; intros) | (apply q_bind; [|intros])
    | match goal with |- quietly (if ?x then _ else _) => destruct x | |- quietly (match ?x with _ => _ end) => destruct x end ].

Lemma q_grow i (g : sym -> N) (F : sym -> sym -> vm -> vm) : (forall t t' s, undisturbed s (F t t' s)) ->
  quietly (let! t := the_sym i in let! t' := vlift (sym_grow t (g t)) in put_sym i t' ;! vmod (F t t')).
Proof.
  intros H s. unfold vbind, the_sym, vlift, put_sym, vmod. destruct (nth_N (v_syms s) i) as [t|] eqn:E; auto.
  pose proof (grow_ok t (g t)) as G. destruct (sym_grow t (g t)) as [t'| | |]; auto.
  eapply un_trans; [apply (un_put s i t t' E G)|apply H].
Qed.
Lemma q_get_free : quietly get_free_string.
Proof.
  unfold get_free_string. apply q_bind; [apply q_get|intros s]. apply q_bind; [|intros; qs].
  destruct (v_free s); [|apply q_ret]. cbv zeta.
  apply (q_grow (v_tmp s) (fun t => u32 (s_count t * 2))
    (fun t t' s => set_free (rev (map (fun k => s_count t + N.of_nat k) (seq 0 (N.to_nat (s_count t' - s_count t)))) ++ v_free s) s)).
  intros. constructor; reflexivity.
Qed.
Lemma q_push_string v : quietly (push_string v).
Proof. unfold push_string, push_reference. apply q_bind; [apply q_get_free|intros]. qs. Qed.
Lemma q_push_ref i x : quietly (push_reference i x). Proof. unfold push_reference. qs. Qed.
Lemma q_pop_frame : quietly pop_frame. Proof. unfold pop_frame, note_pop. qs. Qed.
Lemma q_as_sym f : quietly (as_sym f). Proof. unfold as_sym. qs. Qed.
Lemma q_rd_int i x c : quietly (rd_int i x c). Proof. unfold rd_int. qs. Qed.
Lemma q_rd_float i x c : quietly (rd_float i x c). Proof. unfold rd_float. qs. Qed.
Lemma q_rd_string i x c : quietly (rd_string i x c). Proof. unfold rd_string. qs. Qed.
Lemma q_rd_inst i : quietly (rd_inst i). Proof. unfold rd_inst. qs. Qed.
Ltac qs ::=
  repeat first
    [ assumption | apply q_ret | apply q_throw | apply q_undef | apply q_get | apply q_sym | apply q_ctx | apply q_slot | apply q_push | apply q_empty
    | apply q_wr_int | apply q_wr_float | apply q_wr_string | apply q_wr_inst
    | apply q_push_string | apply q_push_ref | apply q_pop_frame | apply q_as_sym | apply q_rd_int | apply q_rd_float | apply q_rd_string | apply q_rd_inst
    | (apply q_mod; intros; constructor; reflexivity)
    | (apply q_iter; intros) | (apply q_bind; [|intros])
    | match goal with |- quietly (if ?x then _ else _) => destruct x | |- quietly (match ?x with _ => _ end) => destruct x end ].
Lemma q_pop_int : quietly pop_int. Proof. unfold pop_int, vm_get_int. qs. Qed.
Lemma q_pop_float : quietly pop_float. Proof. unfold pop_float, vm_get_float. qs. Qed.
Lemma q_pop_reference : quietly pop_reference. Proof. unfold pop_reference, mark_free_string. qs. Qed.
Lemma q_pop_instance : quietly pop_instance. Proof. unfold pop_instance. qs. Qed.
Lemma q_pop_string : quietly pop_string. Proof. unfold pop_string. apply q_bind; [apply q_pop_reference|intros]. qs. Qed.
Lemma q_guarded_write c i w : quietly w -> quietly (guarded_write c i w). Proof. intros. unfold guarded_write. qs. Qed.
Lemma q_fix t : quietly (fix_stack t). Proof. unfold fix_stack, push_float, push_int, push_instance. qs. Qed.
Lemma q_guarded t m : quietly m -> quietly (guarded t m).
Proof.
  intros H s. unfold guarded. specialize (H s). destruct (m s) as [|e s1| |]; auto. pose proof (q_fix t s1). destruct (fix_stack t s1); auto.
Qed.
Lemma q_save i : quietly (save_local i). Proof. unfold save_local, push_float, push_int, push_instance. qs. Qed.
Lemma q_restore i : quietly (restore_local i).
Proof.
  unfold restore_local. apply q_bind; [apply q_sym|intros x].
  destruct (_ =? _). { apply q_iter. intros. apply q_bind; [apply q_pop_float|intros; qs]. }
  destruct (_ || _). { apply q_iter. intros. apply q_bind; [apply q_pop_int|intros; qs]. }
  destruct (_ =? _). { apply q_iter. intros. apply q_bind; [apply q_pop_string|intros; qs]. }
  destruct (_ =? _). { apply q_bind; [apply q_pop_instance|intros; qs]. }
  apply q_ret.
Qed.
Lemma q_move a b : quietly (move_slot a b).
Proof. unfold move_slot. qs. Qed.
Lemma q_push_locals f x : quietly (push_local_variables f x).
Proof.
  unfold push_local_variables. apply q_bind; [apply q_get|intros s]. cbv zeta. destruct (_ =? 0); [apply q_ret|].
  destruct (_ <? _); [apply q_throw|]. destruct (_ <? _); [apply q_throw|].
  apply q_bind; [qs|intros]. apply q_bind; [|intros].
  { qs. }
  apply q_bind; [apply q_iter; intros; apply q_move|intros]. apply q_bind; [apply q_iter; intros; apply q_save|intros]. qs.
Qed.
Lemma q_pop_locals f x : quietly (pop_local_variables f x).
Proof.
  unfold pop_local_variables. apply q_bind; [apply q_get|intros s]. destruct (_ <=? 1); [apply q_ret|].
  apply q_bind; [qs|intros r]. apply q_bind; [apply q_iter; intros; apply q_restore|intros]. destruct r; [|apply q_ret].
  intros s1. destruct (_ <=? _); [exact I|]. constructor; reflexivity.
Qed.
Lemma q_reset c x : quietly (reset_stack c x).
Proof.
  intros s. unfold reset_stack. destruct (negb _); [constructor; reflexivity|]. cbv zeta. destruct (_ =? 0); [apply q_fix|].
  destruct (1 <? _); [|apply un_refl]. destruct (_ =? 0); [exact I|]. unfold vbind.
  pose proof (q_slot (v_sp s - 1) s) as Q. destruct (slot (v_sp s - 1) s) as [f s1| | |]; auto. destruct (_ <=? _); auto.
  eapply un_trans; [exact Q|]. constructor; reflexivity.
Qed.
Lemma q_trace : quietly print_stack_trace.
Proof.
  unfold print_stack_trace, trace_glob, trace_inst, trace_frame. apply q_bind; [apply q_get|intros s]. cbv zeta. qs.
Qed.

(** ** Calls *)
Lemma un_elsewhere s s' : undisturbed s s' -> elsewhere s s'.
Proof. intros []. constructor; auto. Qed.
Lemma elsewhere_trans a b c : elsewhere a b -> elsewhere b c -> elsewhere a c.
Proof. intros [] []. cbn in *. constructor; cbn; congruence. Qed.

Lemma push_call_fine f s : fine (fun s' => exists c, v_calls s' = c :: v_calls s /\ c_pc c = v_pc s /\ undisturbed s (set_calls (v_calls s) s')) (push_call f s).
Proof.
  unfold push_call, fine. unfold vbind at 1, the_sym. destruct (nth_N (v_syms s) f) as [x|]; auto.
  unfold vbind at 1. assert (Q : quietly (if has_locals x then push_local_variables f x else vret tt)) by (destruct (has_locals x); [apply q_push_locals|apply q_ret]).
  specialize (Q s). destruct ((if has_locals x then push_local_variables f x else vret tt) s) as [u s1| | |]; auto. destruct Q as [U1 U2 U3 U4 U5].
  unfold vmod. eexists. split; [cbn; rewrite U2; reflexivity|]. split; [cbn; congruence|]. constructor; cbn; auto.
Qed.
Lemma pop_call_fine s c r : v_calls s = c :: r -> fine (fun s' => undisturbed (set_calls r (set_pc (c_pc c) s)) s') (pop_call s).
Proof.
  intros E. unfold pop_call, fine. rewrite E. unfold vbind at 1, the_sym. destruct (nth_N (v_syms s) (c_fun c)) as [x|]; auto.
  assert (Q : quietly (vmod (fun s => lower_floor c s) ;! reset_stack c x ;! (if has_locals x then pop_local_variables (c_fun c) x else vret tt))).
  { apply q_bind; [qs|intros]. apply q_bind; [apply q_reset|intros]. destruct (has_locals x); [apply q_pop_locals|apply q_ret]. }
  specialize (Q s). unfold vbind in *. unfold vmod in *. destruct (reset_stack c x (lower_floor c s)) as [u s1| | |]; auto.
  destruct ((if has_locals x then pop_local_variables (c_fun c) x else vret tt) s1) as [u' s2| | |]; auto.
  destruct Q as [U1 U2 U3 U4 U5]. constructor; cbn; auto. rewrite U2, E. reflexivity.
Qed.
Lemma bracket f (m : V unit) s : (forall s2, push_call f s = VRet tt s2 -> fine (elsewhere s2) (m s2)) -> fine (undisturbed s) ((push_call f ;! m ;! pop_call) s).
Proof.
  intros H. unfold vbind at 1. pose proof (push_call_fine f s) as P. destruct (push_call f s) as [[] s2| | |]; auto.
  destruct P as (c & P1 & P2 & P3). specialize (H s2 eq_refl). unfold vbind. destruct (m s2) as [u s3| | |]; auto.
  destruct H as [T1 T2 T3 T4 T5]. cbn in *.
  pose proof (pop_call_fine s3 c (v_calls s)) as Q. rewrite T2 in Q. specialize (Q P1).
  destruct (pop_call s3) as [u' s4| | |]; auto. destruct Q as [U1 U2 U3 U4 U5], P3 as [W1 W2 W3 W4 W5]. cbn in *. constructor; congruence.
Qed.

(** ** Instructions *)
Lemma q_binop f : (forall a b, quietly (f a b)) -> quietly (binop f).
Proof. intros H. unfold binop. apply q_bind; [apply q_pop_int|intros]. apply q_bind; [apply q_pop_int|intros]. apply q_bind; [apply H|intros]. unfold push_int. qs. Qed.
Lemma q_unop f : (forall a, quietly (f a)) -> quietly (unop f).
Proof. intros H. unfold unop. apply q_bind; [apply q_pop_int|intros]. apply q_bind; [apply H|intros]. unfold push_int. qs. Qed.
Lemma q_opmov d f : (forall a b, quietly (f a b)) -> quietly (opmov d f).
Proof.
  intros H. unfold opmov. apply q_bind; [apply q_pop_reference|intros [[i x] c]]. apply q_bind; [apply q_pop_int|intros].
  apply q_bind; [destruct (_ && _); qs|intros]. apply q_bind; [|intros; qs]. apply q_guarded_write. apply q_bind; [apply q_rd_int|intros]. apply q_bind; [apply H|intros]. qs.
Qed.
Ltac qa := intros; unfold c_add, c_sub, c_mul, c_div, c_mod, c_shl, c_shr, checked_div, pure1, pure2, ranged; qs.

(** Where execution goes. *)
Definition outcome_at (i : instr) (s : vm) (r : vres next) : Prop :=
  match r with
  | VRet Step s' => undisturbed s s' /\ i_op i <> op_RSR /\ i_op i <> op_B
  | VRet Jumped s' => elsewhere s s' /\ (i_op i = op_B \/ i_op i = op_BZ) /\ v_pc s' = i_addr i
  | VRet Stop s' => elsewhere s s'
  | VFuel => False
  | _ => True
  end.
Lemma out_quiet i s (m : V next) : quietly m -> (forall s a s', m s = VRet a s' -> a = Step) -> i_op i <> op_RSR -> i_op i <> op_B -> outcome_at i s (m s).
Proof.
  intros Q S N1 N2. specialize (Q s). specialize (S s). destruct (m s) as [a s'| | |]; cbn; auto. rewrite (S a s' eq_refl). auto.
Qed.
Lemma steps_bind {A} (m : V A) (k : A -> V next) : (forall x s a s', k x s = VRet a s' -> a = Step) -> forall s a s', vbind m k s = VRet a s' -> a = Step.
Proof. intros H s a s'. unfold vbind. destruct (m s); try discriminate. apply H. Qed.
Lemma steps_ret : forall s a s', vret Step s = VRet a s' -> a = Step.
Proof. intros s a s' E. injection E as <- _. reflexivity. Qed.
Lemma steps_throw e : forall s a s', @vthrow next e s = VRet a s' -> a = Step.
Proof. discriminate. Qed.
Ltac ss := repeat first [apply steps_ret | apply steps_throw | (apply steps_bind; intro)
  | match goal with |- forall _ _ _, (if ?x then _ else _) _ = _ -> _ => destruct x | |- forall _ _ _, (match ?x with _ => _ end) _ = _ -> _ => destruct x end ].

Lemma instruct_out h call i s : modest h ->
  (i_op i = op_BL -> h_over h (i_addr i) = None -> forall f, find_by_address (v_addrs s) (i_addr i) = Some f -> fine (undisturbed s) (call f s)) ->
  outcome_at i s (instruct h call i s).
Proof.
  intros (HE & HO & HD & HT & HH) HC. unfold instruct. cbv zeta.
  repeat match goal with |- outcome_at _ _ ((if ?b then _ else _) _) =>
    let E := fresh "E" in destruct b eqn:E;
    [ try (apply out_quiet; [first [apply q_binop; qa | apply q_unop; qa | apply q_opmov; qa] | unfold binop, unop, opmov; ss
        | intros X; rewrite X in *; discriminate | intros X; rewrite X in *; discriminate]); fail | clear E ] end.
  all: match goal with |- outcome_at _ _ ((if _ =? op_NOP then _ else _) _) => idtac end.
  Ltac one E := apply out_quiet; [|ss|intros X; rewrite X in E; discriminate|intros X; rewrite X in E; discriminate].
  destruct (_ =? op_NOP) eqn:E. { one E. apply q_ret. } clear E.
  destruct (_ =? op_RSR) eqn:ER. { apply un_elsewhere, un_refl. }
  destruct (_ =? op_BL) eqn:E.
  { apply N.eqb_eq in E. rewrite vbind_get. cbv zeta. specialize (HC E).
    assert (N1 : i_op i <> op_RSR) by (rewrite E; discriminate). assert (N2 : i_op i <> op_B) by (rewrite E; discriminate).
    destruct (h_over h (i_addr i)) as [cb|] eqn:O.
    - destruct (find_by_address _ _) as [f|]; [|exact I]. apply out_quiet; auto; [|ss]. apply q_bind; [apply q_sym|intros]. apply q_bind; [|intros; apply q_ret].
      apply q_guarded, (HO _ _ O).
    - destruct (find_by_address _ _) as [f|]; [|exact I]. specialize (HC eq_refl f eq_refl). unfold vbind. destruct (call f s); cbn in *; auto. }
  clear HC. clear E. destruct (_ =? op_BE) eqn:E.
  { rewrite vbind_get. destruct (find_by_index _ _) as [x|]; [|exact I]. one E. apply q_bind; [|intros; apply q_ret]. apply q_guarded.
    destruct (h_ext h (i_symb i)) as [cb|] eqn:O.
    - intros s1. apply bracket. intros s2 _. pose proof (HE _ _ O s2) as Q. destruct (cb s2); cbn; auto. apply un_elsewhere, Q.
    - destruct (h_default h) as [d|] eqn:D; [apply (HD d), eq_refl|apply q_throw]. }
  clear E. destruct (_ =? op_PUSHI) eqn:E. { one E. unfold push_int. qs. }
  clear E. destruct (_ || _) eqn:E.
  { rewrite vbind_get. destruct (find_by_index _ _) as [x|]; [|exact I]. apply out_quiet; [|ss|intros X; rewrite X in E; discriminate|intros X; rewrite X in E; discriminate].
    apply q_bind; [|intros; apply q_ret]. destruct (has_trap x); [|qs]. destruct (h_trap h) as [t|] eqn:T; [apply (HT t), eq_refl|qs]. }
  clear E. destruct (_ || _) eqn:E.
  { one E. apply q_bind; [apply q_pop_reference|intros [[a b] c]]. apply q_bind; [apply q_pop_int|intros]. apply q_bind; [apply q_guarded_write|intros]; qs. }
  clear E. destruct (_ =? 73) eqn:E.
  { one E. apply q_bind; [apply q_pop_reference|intros [[a b] c]]. apply q_bind; [apply q_pop_float|intros]. apply q_bind; [apply q_guarded_write|intros]; qs. }
  clear E. destruct (_ =? 70) eqn:E.
  { one E. apply q_bind; [apply q_pop_reference|intros [[a b] c]]. apply q_bind; [apply q_pop_string|intros]. apply q_bind; [apply q_guarded_write|intros]; qs. }
  clear E. destruct (_ =? 71); [exact I|].
  repeat match goal with |- outcome_at _ _ ((if ?b then _ else _) _) =>
    let E := fresh "E" in destruct b eqn:E;
    [ try (apply out_quiet; [apply q_opmov; qa | unfold opmov; ss
        | intros X; rewrite X in *; discriminate | intros X; rewrite X in *; discriminate]); fail | clear E ] end.
  destruct (_ =? 74) eqn:E.
  { one E. apply q_bind; [apply q_pop_reference|intros]. apply q_bind; [apply q_pop_instance|intros]. qs. }
  clear E. destruct (_ =? op_B) eqn:EB.
  { apply N.eqb_eq in EB. unfold vbind, jump. destruct (_ <=? _); [exact I|]. split; [constructor; reflexivity|]. auto. }
  destruct (_ =? op_BZ) eqn:E.
  { apply N.eqb_eq in E. unfold vbind at 1. pose proof (q_pop_int s) as Q. destruct (pop_int s) as [v s1| | |]; cbn; auto.
    destruct (v =? 0)%Z.
    - unfold vbind, jump. destruct (_ <=? _); [exact I|]. split; [apply un_elsewhere in Q; exact Q|]. auto.
    - split; [exact Q|]. rewrite E. split; discriminate. }
  clear E. destruct (_ =? op_GMOVI) eqn:E.
  { rewrite vbind_get. destruct (find_by_index _ _) as [x|]; [|exact I]. one E. qs. }
  clear E. destruct (_ =? op_PUSHVV) eqn:E.
  { rewrite vbind_get. destruct (find_by_index _ _) as [x|]; [|exact I]. one E. qs. }
  split; [apply un_refl|]. split; apply N.eqb_neq; assumption.
Qed.

(** ** Runs *)
Definition nofuel {A} (m : rd A) : Prop := forall t, m t <> Fuel.
Lemma nf_bind {A B} (m : rd A) (k : A -> rd B) : nofuel m -> (forall a, nofuel (k a)) -> nofuel (bind m k).
Proof. intros H1 H2 t. unfold bind. specialize (H1 t). destruct (m t) as [[a t1]| | |]; try discriminate; [apply H2|contradiction]. Qed.
Lemma nf_ret {A} (a : A) : nofuel (ret a). Proof. intros t. discriminate. Qed.
Lemma nf_fixed n : nofuel (rd_fixed n).
Proof. unfold rd_fixed. apply nf_bind; [|intros; apply nf_ret]. intros t. unfold rd_read. cbv zeta. destruct (_ <? rpos t + _); discriminate. Qed.
Lemma nf_ubyte : nofuel read_ubyte. Proof. apply nf_bind; [apply nf_fixed|intros; apply nf_ret]. Qed.
Lemma nf_uint : nofuel read_uint. Proof. apply nf_bind; [apply nf_fixed|intros; apply nf_ret]. Qed.
Lemma nf_int : nofuel read_int. Proof. apply nf_bind; [apply nf_uint|intros; apply nf_ret]. Qed.
Lemma nf_decode : nofuel decode.
Proof.
  unfold decode. apply nf_bind; [apply nf_ubyte|]. intros op.
  destruct (_ || _). { apply nf_bind; [apply nf_uint|intros; apply nf_ret]. }
  destruct (op =? _). { apply nf_bind; [apply nf_int|intros; apply nf_ret]. }
  destruct (_ || _). { apply nf_bind; [apply nf_uint|intros; apply nf_ret]. }
  destruct (op =? _). { apply nf_bind; [apply nf_uint|intros]. apply nf_bind; [apply nf_ubyte|intros; apply nf_ret]. }
  apply nf_ret.
Qed.
Lemma nf_seek o : nofuel (rd_seek o BEG).
Proof. intros t. unfold rd_seek, obind, seek_internal. destruct (_ <? _); discriminate. Qed.
Lemma nf_instruction a : nofuel (instruction_at a).
Proof. unfold instruction_at. apply nf_bind; [apply nf_seek|intros; apply nf_decode]. Qed.

Lemma instruction_anywhere a t : a < len (rdata t) -> instruction_at a t = instruction_at a (r_from (rdata t)).
Proof.
  intros L. unfold instruction_at, bind, rd_seek, obind, seek_internal, r_from. cbn [rdata rpos].
  assert (Q : (len (rdata t) <? uint 64 (Z.of_N a)) = false).
  { apply N.ltb_ge. unfold uint. assert (M : (Z.of_N a mod 2 ^ Z.of_N 64 <= Z.of_N a)%Z) by (apply Z.mod_le; lia).
    assert (P : (0 <= Z.of_N a mod 2 ^ Z.of_N 64)%Z) by (apply Z.mod_pos_bound; reflexivity). lia. }
  rewrite Q. reflexivity.
Qed.
Lemma fetch_fine s : v_pc s < len (rdata (v_text s)) ->
  match fetch s with VRet i s1 => undisturbed s s1 /\ has_instruction (rdata (v_text s)) (v_pc s) i | VFuel => False | _ => True end.
Proof.
  intros B. unfold fetch. pose proof (nf_instruction (v_pc s) (v_text s)) as NF. destruct (instruction_at (v_pc s) (v_text s)) as [[i t]| | |] eqn:E; auto.
  split; [|split; [exact B|exists t; rewrite <- instruction_anywhere by exact B; exact E]]. constructor; try reflexivity. cbn. eapply data_instruction; eauto.
Qed.

Lemma cannot_loop_same h s s' within rank : v_addrs s' = v_addrs s -> rdata (v_text s') = rdata (v_text s) ->
  (forall i, option_map s_addr (nth_N (v_syms s') i) = option_map s_addr (nth_N (v_syms s) i)) -> cannot_loop h s within rank -> cannot_loop h s' within rank.
Proof.
  intros T D Y C a A. destruct (C a A) as (C1 & C2). rewrite D. split; [exact C1|]. intros b L. apply C2.
  destruct L as [i I N1 N2|i I J|i f x I J O F X]; rewrite D in I.
  - apply leads_next; auto.
  - apply leads_jump with (1 := I). exact J.
  - rewrite T in F. specialize (Y f). rewrite X in Y. cbn in Y. destruct (nth_N (v_syms s) f) as [y|] eqn:E; [|discriminate]. cbn in Y.
    injection Y as ->. eapply leads_call; eauto.
Qed.
Lemma cannot_loop_elsewhere h s s' within rank : elsewhere s s' -> cannot_loop h s within rank -> cannot_loop h s' within rank.
Proof. intros [_ _ T D Y]. apply cannot_loop_same; assumption. Qed.

Lemma runs_end h within rank : modest h -> forall n s, cannot_loop h s within rank -> within (v_pc s) -> (rank (v_pc s) < n)%nat -> fine (elsewhere s) (run n h s).
Proof.
  intros M. induction n as [|n IH]; intros s C PB R; [lia|]. cbn [run]. unfold vbind at 1. unfold exec. unfold vbind at 1.
  pose proof (fetch_fine s (proj1 (C _ PB))) as F. destruct (fetch s) as [i s1| | |]; [|exact I|exact I|contradiction]. destruct F as (U & HI).
  pose proof (cannot_loop_elsewhere h s s1 within rank (un_elsewhere _ _ U) C) as C1.
  assert (HI1 : has_instruction (rdata (v_text s1)) (v_pc s1) i) by (rewrite (un_code _ _ U), (un_pc _ _ U); exact HI).
  assert (PB1 : within (v_pc s1)) by (rewrite (un_pc _ _ U); exact PB).
  assert (R1 : (rank (v_pc s1) < S n)%nat) by (rewrite (un_pc _ _ U); exact R).
  assert (O : outcome_at i s1 (instruct h (call_with (run n h)) i s1)).
  { apply instruct_out; [exact M|]. intros B V f FA. unfold call_with.
    assert (K : forall x, nth_N (v_syms s1) f = Some x -> within (s_addr x) /\ (rank (s_addr x) < n)%nat).
    { intros x X. assert (L : leads h s1 (v_pc s1) (s_addr x)) by (eapply leads_call; eauto). apply (proj2 (C1 _ PB1)) in L as (L1 & L2). split; [exact L1|lia]. }
    assert (E : (push_call f ;! (let! x := the_sym f in jump (s_addr x) ;! run n h ;! pop_call)) s1 =
                (push_call f ;! (let! x := the_sym f in jump (s_addr x) ;! run n h) ;! pop_call) s1).
    { unfold vbind. destruct (push_call f s1) as [u s2| | |]; auto. destruct (the_sym f s2) as [x s3| | |]; auto. destruct (jump (s_addr x) s3); auto. }
    rewrite E. apply bracket. intros s2 P. pose proof (push_call_fine f s1) as Q. rewrite P in Q. destruct Q as (c & Q1 & Q2 & Q3).
    unfold vbind, the_sym. destruct (nth_N (v_syms s2) f) as [x|] eqn:X; [|exact I]. unfold jump. destruct (_ <=? s_addr x); [exact I|].
    assert (C2 : cannot_loop h (set_pc (s_addr x) s2) within rank).
    { destruct Q3 as [_ _ T3 D3 Y3]. apply cannot_loop_same with (s := s1); assumption. }
    assert (R2 : within (s_addr x) /\ (rank (s_addr x) < n)%nat).
    { destruct Q3 as [_ _ _ D3 Y3]. cbn in D3, Y3. specialize (Y3 f). rewrite X in Y3. cbn in Y3. destruct (nth_N (v_syms s1) f) as [z|] eqn:Z; [|discriminate].
      cbn in Y3. injection Y3 as ->. apply K. reflexivity. }
    pose proof (IH _ C2 (proj1 R2) (proj2 R2)) as W. destruct (run n h (set_pc (s_addr x) s2)) as [u s4| | |]; auto. cbn in *.
    destruct W as [_ W2 W3 W4 W5]. constructor; cbn in *; auto. }
  unfold step. unfold vbind at 1. destruct (instruct h (call_with (run n h)) i s1) as [[| |] s2|e s2|k s2|]; cbn in O.
  - destruct O as (O & N1 & N2). cbv beta iota delta [vbind vmod vret].
    assert (W : elsewhere s (set_pc (u32 (v_pc s2 + i_size i)) s2)).
    { eapply elsewhere_trans; [apply un_elsewhere, U|]. apply un_elsewhere in O. destruct O as [_ O2 O3 O4 O5]. constructor; cbn in *; auto. }
    assert (L : within (u32 (v_pc s2 + i_size i)) /\ (rank (u32 (v_pc s2 + i_size i)) < n)%nat).
    { rewrite (un_pc _ _ O). assert (Q : leads h s1 (v_pc s1) (u32 (v_pc s1 + i_size i))) by (apply leads_next; auto). apply (proj2 (C1 _ PB1)) in Q as (Q1 & Q2). split; [exact Q1|lia]. }
    pose proof (IH _ (cannot_loop_elsewhere _ _ _ _ _ W C) (proj1 L) (proj2 L)) as Z. destruct (run n h _); auto. eapply elsewhere_trans; eauto.
  - destruct O as (O & B & P).
    assert (W : elsewhere s s2) by (eapply elsewhere_trans; [apply un_elsewhere, U|exact O]).
    assert (L : within (v_pc s2) /\ (rank (v_pc s2) < n)%nat).
    { rewrite P. assert (Q : leads h s1 (v_pc s1) (i_addr i)) by (apply leads_jump with (1 := HI1); exact B). apply (proj2 (C1 _ PB1)) in Q as (Q1 & Q2).
      split; [exact Q1|lia]. }
    pose proof (IH _ (cannot_loop_elsewhere _ _ _ _ _ W C) (proj1 L) (proj2 L)) as Z. cbv [vret]. destruct (run n h s2); auto. eapply elsewhere_trans; eauto.
  - cbv [vret]. cbn. eapply elsewhere_trans; [apply un_elsewhere, U|exact O].
  - destruct (is_script_error e); [|exact I]. unfold handle. rewrite vbind_get. destruct M as (_ & _ & _ & _ & ->).
    unfold vbind. pose proof (q_trace s2) as T. destruct (print_stack_trace s2); auto.
  - exact I.
  - contradiction.
Qed.

Lemma call_ends h within rank s f x : modest h -> cannot_loop h s within rank -> nth_N (v_syms s) f = Some x -> within (s_addr x) ->
  fine (undisturbed s) (unsafe_call (S (rank (s_addr x))) h f s).
Proof.
  intros M C X B. unfold unsafe_call, call_with. remember (S (rank (s_addr x))) as n eqn:En.
  assert (E : (push_call f ;! (let! x := the_sym f in jump (s_addr x) ;! run n h ;! pop_call)) s =
              (push_call f ;! (let! x := the_sym f in jump (s_addr x) ;! run n h) ;! pop_call) s).
  { unfold vbind. destruct (push_call f s) as [u s2| | |]; auto. destruct (the_sym f s2) as [y s3| | |]; auto. destruct (jump (s_addr y) s3); auto. }
  rewrite E. apply bracket. intros s2 P. pose proof (push_call_fine f s) as Q. rewrite P in Q. destruct Q as (c & Q1 & Q2 & [_ _ T3 D3 Y3]). cbn in *.
  unfold vbind, the_sym. destruct (nth_N (v_syms s2) f) as [z|] eqn:Z; [|exact I]. unfold jump. destruct (_ <=? s_addr z); [exact I|].
  assert (C2 : cannot_loop h (set_pc (s_addr z) s2) within rank).
  { apply cannot_loop_same with (s := s); assumption. }
  assert (R2 : within (s_addr z) /\ (rank (s_addr z) < n)%nat).
  { specialize (Y3 f). rewrite X, Z in Y3. cbn in Y3. injection Y3 as ->. split; [exact B|lia]. }
  pose proof (runs_end h within rank M n _ C2 (proj1 R2) (proj2 R2)) as W. destruct (run n h (set_pc (s_addr z) s2)) as [u s4| | |]; auto. cbn in *.
  destruct W as [_ W2 W3 W4 W5]. constructor; cbn in *; auto.
Qed.

(** ** Scripts that do not end *)
Lemma run_forever h (I : vm -> Prop) : (forall call s, I s -> exists s', exec h call s = VRet true s' /\ I s') -> forall n s, I s -> run n h s = VFuel.
Proof.
  intros H. induction n as [|n IH]; intros s P; [reflexivity|]. cbn [run]. unfold vbind. destruct (H (call_with (run n h)) s P) as (s' & -> & P'). apply IH, P'.
Qed.
Lemma call_forever h f s s2 x : (forall n, run n h (set_pc (s_addr x) s2) = VFuel) -> push_call f s = VRet tt s2 -> nth_N (v_syms s2) f = Some x ->
  s_addr x < text_size (v_text s2) -> forall n, unsafe_call n h f s = VFuel.
Proof.
  intros R P X B n. unfold unsafe_call, call_with, vbind, the_sym, jump. rewrite P, X. apply N.leb_gt in B. rewrite B, R. reflexivity.
Qed.

(** Past the end of one [NOP]: additions on an empty stack. *)
Record adding (s : vm) : Prop := mkAdding {
  ad_code : rdata (v_text s) = [n2b 45];
  ad_pos : rpos (v_text s) = 0 \/ rpos (v_text s) = 1;
  ad_sp : v_sp s = 0 \/ v_sp s = 1 /\ v_slots s 0 = Some (mkFrame None false (FInt 0) 0) }.
Lemma fetch_adding s : adding s -> exists i t, fetch s = VRet i (set_text t s) /\ rdata t = [n2b 45] /\ rpos t = 1 /\ (i = mkI 45 0 0 0 0 1 \/ i = mkI 0 0 0 0 0 1).
Proof.
  intros [C P _]. unfold fetch, instruction_at, bind, rd_seek, obind, seek_internal. destruct (v_text s) as [d p]. cbn [rdata rpos] in *. subst d.
  change (len [n2b 45]) with 1. generalize (uint 64 (Z.of_N (v_pc s))) as q. intros q. destruct (N.ltb_spec 1 q) as [L|L].
  - destruct P as [->| ->]; vm_compute; eexists; eexists; eauto.
  - assert (Q : q = 0 \/ q = 1) by lia. destruct Q as [->| ->]; vm_compute; eexists; eexists; eauto.
Qed.
Lemma exec_adding call s : adding s -> exists s', exec bare call s = VRet true s' /\ adding s'.
Proof.
  intros A. destruct (fetch_adding s A) as (i & t & F & T1 & T2 & I). unfold exec. unfold vbind at 1. rewrite F. destruct A as [C P S].
  destruct I as [->| ->].
  - eexists. split; [reflexivity|]. constructor; cbn; auto.
  - unfold step, instruct, binop, pop_int, pop_frame, note_pop, push_int, push_frame, is_empty, slot, vbind, vmod, vget, vret. cbn [i_op].
    change (0 =? 0) with true. cbv iota. destruct S as [S|[S S0]].
    + destruct s. cbn in *. subst. cbn. eexists. split; [reflexivity|]. constructor; cbn; auto.
    + destruct s. cbn in *. subst. cbn. unfold note_under. change (1 - 1) with 0. change (stack_size <=? 0) with false. cbn. rewrite S0. cbn. eexists. split; [reflexivity|]. constructor; cbn; auto.
Qed.
