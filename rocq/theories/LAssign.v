(** Assignments, pushes and access traps. *)

From Coq Require Import ZArith Lia.
From Verif Require Import MBase LBase MStream MDaedalus MVm LVm LVmCall LVmRun LVmExact SVm SVmOps LVmApi LSym SSym LDaedalus LVmOps LVmProps SAssign.
Local Open Scope N_scope.
Local Open Scope v_scope.
Ltac Zify.zify_post_hook ::= idtac.

(* ------------------------------------------------------------------ *)
(** * Reading depends on the symbols and the instances only *)

Lemma rd_float_ext i idx c s s' v : v_syms s' = v_syms s -> v_heap s' = v_heap s -> rd_float i idx c s = VRet v s -> rd_float i idx c s' = VRet v s'.
Proof.
  intros E1 E2. unfold rd_float, vbind, the_sym. rewrite E1.
  destruct (nth_N (v_syms s) i) as [x|]; [|discriminate]. unfold the_ctx. rewrite E2. destruct c as [c|]; [destruct (nth_N (v_heap s) c) as [n|]; [|discriminate]|];
  unfold vlift; match goal with |- context[sym_get_float ?a ?b ?c] => destruct (sym_get_float a b c) end; try discriminate; intros H; injection H as <-; reflexivity.
Qed.
Lemma rd_int_ext i idx c s s' v : v_syms s' = v_syms s -> v_heap s' = v_heap s -> rd_int i idx c s = VRet v s -> rd_int i idx c s' = VRet v s'.
Proof.
  intros E1 E2. unfold rd_int, vbind, the_sym. rewrite E1.
  destruct (nth_N (v_syms s) i) as [x|]; [|discriminate]. unfold the_ctx. rewrite E2. destruct c as [c|]; [destruct (nth_N (v_heap s) c) as [n|]; [|discriminate]|];
  unfold vlift; match goal with |- context[sym_get_int ?a ?b ?c] => destruct (sym_get_int a b c) end; try discriminate; intros H; injection H as <-; reflexivity.
Qed.
Lemma rd_inst_ext i s s' v : v_syms s' = v_syms s -> rd_inst i s = VRet v s -> rd_inst i s' = VRet v s'.
Proof.
  intros E. unfold rd_inst, vbind, the_sym. rewrite E. destruct (nth_N (v_syms s) i) as [x|]; [|discriminate].
  unfold vlift. destruct (sym_get_inst x); try discriminate. intros H. injection H as <-. reflexivity.
Qed.

Lemma member_ok x (c : option N) : (is_member x = true -> c <> None) -> (is_member x && match c with None => true | _ => false end)%bool = false.
Proof. intros H. destruct (is_member x); [|reflexivity]. destruct c; [reflexivity|]. exfalso. apply H; reflexivity. Qed.

Lemma pop_float_at s f v : from_top s 0 f -> float_operand s f v -> pop_float s = VRet v (popped s).
Proof.
  intros T O. unfold pop_float. unfold vbind at 1, is_empty. rewrite (not_empty _ _ _ T). unfold vbind at 1. rewrite (pop_frame_at _ _ T).
  destruct O as [[O1 [O2|(z & O2 & ->)]]|(j & (y & O1 & O2 & O3 & O4) & O5)].
  - rewrite O1, O2. reflexivity.
  - rewrite O1, O2. reflexivity.
  - rewrite O1. unfold as_sym. rewrite O2. unfold vbind at 1, vret. unfold vm_get_float. unfold vbind at 1, the_sym.
    rewrite popped_syms, O3, vbind_get. rewrite (member_ok _ _ O4). apply (rd_float_ext _ _ _ s); [apply popped_syms|apply popped_heap|exact O5].
Qed.
Lemma pop_string_at s f v : from_top s 0 f -> string_operand s f v -> pop_string s = VRet v (popped s).
Proof.
  intros T (j & (y & O1 & O2 & O3 & O4) & NJ & K & RD). destruct f as [c r fv k]. cbn [f_ref f_val f_ctx f_idx] in *. subst r fv.
  unfold pop_string. unfold vbind at 1. rewrite (pop_reference_at _ _ _ _ T NJ).
  unfold vbind at 1, the_sym. rewrite popped_syms, O3, vbind_get. rewrite (member_ok _ _ O4). rewrite u8_small by exact K.
  apply (rd_string_ext j k c s); [apply popped_syms|apply popped_heap|exact RD].
Qed.
Lemma pop_instance_at s f v : from_top s 0 f -> instance_operand s f v -> pop_instance s = VRet v (popped s).
Proof.
  intros T O. unfold pop_instance. unfold vbind at 1, is_empty. rewrite (not_empty _ _ _ T). unfold vbind at 1. rewrite (pop_frame_at _ _ T).
  destruct O as [[O1 O2]|(j & O1 & O2 & O3)].
  - rewrite O1, O2. reflexivity.
  - rewrite O1. unfold as_sym. rewrite O2. unfold vbind at 1, vret. apply (rd_inst_ext _ s); [apply popped_syms|exact O3].
Qed.

Lemma refers_popped s f j : refers s f j -> refers (popped s) f j.
Proof. intros (y & H). exists y. rewrite popped_syms. exact H. Qed.
Lemma float_operand_popped s f v : float_operand s f v -> float_operand (popped s) f v.
Proof.
  intros [H|(j & R & O)]; [left; exact H|right]. exists j. split; [apply refers_popped, R|].
  apply (rd_float_ext _ _ _ s); [apply popped_syms|apply popped_heap|exact O].
Qed.
Lemma string_operand_popped s f v : string_operand s f v -> string_operand (popped s) f v.
Proof.
  intros (j & R & NJ & K & O). exists j. split; [apply refers_popped, R|]. rewrite popped_tmp. split; [exact NJ|]. split; [exact K|].
  apply (rd_string_ext _ _ _ s); [apply popped_syms|apply popped_heap|exact O].
Qed.
Lemma instance_operand_popped s f v : instance_operand s f v -> instance_operand (popped s) f v.
Proof.
  intros [H|(j & O1 & O2 & O3)]; [left; exact H|right]. exists j. split; [exact O1|]. split; [exact O2|]. apply (rd_inst_ext _ s); [apply popped_syms|exact O3].
Qed.

Lemma took_1 s f : from_top s 0 f -> took s (popped s) 1.
Proof.
  intros T. split; [apply popped_only_stack|]. split; [apply (popped_sp _ _ T)|]. split; [apply popped_pc|].
  intros k K. rewrite (popped_eq _ _ T). cbn [v_slots set_stack]. unfold upd. replace (k =? v_sp s - 1) with false by (symmetry; apply N.eqb_neq; lia). reflexivity.
Qed.
Lemma took_2 s f g : from_top s 0 f -> from_top s 1 g -> took s (popped (popped s)) 2.
Proof.
  intros T1 T2. pose proof (from_top_popped _ _ _ T1 T2) as T3. destruct (took_1 _ _ T1) as (A1 & A2 & A3 & A4). destruct (took_1 _ _ T3) as (B1 & B2 & B3 & B4).
  split; [eapply only_stack_trans; eassumption|]. split; [rewrite B2, A2; lia|]. split; [congruence|].
  intros k K. rewrite B4 by (rewrite A2; lia). apply A4. lia.
Qed.

Lemma guarded_target s s2 i idx c w : target s i idx c -> v_syms s2 = v_syms s -> v_flags s2 = v_flags s -> guarded_write c i w s2 = w s2.
Proof.
  intros (_ & _ & _ & x & X & M & C) ES EF. unfold guarded_write. unfold vbind at 1, the_sym. rewrite ES, X, vbind_get.
  unfold flag_on in *. rewrite EF.
  replace (is_const x && negb (negb (N.land (v_flags s) IGNORE_CONST =? 0)))%bool with false
    by (destruct (is_const x); [rewrite (C eq_refl)|]; reflexivity).
  replace (negb (is_member x) || match c with None => false | _ => true end)%bool with true; [reflexivity|].
  destruct (is_member x); [|reflexivity]. destruct c; [reflexivity|]. exfalso. apply M; reflexivity.
Qed.
Lemma step_then h call ins s w s2 : instruct h call ins s = vbind w (fun _ => vret Step) s2 -> step h call ins s = then_next (i_size ins) (w s2).
Proof. intros I. unfold step. unfold vbind at 1. rewrite I. unfold vbind. destruct (w s2); reflexivity. Qed.

(* ------------------------------------------------------------------ *)
(** * Assignments *)

Lemma assign_step h call ins s i idx c f v : assigns (i_op ins) (kind_of v) = true ->
  target s i idx c -> from_top s 1 f -> operand s f v ->
  exists s1, took s s1 2 /\ step h call ins s = then_next (i_size ins) (write_el v i idx c s1).
Proof.
  intros A T F O. pose proof T as (T1 & NT & K & _). pose proof (from_top_popped _ _ _ T1 F) as F2.
  exists (popped (popped s)). split; [eapply took_2; eassumption|].
  assert (G : forall w, guarded_write c i w (popped (popped s)) = w (popped (popped s))).
  { intros w. eapply guarded_target; [exact T|rewrite !popped_syms; reflexivity|rewrite !popped_flags; reflexivity]. }
  apply step_then. unfold instruct. cbv zeta.
  destruct v as [z|b|b]; cbn [kind_of assigns operand write_el] in *.
  - assert (E : i_op ins = 9 \/ i_op ins = 72) by (apply orb_true_iff in A as [A|A]; apply N.eqb_eq in A; auto).
    assert (P : (let! r := pop_reference in let '(t, idx, c) := r in let! v := pop_int in vm_set_int c t idx v ;! vret Step) s =
      vbind (wr_int i z idx c) (fun _ => vret Step) (popped (popped s))).
    { unfold vbind at 1. rewrite (pop_reference_at _ _ _ _ T1 NT). unfold vbind at 1.
      rewrite (pop_int_at _ _ _ F2 (int_operand_popped _ _ _ O)). rewrite u8_small by exact K. unfold vbind, vm_set_int. rewrite G. reflexivity. }
    destruct E as [E|E]; rewrite E; exact P.
  - apply N.eqb_eq in A. rewrite A. cbn [N.eqb Pos.eqb op_NOP op_RSR op_BL op_BE op_PUSHI op_PUSHV op_PUSHVI op_MOVI orb].
    unfold vbind at 1. rewrite (pop_reference_at _ _ _ _ T1 NT). unfold vbind at 1.
    rewrite (pop_float_at _ _ _ F2 (float_operand_popped _ _ _ O)). rewrite u8_small by exact K. unfold vbind, vm_set_float. rewrite G. reflexivity.
  - apply N.eqb_eq in A. rewrite A. cbn [N.eqb Pos.eqb op_NOP op_RSR op_BL op_BE op_PUSHI op_PUSHV op_PUSHVI op_MOVI orb].
    unfold vbind at 1. rewrite (pop_reference_at _ _ _ _ T1 NT). unfold vbind at 1.
    rewrite (pop_string_at _ _ _ F2 (string_operand_popped _ _ _ O)). rewrite u8_small by exact K. unfold vbind, vm_set_string. rewrite G. reflexivity.
Qed.

(** ** Temporary strings *)
Lemma assign_temporary h call ins s i idx c d t y v : i_op ins = 70 ->
  target s i idx c -> from_top s 1 (mkFrame d true (FSym (v_tmp s)) t) -> t < 256 ->
  nth_N (v_syms s) (v_tmp s) = Some y -> is_member y = false -> rd_string (v_tmp s) t d s = VRet v s ->
  exists s1, took_temporary s s1 2 t /\ step h call ins s = then_next (i_size ins) (wr_string i v idx c s1).
Proof.
  intros A T F KT Y M RD. pose proof T as (T1 & NT & K & _). pose proof (from_top_popped _ _ _ T1 F) as F2.
  set (s0 := popped (popped s)). set (s1 := set_free (t :: v_free s0) s0).
  exists s1. split; [exists s0; split; [eapply took_2; eassumption|split; reflexivity]|].
  assert (ES : v_syms s1 = v_syms s) by (unfold s1, s0; cbn [v_syms set_free]; rewrite !popped_syms; reflexivity).
  assert (EH : v_heap s1 = v_heap s) by (unfold s1, s0; cbn [v_heap set_free]; rewrite !popped_heap; reflexivity).
  assert (EF : v_flags s1 = v_flags s) by (unfold s1, s0; cbn [v_flags set_free]; rewrite !popped_flags; reflexivity).
  assert (PR : pop_reference (popped s) = VRet (v_tmp s, u8 t, d) s1).
  { unfold pop_reference. unfold vbind at 1, is_empty. rewrite (not_empty _ _ _ F2). unfold vbind at 1. rewrite (pop_frame_at _ _ F2).
    cbn [f_ref negb as_sym f_val f_ctx f_idx]. unfold vbind at 1, vret at 1. rewrite vbind_get. rewrite !popped_tmp, N.eqb_refl. reflexivity. }
  assert (PS : pop_string (popped s) = VRet v s1).
  { unfold pop_string. unfold vbind at 1. rewrite PR. unfold vbind at 1, the_sym. rewrite ES, Y, vbind_get, M. cbn [andb].
    rewrite u8_small by exact KT. apply (rd_string_ext _ _ _ s); assumption. }
  apply step_then. unfold instruct. cbv zeta. rewrite A. cbn [N.eqb Pos.eqb op_NOP op_RSR op_BL op_BE op_PUSHI op_PUSHV op_PUSHVI op_MOVI orb].
  unfold vbind at 1. rewrite (pop_reference_at _ _ _ _ T1 NT). unfold vbind at 1. rewrite PS. rewrite u8_small by exact K.
  unfold vbind, vm_set_string. rewrite (guarded_target s s1 i idx c _ T ES EF). reflexivity.
Qed.

(** ** Instances *)
Lemma assign_instance h call ins s i idx c f v : i_op ins = 74 ->
  from_top s 0 (mkFrame c true (FSym i) idx) -> i <> v_tmp s -> from_top s 1 f -> instance_operand s f v ->
  exists s1, took s s1 2 /\ step h call ins s = then_next (i_size ins) (wr_inst i v s1).
Proof.
  intros A T1 NT F O. pose proof (from_top_popped _ _ _ T1 F) as F2.
  exists (popped (popped s)). split; [eapply took_2; eassumption|].
  apply step_then. unfold instruct. cbv zeta. rewrite A. cbn [N.eqb Pos.eqb op_NOP op_RSR op_BL op_BE op_PUSHI op_PUSHV op_PUSHVI op_MOVI orb].
  unfold vbind at 1. rewrite (pop_reference_at _ _ _ _ T1 NT). unfold vbind at 1.
  rewrite (pop_instance_at _ _ _ F2 (instance_operand_popped _ _ _ O)). reflexivity.
Qed.

(** ** Assignments that compute *)
Lemma compound_step h call ins s i idx c f v o r : 19 <= i_op ins <= 22 ->
  target s i idx c -> from_top s 1 f -> int_operand s f v -> rd_int i idx c s = VRet o s -> int32 o -> int32 v ->
  binary (i_op ins - 19) o v = Some r ->
  exists s1, took s s1 2 /\ step h call ins s = then_next (i_size ins) (wr_int i r idx c s1).
Proof.
  intros A T F O RD IO IV B. pose proof T as (T1 & NT & K & _). pose proof (from_top_popped _ _ _ T1 F) as F2.
  exists (popped (popped s)). split; [eapply took_2; eassumption|]. set (s2 := popped (popped s)).
  assert (RD2 : rd_int i idx c s2 = VRet o s2) by (apply (rd_int_ext _ _ _ s); [unfold s2; rewrite !popped_syms; reflexivity|unfold s2; rewrite !popped_heap; reflexivity|exact RD]).
  assert (OPM : forall dv g, (dv && (v =? 0)%Z)%bool = false -> g o v s2 = VRet r s2 ->
    opmov dv g s = vbind (wr_int i r idx c) (fun _ => vret Step) s2).
  { intros dv g D E. unfold opmov. unfold vbind at 1. rewrite (pop_reference_at _ _ _ _ T1 NT). unfold vbind at 1.
    rewrite (pop_int_at _ _ _ F2 (int_operand_popped _ _ _ O)). rewrite D. fold s2. rewrite u8_small by exact K.
    unfold vbind at 1, vret at 1. unfold vbind at 1. rewrite (guarded_target s s2 i idx c _ T) by (unfold s2; rewrite ?popped_syms, ?popped_flags; reflexivity).
    unfold vbind at 1. rewrite RD2. unfold vbind at 1. rewrite E. reflexivity. }
  apply step_then. unfold instruct. cbv zeta.
  assert (E : i_op ins = 19 \/ i_op ins = 20 \/ i_op ins = 21 \/ i_op ins = 22) by lia.
  destruct E as [E|[E|[E|E]]]; rewrite E in B |- *; cbn [N.sub Pos.sub_mask Pos.succ_double_mask Pos.double_mask Pos.double_pred_mask Pos.pred_double] in B.
  - apply OPM; [reflexivity|]. apply (the_binop_spec 0); auto.
  - apply OPM; [reflexivity|]. apply (the_binop_spec 1); auto.
  - apply OPM; [reflexivity|]. apply (the_binop_spec 2); auto.
  - assert (V : (v =? 0)%Z = false) by (change (22 - 19) with 3 in B; cbn [binary] in B; destruct (v =? 0)%Z; [discriminate|reflexivity]).
    apply OPM; [rewrite V; reflexivity|]. pose proof (the_binop_spec 3 o v r s2 eq_refl IO IV B) as H. cbn [the_binop] in H.
    unfold checked_div in H. rewrite V in H. exact H.
Qed.
Lemma compound_zero h call ins s i idx c f : i_op ins = 22 ->
  target s i idx c -> from_top s 1 f -> int_operand s f 0 ->
  exists s1, took s s1 2 /\ step h call ins s = VExc VmException s1.
Proof.
  intros A T F O. pose proof T as (T1 & NT & K & _). pose proof (from_top_popped _ _ _ T1 F) as F2.
  exists (popped (popped s)). split; [eapply took_2; eassumption|]. unfold step. unfold vbind at 1. unfold instruct. cbv zeta. rewrite A.
  cbn [N.eqb Pos.eqb op_NOP op_RSR op_BL op_BE op_PUSHI op_PUSHV op_PUSHVI op_MOVI orb]. unfold opmov. unfold vbind at 1. rewrite (pop_reference_at _ _ _ _ T1 NT).
  unfold vbind at 1. rewrite (pop_int_at _ _ _ F2 (int_operand_popped _ _ _ O)). reflexivity.
Qed.

(** ** What is read afterwards *)
Lemma the_ctx_ok c s n : the_ctx c s = VRet n s -> the_ctx_of s c <> None.
Proof. unfold the_ctx, the_ctx_of. destruct c as [c|]; [|discriminate]. destruct (nth_N (v_heap s) c); discriminate. Qed.
Lemma read_ext k i idx c s s1 s' : v_syms s1 = v_syms s -> v_heap s1 = v_heap s ->
  match read_el k i idx c s1 with VRet v _ => VRet v s' | VExc e _ => VExc e s' | VUndef u _ => VUndef u s' | VFuel => VFuel end =
  match read_el k i idx c s with VRet v _ => VRet v s' | VExc e _ => VExc e s' | VUndef u _ => VUndef u s' | VFuel => VFuel end.
Proof.
  intros E1 E2. rewrite !read_eq. rewrite E1. destruct (nth_N (v_syms s) i); [|reflexivity].
  replace (the_ctx_of s1 c) with (the_ctx_of s c) by (unfold the_ctx_of; destruct c; [rewrite E2|]; reflexivity).
  destruct (the_ctx_of s c); [|reflexivity]. destruct (fetch_el k s0 idx o); reflexivity.
Qed.
Lemma effect_of U (w : SSym.write) s s1 size s' : layout_ok U s -> U (w_sym w) -> value_ok (w_val w) -> only_stack s s1 ->
  then_next size (write_el (w_val w) (w_sym w) (w_idx w) (w_ctx w) s1) = VRet true s' ->
  forall k j jdx d y n, U j -> nth_N (v_syms s) j = Some y -> (k = KFlt -> is_member y = true -> jdx < 256) -> the_ctx d s = VRet n s ->
    read_el k j jdx d s' = holds_after k j jdx d (is_member y) w (read_el k j jdx d s) s'.
Proof.
  intros L UI V OS W k j jdx d y n UJ Y KF C. pose proof OS as (E1 & E2 & _).
  destruct (write_el (w_val w) (w_sym w) (w_idx w) (w_ctx w) s1) as [[] s2|e s2|u s2|] eqn:Wr; try discriminate. injection W as <-.
  assert (L1 : layout_ok U s1) by (unfold layout_ok in *; rewrite E1; exact L).
  destruct (write_step U s1 w s2 L1 UI V Wr) as (_ & _ & H).
  assert (C1 : the_ctx_of s1 d <> None) by (apply the_ctx_ok in C; unfold the_ctx_of in *; rewrite E2; exact C).
  specialize (H k j jdx d y UJ). rewrite E1 in H. specialize (H Y KF C1).
  set (s3 := set_pc (u32 (v_pc s2 + size)) s2).
  assert (R : read_el k j jdx d s3 = match read_el k j jdx d s2 with VRet v _ => VRet v s3 | VExc e _ => VExc e s3 | VUndef u _ => VUndef u s3 | VFuel => VFuel end).
  { rewrite !read_eq. unfold s3. cbn [v_syms set_pc]. destruct (nth_N (v_syms s2) j); [|reflexivity].
    replace (the_ctx_of (set_pc (u32 (v_pc s2 + size)) s2) d) with (the_ctx_of s2 d) by reflexivity. destruct (the_ctx_of s2 d); [|reflexivity].
    destruct (fetch_el k s0 jdx o); reflexivity. }
  rewrite R, H. unfold holds_after. pose proof (read_ext k j jdx d s s1 s3 E1 E2) as X.
  destruct (same_el _ _ _ _ _ _ _), k, (w_val w); try reflexivity;
  destruct (read_el _ j jdx d s1); destruct (read_el _ j jdx d s); try discriminate X; try reflexivity; cbn in X |- *; congruence.
Qed.
Lemma assign_effect U h call ins s i idx c f v s' : assigns (i_op ins) (kind_of v) = true ->
  target s i idx c -> from_top s 1 f -> operand s f v -> layout_ok U s -> U i -> value_ok v ->
  step h call ins s = VRet true s' ->
  forall k j jdx d y n, U j -> nth_N (v_syms s) j = Some y -> (k = KFlt -> is_member y = true -> jdx < 256) -> the_ctx d s = VRet n s ->
    read_el k j jdx d s' = holds_after k j jdx d (is_member y) (mkWrite v i idx c) (read_el k j jdx d s) s'.
Proof.
  intros A T F O L UI V S. destruct (assign_step h call ins s i idx c f v A T F O) as (s1 & (OS & _) & E). rewrite E in S.
  exact (effect_of U (mkWrite v i idx c) s s1 (i_size ins) s' L UI V OS S).
Qed.

(* ------------------------------------------------------------------ *)
(** * Pushes *)

Lemma replaces_0 s f size : v_sp s < stack_size ->
  replaces s (pc_next size (set_stack (upd (v_slots s) (v_sp s) (Some f)) (u16 (v_sp s + 1)) s)) 0 f size.
Proof.
  intros H. unfold replaces. cbn [v_sp set_stack set_pc pc_next v_slots v_pc v_syms v_heap v_calls v_free v_inst v_flags v_text v_names v_addrs v_tmp v_glob].
  unfold stack_size in H. rewrite u16_small by lia. rewrite N.sub_0_r.
  split; [reflexivity|]. split; [unfold upd; rewrite N.eqb_refl; reflexivity|].
  split; [|auto 15]. intros k Hk. unfold upd. replace (k =? v_sp s) with false by (symmetry; apply N.eqb_neq; lia). reflexivity.
Qed.
Lemma push_frame_at f s : v_sp s < stack_size -> push_frame f s = VRet tt (set_stack (upd (v_slots s) (v_sp s) (Some f)) (u16 (v_sp s + 1)) s).
Proof.
  intros H. unfold push_frame. replace (v_sp s =? stack_size) with false by (symmetry; apply N.eqb_neq; lia).
  replace (stack_size <=? v_sp s) with false by (symmetry; apply N.leb_gt; lia). reflexivity.
Qed.
Lemma push_full f s : v_sp s = stack_size -> push_frame f s = VExc VmException s.
Proof. intros H. unfold push_frame. rewrite H, N.eqb_refl. reflexivity. Qed.

Lemma instruct_push h call ins s f : pushes_frame h s ins f -> instruct h call ins s = vbind (push_frame f) (fun _ => vret Step) s.
Proof.
  unfold instruct. cbv zeta. intros [(E & ->)|[(E & -> & H)|(E & K & -> & (b & x & X & _))]].
  - rewrite E. reflexivity.
  - assert (Q : exists x, nth_N (v_syms s) (i_symb ins) = Some x /\ (has_trap x = false \/ (has_trap x = true /\ h_trap h = None))).
    { destruct H as [(x & X & B)|[(x & X & B) C]]; exists x; auto. }
    destruct Q as (x & X & B).
    destruct E as [E|E]; rewrite E; cbn [N.eqb Pos.eqb op_NOP op_RSR op_BL op_BE op_PUSHI op_PUSHV op_PUSHVI op_MOVI orb];
      rewrite vbind_get; unfold find_by_index; rewrite X; (destruct B as [B|[B ->]]; rewrite B); reflexivity.
  - rewrite E. cbn [N.eqb Pos.eqb op_NOP op_RSR op_BL op_BE op_PUSHI op_PUSHV op_PUSHVI op_MOVI op_B op_BZ op_GMOVI op_PUSHVV orb].
    rewrite vbind_get. unfold find_by_index. rewrite X. unfold push_reference, reference, vbind at 1 2. unfold vget. rewrite u8_small by exact K. reflexivity.
Qed.
Lemma push_step h call ins s f : pushes_frame h s ins f ->
  (v_sp s < stack_size -> exists s', step h call ins s = VRet true s' /\ replaces s s' 0 f (i_size ins)) /\
  (v_sp s = stack_size -> step h call ins s = VExc VmException s).
Proof.
  intros P. pose proof (step_then h call ins s _ _ (instruct_push h call ins s f P)) as E. split; intros H; rewrite E.
  - rewrite (push_frame_at _ _ H). eexists. split; [reflexivity|]. apply replaces_0, H.
  - rewrite (push_full _ _ H). reflexivity.
Qed.
Lemma push_trap h call ins s t : i_op ins = 65 \/ i_op ins = 67 -> trapped s (i_symb ins) true -> h_trap h = Some t ->
  step h call ins s = then_next (i_size ins) (t (i_symb ins) s).
Proof.
  intros E (x & X & B) H. apply step_then. unfold instruct. cbv zeta.
  destruct E as [E|E]; rewrite E; cbn [N.eqb Pos.eqb op_NOP op_RSR op_BL op_BE op_PUSHI op_PUSHV op_PUSHVI op_MOVI orb];
    rewrite vbind_get; unfold find_by_index; rewrite X, B, H; reflexivity.
Qed.
Lemma push_unknown h call ins s : i_op ins = 65 \/ i_op ins = 67 \/ i_op ins = 245 \/ i_op ins = 80 -> nth_N (v_syms s) (i_symb ins) = None ->
  step h call ins s = VExc VmException s.
Proof.
  intros E X. unfold step. unfold vbind at 1. unfold instruct. cbv zeta.
  destruct E as [E|[E|[E|E]]]; rewrite E; cbn [N.eqb Pos.eqb op_NOP op_RSR op_BL op_BE op_PUSHI op_PUSHV op_PUSHVI op_MOVI op_B op_BZ op_GMOVI op_PUSHVV orb];
    rewrite vbind_get; unfold find_by_index; rewrite X; reflexivity.
Qed.
Lemma instance_step h call ins s v : i_op ins = 80 -> rd_inst (i_symb ins) s = VRet v s ->
  step h call ins s = VRet true (set_pc (u32 (v_pc s + i_size ins)) (set_inst v s)).
Proof.
  intros E R. assert (X : exists x, nth_N (v_syms s) (i_symb ins) = Some x).
  { unfold rd_inst, vbind, the_sym in R. destruct (nth_N (v_syms s) (i_symb ins)); [eauto|discriminate]. }
  destruct X as (x & X). unfold step. unfold vbind at 1. unfold instruct. cbv zeta. rewrite E.
  cbn [N.eqb Pos.eqb op_NOP op_RSR op_BL op_BE op_PUSHI op_PUSHV op_PUSHVI op_MOVI op_B op_BZ op_GMOVI op_PUSHVV orb].
  rewrite vbind_get. unfold find_by_index. rewrite X. unfold vbind at 1. rewrite R. reflexivity.
Qed.
Lemma assign_instance_effect h call ins s i idx c f v s' : i_op ins = 74 ->
  from_top s 0 (mkFrame c true (FSym i) idx) -> i <> v_tmp s -> from_top s 1 f -> instance_operand s f v ->
  step h call ins s = VRet true s' ->
  rd_inst i s' = VRet v s' /\ v_heap s' = v_heap s /\ v_sp s' = v_sp s - 2 /\ v_pc s' = u32 (v_pc s + i_size ins) /\
  forall j, j <> i -> nth_N (v_syms s') j = nth_N (v_syms s) j.
Proof.
  intros A T1 NT F O S. destruct (assign_instance h call ins s i idx c f v A T1 NT F O) as (s1 & (OS & SP & PC & _) & E). rewrite E in S.
  destruct OS as (E1 & E2 & _). unfold wr_inst, vbind, the_sym in S. destruct (nth_N (v_syms s1) i) as [x|] eqn:X; [|discriminate].
  unfold vlift in S. destruct (sym_set_inst x v) as [x'|e| |] eqn:W; try discriminate. cbn [then_next put_sym vmod] in S. unfold put_sym, vmod in S.
  cbn [then_next] in S. injection S as <-. cbn [v_heap v_sp v_pc v_syms set_syms set_pc].
  split; [|split; [exact E2|split; [exact SP|split; [rewrite PC; reflexivity|]]]].
  - unfold rd_inst, vbind, the_sym. cbn [v_syms set_syms set_pc]. rewrite nth_set_N, N.eqb_refl, (proj2 (N.ltb_lt _ _) (nth_N_lt _ _ _ X)).
    unfold sym_set_inst in W. destruct (negb _) eqn:Ty; [discriminate|]. destruct (s_val x) eqn:SV; try discriminate. injection W as <-. unfold vlift, sym_get_inst. cbn [s_type s_val with_val]. rewrite Ty. reflexivity.
  - intros j J. rewrite nth_set_N, (proj2 (N.eqb_neq _ _) (fun H => J H)), E1. reflexivity.
Qed.
