(** Single instructions, registration, error handling. *)

From Coq Require Import ZArith Lia.
From Verif Require Import MBase LBase MStream MDaedalus MVm LVm LVmCall LVmRun LVmExact SVm SVmOps LVmApi LSym LDaedalus.
Local Open Scope N_scope.
Local Open Scope v_scope.
Ltac Zify.zify_post_hook ::= idtac.

(* ------------------------------------------------------------------ *)
(** * Popping operands *)

Definition popped (s : vm) : vm :=
  match v_slots s (v_sp s - 1) with
  | Some f => set_stack (upd (v_slots s) (v_sp s - 1) (Some (moved f))) (v_sp s - 1) (note_under (v_sp s <=? floor s) s)
  | None => s
  end.
Lemma pop_frame_at s f : from_top s 0 f -> pop_frame s = VRet f (popped s).
Proof.
  intros (H1 & H2 & H3). rewrite N.sub_0_r in H3. unfold pop_frame, note_pop. rewrite vbind_mod, vbind_get. cbn [v_sp set_ghost note_under].
  unfold vbind at 1, slot. cbn [v_sp v_slots set_ghost note_under].
  replace (stack_size <=? v_sp s - 1) with false by (symmetry; apply N.leb_gt; lia). rewrite H3. unfold popped. rewrite H3. reflexivity.
Qed.
Lemma not_empty s k f : from_top s k f -> (v_sp s =? 0) = false.
Proof. intros (H & _). apply N.eqb_neq. lia. Qed.

Lemma rd_int_popped i idx c s v : rd_int i idx c s = VRet v s -> rd_int i idx c (popped s) = VRet v (popped s).
Proof.
  unfold popped. destruct (v_slots s (v_sp s - 1)) as [f|]; [|auto].
  set (s' := set_stack _ _ _). assert (E1 : v_syms s' = v_syms s) by reflexivity. assert (E2 : v_heap s' = v_heap s) by reflexivity. clearbody s'.
  unfold rd_int, vbind, the_sym. rewrite E1.
  destruct (nth_N (v_syms s) i) as [x|]; [|discriminate]. unfold the_ctx. rewrite E2. destruct c as [c|]; [destruct (nth_N (v_heap s) c) as [n|]; [|discriminate]|];
  unfold vlift; match goal with |- context[sym_get_int ?a ?b ?c] => destruct (sym_get_int a b c) end; try discriminate; intros H; injection H as <-; reflexivity.
Qed.
Lemma popped_syms s : v_syms (popped s) = v_syms s. Proof. unfold popped. destruct (v_slots _ _); reflexivity. Qed.
Lemma popped_heap s : v_heap (popped s) = v_heap s. Proof. unfold popped. destruct (v_slots _ _); reflexivity. Qed.
Lemma popped_flags s : v_flags (popped s) = v_flags s. Proof. unfold popped. destruct (v_slots _ _); reflexivity. Qed.
Lemma popped_tmp s : v_tmp (popped s) = v_tmp s. Proof. unfold popped. destruct (v_slots _ _); reflexivity. Qed.

Lemma pop_int_at s f v : from_top s 0 f -> int_operand s f v -> pop_int s = VRet v (popped s).
Proof.
  intros T O. unfold pop_int. unfold vbind at 1, is_empty. rewrite (not_empty _ _ _ T). unfold vbind at 1. rewrite (pop_frame_at _ _ T).
  destruct O as [[O1 O2]|(i & x & O1 & O2 & O3 & O4 & O5)].
  - rewrite O1, O2. reflexivity.
  - rewrite O1. unfold as_sym. rewrite O2. unfold vbind at 1, vret. unfold vm_get_int. unfold vbind at 1, the_sym.
    rewrite popped_syms, O3, vbind_get.
    replace (is_member x && match f_ctx f with None => true | Some _ => false end)%bool with false.
    + apply rd_int_popped, O5.
    + destruct (is_member x); [|reflexivity]. destruct (f_ctx f); [reflexivity|]. exfalso. apply O4; reflexivity.
Qed.

Lemma int_operand_popped s f v : int_operand s f v -> int_operand (popped s) f v.
Proof.
  intros [H|(i & x & O1 & O2 & O3 & O4 & O5)]; [left; exact H|right]. exists i, x. rewrite popped_syms.
  split; [exact O1|]. split; [exact O2|]. split; [exact O3|]. split; [exact O4|]. apply rd_int_popped, O5.
Qed.
Lemma from_top_popped s f g : from_top s 0 f -> from_top s 1 g -> from_top (popped s) 0 g.
Proof.
  intros (H1 & H2 & H3) (G1 & G2 & G3). rewrite N.sub_0_r in H3. unfold from_top, popped. rewrite H3. cbn [v_sp v_slots set_stack].
  split; [lia|]. split; [lia|]. unfold upd. replace (v_sp s - 1 - 1 - 0) with (v_sp s - 1 - 1) by lia.
  replace (v_sp s - 1 - 1 =? v_sp s - 1) with false by (symmetry; apply N.eqb_neq; lia). exact G3.
Qed.

(* ------------------------------------------------------------------ *)
(** * Arithmetic *)

Definition pc_next (size : N) (s : vm) : vm := set_pc (u32 (v_pc s + size)) s.
Definition answer (r : Z) (size : N) (s : vm) : vm :=
  pc_next size (set_stack (upd (v_slots s) (v_sp s) (Some (plain r))) (u16 (v_sp s + 1)) s).

Lemma push_int_at r s : v_sp s < stack_size ->
  push_int r s = VRet tt (set_stack (upd (v_slots s) (v_sp s) (Some (plain r))) (u16 (v_sp s + 1)) s).
Proof.
  intros H. unfold push_int, push_frame. replace (v_sp s =? stack_size) with false by (symmetry; apply N.eqb_neq; lia).
  replace (stack_size <=? v_sp s) with false by (symmetry; apply N.leb_gt; lia). reflexivity.
Qed.

Lemma popped_sp s f : from_top s 0 f -> v_sp (popped s) = v_sp s - 1.
Proof. intros (H1 & H2 & H3). rewrite N.sub_0_r in H3. unfold popped. rewrite H3. reflexivity. Qed.

Lemma binop_at g s fa fb a b : from_top s 0 fa -> from_top s 1 fb -> int_operand s fa a -> int_operand s fb b ->
  binop g s = match g a b (popped (popped s)) with
              | VRet r t => vbind (push_int r) (fun _ => vret Step) t
              | VExc e t => VExc e t | VUndef k t => VUndef k t | VFuel => VFuel end.
Proof.
  intros T1 T2 O1 O2. unfold binop. unfold vbind at 1. rewrite (pop_int_at s fa a T1 O1).
  unfold vbind at 1. rewrite (pop_int_at (popped s) fb b (from_top_popped _ _ _ T1 T2) (int_operand_popped _ _ _ O2)). reflexivity.
Qed.

Lemma popped_eq s f : from_top s 0 f ->
  popped s = set_stack (upd (v_slots s) (v_sp s - 1) (Some (moved f))) (v_sp s - 1) (note_under (v_sp s <=? floor s) s).
Proof. intros (H1 & H2 & H3). rewrite N.sub_0_r in H3. unfold popped. rewrite H3. reflexivity. Qed.

Lemma replaces_1 s f r size : from_top s 0 f -> replaces s (answer r size (popped s)) 1 (plain r) size.
Proof.
  intros T. pose proof (popped_sp _ _ T) as P. destruct T as (H1 & H2 & H3). rewrite N.sub_0_r in H3.
  unfold replaces, answer. cbn [v_sp set_stack set_pc pc_next v_slots v_pc v_syms v_heap v_calls v_free v_inst v_flags v_text v_names v_addrs v_tmp v_glob].
  rewrite P. unfold popped. rewrite H3. cbn. unfold stack_size in H2. rewrite u16_small by lia.
  split; [reflexivity|]. split; [unfold upd; rewrite N.eqb_refl; reflexivity|].
  split; [|auto 15]. intros k Hk. unfold upd. replace (k =? v_sp s - 1) with false by (symmetry; apply N.eqb_neq; lia). reflexivity.
Qed.
Lemma replaces_2 s f g r size : from_top s 0 f -> from_top s 1 g -> replaces s (answer r size (popped (popped s))) 2 (plain r) size.
Proof.
  intros T1 T2. pose proof (from_top_popped _ _ _ T1 T2) as T3. unfold replaces, answer.
  rewrite (popped_eq _ _ T3), (popped_eq _ _ T1). destruct T1 as (H1 & H2 & H3), T2 as (G1 & G2 & G3).
  cbn [v_sp set_stack set_pc pc_next v_slots v_pc v_syms v_heap v_calls v_free v_inst v_flags v_text v_names v_addrs v_tmp v_glob note_under set_ghost].
  unfold stack_size in *. replace (v_sp s - 1 - 1) with (v_sp s - 2) by lia. rewrite u16_small by lia.
  split; [reflexivity|]. split; [unfold upd; rewrite N.eqb_refl; reflexivity|].
  split; [|auto 15]. intros k Hk. unfold upd. replace (k =? v_sp s - 2) with false by (symmetry; apply N.eqb_neq; lia).
  replace (k =? v_sp s - 1) with false by (symmetry; apply N.eqb_neq; lia). reflexivity.
Qed.

Lemma fits_range v r : fits v = Some r -> r = v /\ forall s, ranged v s = VRet v s.
Proof.
  unfold fits. destruct ((- 2 ^ 31 <=? v) && (v <? 2 ^ 31))%Z eqn:E; [|discriminate]. intros H. injection H as <-. split; [reflexivity|].
  intros s. unfold ranged. apply andb_true_iff in E as [E1 E2]. apply Z.leb_le in E1. apply Z.ltb_lt in E2.
  replace ((imin <=? v) && (v <=? imax))%Z with true; [reflexivity|]. symmetry. apply andb_true_iff. unfold imin, imax.
  split; apply Z.leb_le; [exact E1|]. change (2 ^ 31)%Z with 2147483648%Z in E2. lia.
Qed.

Definition the_binop (op : N) : Z -> Z -> V Z :=
  match op with
  | 0 => c_add | 1 => c_sub | 2 => c_mul | 3 => checked_div c_div | 4 => checked_div c_mod
  | 5 => pure2 Z.lor | 6 => pure2 Z.land | 7 => pure2 (fun a b => zb (a <? b)%Z) | 8 => pure2 (fun a b => zb (a >? b)%Z)
  | 11 => pure2 (fun a b => zb (negb (a =? 0)%Z || negb (b =? 0)%Z)) | 12 => pure2 (fun a b => zb (negb (a =? 0)%Z && negb (b =? 0)%Z))
  | 13 => c_shl | 14 => c_shr | 15 => pure2 (fun a b => zb (a <=? b)%Z) | 16 => pure2 (fun a b => zb (a =? b)%Z)
  | 17 => pure2 (fun a b => zb (negb (a =? b)%Z)) | _ => pure2 (fun a b => zb (a >=? b)%Z)
  end.
Lemma binary_cases op : is_binary op = true -> In op [0;1;2;3;4;5;6;7;8;11;12;13;14;15;16;17;18].
Proof.
  unfold is_binary. intros H. apply orb_true_iff in H as [H|H].
  - apply N.leb_le in H. cbn [In]. lia.
  - apply andb_true_iff in H as [H1 H2]. apply N.leb_le in H1, H2. cbn [In]. lia.
Qed.
Ltac ops H := cbn [In] in H; repeat (destruct H as [H|H]; [subst|]); [..|destruct H].
Lemma instruct_binary h call i : is_binary (i_op i) = true -> instruct h call i = binop (the_binop (i_op i)).
Proof.
  intros H. apply binary_cases in H. unfold instruct. cbv zeta. remember (i_op i) as op. clear Heqop.
  ops H; reflexivity.
Qed.

Lemma quot_range a b : int32 a -> int32 b -> b <> 0%Z -> ~ (a = - 2 ^ 31 /\ b = -1)%Z -> (- 2 ^ 31 <= Z.quot a b < 2 ^ 31)%Z.
Proof.
  unfold int32. intros A B B0 N. change (2 ^ 31)%Z with 2147483648%Z in *.
  assert (Q : (Z.abs (Z.quot a b) <= Z.abs a)%Z).
  { rewrite <- Z.quot_abs by exact B0. destruct (Z.eq_dec (Z.abs a) 0) as [E|E]; [rewrite E; rewrite Z.quot_0_l by lia; lia|].
    destruct (Z.eq_dec (Z.abs b) 1) as [F|F]; [rewrite F, Z.quot_1_r; lia|]. apply Z.lt_le_incl, Z.quot_lt; lia. }
  destruct (Z.eq_dec a (-2147483648)) as [->|]; [|lia].
  assert (b = 1 \/ b < -1 \/ b > 1)%Z as [->|B1] by lia; [rewrite Z.quot_1_r; lia|].
  assert (Z.abs (Z.quot (-2147483648) b) < 2147483648)%Z; [|lia].
  rewrite <- Z.quot_abs by exact B0. apply Z.quot_lt; lia.
Qed.

Lemma shl_spec a b : (0 <= b < 32)%Z -> sint 32 (uint 32 (Z.shiftl a b)) = ((a * 2 ^ b + 2 ^ 31) mod 2 ^ 32 - 2 ^ 31)%Z.
Proof.
  intros H. rewrite Z.shiftl_mul_pow2 by lia. set (v := (a * 2 ^ b)%Z). unfold sint, uint.
  change (Z.of_N (2 ^ 32)) with 4294967296%Z. change (2 ^ 32)%Z with 4294967296%Z. change (2 ^ 31)%Z with 2147483648%Z.
  change (2 ^ (32 - 1)) with 2147483648. change (2 ^ 32) with 4294967296.
  pose proof (Z.mod_pos_bound v 4294967296 ltac:(lia)) as B. pose proof (Z.div_mod v 4294967296 ltac:(lia)) as D.
  remember (v / 4294967296)%Z as q. remember (v mod 4294967296)%Z as r. clearbody v. clear Heqq Heqr H. clear a b.
  rewrite (N.mod_small (Z.to_N r)) by lia.
  destruct (Z.to_N r <? 2147483648) eqn:E.
  - apply N.ltb_lt in E. rewrite Z2N.id by lia. 
    replace ((v + 2147483648) mod 4294967296)%Z with (r + 2147483648)%Z; [lia|]. apply Z.mod_unique with q; lia.
  - apply N.ltb_ge in E. rewrite Z2N.id by lia. 
    replace ((v + 2147483648) mod 4294967296)%Z with (r - 2147483648)%Z; [lia|]. apply Z.mod_unique with (q + 1)%Z; lia.
Qed.

Lemma the_binop_spec op a b r s : is_binary op = true -> int32 a -> int32 b -> binary op a b = Some r -> the_binop op a b s = VRet r s.
Proof.
  intros H A B. apply binary_cases in H. ops H; cbn [binary the_binop].
  - unfold c_add. intros E. apply fits_range in E as [-> E]. apply E.
  - unfold c_sub. intros E. apply fits_range in E as [-> E]. apply E.
  - unfold c_mul. intros E. apply fits_range in E as [-> E]. apply E.
  - unfold checked_div, c_div. destruct (b =? 0)%Z; [discriminate|]. intros E. apply fits_range in E as [-> E]. apply E.
  - unfold checked_div, c_mod. destruct (Z.eqb_spec b 0) as [|B0]; [discriminate|]. cbn [orb].
    destruct ((a =? - 2 ^ 31) && (b =? -1))%Z eqn:N; [discriminate|]. intros E. injection E as <-.
    assert (Q : (- 2 ^ 31 <= Z.quot a b < 2 ^ 31)%Z).
    { apply quot_range; auto. intros [-> ->]. vm_compute in N. discriminate. }
    replace ((imin <=? Z.quot a b) && (Z.quot a b <=? imax))%Z with true; [reflexivity|]. symmetry. apply andb_true_iff.
    change (2 ^ 31)%Z with 2147483648%Z in Q. unfold imin, imax. split; apply Z.leb_le; lia.
  - intros E. injection E as <-. reflexivity.
  - intros E. injection E as <-. reflexivity.
  - intros E. injection E as <-. reflexivity.
  - intros E. injection E as <-. unfold pure2. rewrite Z.gtb_ltb. reflexivity.
  - intros E. injection E as <-. reflexivity.
  - intros E. injection E as <-. reflexivity.
  - unfold c_shl. destruct ((0 <=? b) && (b <? 32))%Z eqn:R; [|discriminate]. intros E. injection E as <-.
    apply andb_true_iff in R as [R1 R2]. apply Z.leb_le in R1. apply Z.ltb_lt in R2. rewrite shl_spec by lia. reflexivity.
  - unfold c_shr. destruct ((0 <=? b) && (b <? 32))%Z eqn:R; [|discriminate]. intros E. injection E as <-.
    apply andb_true_iff in R as [R1 R2]. apply Z.leb_le in R1. rewrite Z.shiftr_div_pow2 by lia. reflexivity.
  - intros E. injection E as <-. reflexivity.
  - intros E. injection E as <-. reflexivity.
  - intros E. injection E as <-. reflexivity.
  - intros E. injection E as <-. unfold pure2. rewrite Z.geb_leb. reflexivity.
Qed.

Lemma push_step r size t : v_sp t < stack_size ->
  vbind (vbind (push_int r) (fun _ => vret Step)) (fun n => match n with
    | Step => vmod (fun s => set_pc (u32 (v_pc s + size)) s) ;! vret true | Jumped => vret true | Stop => vret false end) t = VRet true (answer r size t).
Proof. intros H. unfold vbind. rewrite push_int_at by exact H. reflexivity. Qed.

Lemma step_binary h call i s fa fb a b r : is_binary (i_op i) = true ->
  from_top s 0 fa -> from_top s 1 fb -> int_operand s fa a -> int_operand s fb b -> int32 a -> int32 b ->
  binary (i_op i) a b = Some r ->
  exists s', step h call i s = VRet true s' /\ replaces s s' 2 (plain r) (i_size i).
Proof.
  intros H T1 T2 O1 O2 A B R. exists (answer r (i_size i) (popped (popped s))). split; [|eapply replaces_2; eauto].
  unfold step. rewrite instruct_binary by exact H. unfold vbind at 1. rewrite (binop_at _ s fa fb a b T1 T2 O1 O2).
  rewrite (the_binop_spec _ a b r _ H A B R). apply (push_step r (i_size i)).
  rewrite (popped_sp _ _ (from_top_popped _ _ _ T1 T2)), (popped_sp _ _ T1). destruct T2 as (K1 & K2 & _). lia.
Qed.

Lemma step_div_zero h call i s fa fb a : (i_op i = 3 \/ i_op i = 4) ->
  from_top s 0 fa -> from_top s 1 fb -> int_operand s fa a -> int_operand s fb 0 ->
  exists s', step h call i s = VExc VmException s' /\ v_syms s' = v_syms s /\ v_heap s' = v_heap s /\ v_pc s' = v_pc s /\ v_calls s' = v_calls s.
Proof.
  intros H T1 T2 O1 O2. exists (popped (popped s)). split.
  - unfold step. rewrite instruct_binary by (destruct H as [-> | ->]; reflexivity). unfold vbind at 1. rewrite (binop_at _ s fa fb a 0 T1 T2 O1 O2).
    destruct H as [-> | ->]; reflexivity.
  - unfold popped at 1 3 5 7. destruct (v_slots (popped s) _); cbn -[popped]; unfold popped; destruct (v_slots s _); cbn; auto.
Qed.

Lemma step_unary h call i s f a r : from_top s 0 f -> int_operand s f a -> unary (i_op i) a = Some r ->
  exists s', step h call i s = VRet true s' /\ replaces s s' 1 (plain r) (i_size i).
Proof.
  intros T O R. exists (answer r (i_size i) (popped s)). split; [|eapply replaces_1; eauto].
  assert (L : v_sp (popped s) < stack_size) by (rewrite (popped_sp _ _ T); destruct T as (K1 & K2 & _); lia).
  assert (U : forall g, (forall t, g a t = VRet r t) -> step h call i s =
     vbind (unop g) (fun n => match n with
    | Step => vmod (fun s => set_pc (u32 (v_pc s + i_size i)) s) ;! vret true | Jumped => vret true | Stop => vret false end) s -> step h call i s = VRet true (answer r (i_size i) (popped s))).
  { intros g G ->. unfold unop. unfold vbind at 1. unfold vbind at 1. rewrite (pop_int_at s f a T O). unfold vbind at 1. rewrite G.
    apply (push_step r (i_size i)), L. }
  assert (C : In (i_op i) [30; 31; 32; 33]).
  { revert R. unfold unary. remember (i_op i) as op. destruct op as [|p]; [discriminate|].
    do 6 (try (destruct p as [p|p|]; try discriminate)); cbn; auto. }
  cbn [In] in C. destruct C as [C|[C|[C|[C|[]]]]]; rewrite <- C in R.
  - eapply U; [|unfold step, instruct; cbv zeta; rewrite <- C; reflexivity]. intros t. cbn in R. injection R as <-. reflexivity.
  - eapply U; [|unfold step, instruct; cbv zeta; rewrite <- C; reflexivity]. intros t. cbn [unary] in R. apply fits_range in R as [-> R]. apply R.
  - eapply U; [|unfold step, instruct; cbv zeta; rewrite <- C; reflexivity]. intros t. cbn in R. injection R as <-. reflexivity.
  - eapply U; [|unfold step, instruct; cbv zeta; rewrite <- C; reflexivity]. intros t. cbn [unary] in R. injection R as <-.
    unfold pure1, vret. f_equal.
Qed.
