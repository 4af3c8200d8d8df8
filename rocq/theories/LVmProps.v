(** Null instances, registration, jumps, error handlers, fuel. *)

From Coq Require Import ZArith Lia.
From Verif Require Import MBase LBase MStream MDaedalus MVm LVm LVmCall LVmRun LVmExact SVm SVmOps LVmApi LSym LDaedalus LVmOps.
Local Open Scope N_scope.
Local Open Scope v_scope.
Ltac Zify.zify_post_hook ::= idtac.

(* ------------------------------------------------------------------ *)
(** * Null instances *)

Lemma u8_small n : n < 256 -> u8 n = n.
Proof. intros H. unfold u8. apply N.mod_small. exact H. Qed.
Lemma nth_N_at_nil {A} k : nth_N (@nil A) k = None.
Proof. rewrite nth_N_error. destruct (N.to_nat k); reflexivity. Qed.
Lemma nth_N_out {A} (l : list A) n : nth_N l n = None -> len l <= n.
Proof. intros H. destruct (N.lt_ge_cases n (len l)) as [L|L]; [|exact L]. destruct (nth_N_Some _ _ L) as [a E]. congruence. Qed.

Lemma popped_only_stack s : only_stack s (popped s).
Proof. unfold only_stack, popped. destruct (v_slots s _); cbn; auto 15. Qed.
Lemma popped_pc s : v_pc (popped s) = v_pc s. Proof. unfold popped. destruct (v_slots _ _); reflexivity. Qed.
Lemma only_stack_trans a b c : only_stack a b -> only_stack b c -> only_stack a c.
Proof. unfold only_stack. intuition congruence. Qed.

Lemma pop_int_loose s i x idx : loose s 0 i x idx ->
  pop_int s = if flag_on s ALLOW_NULL then VRet 0%Z (popped s) else VExc NoContext (popped s).
Proof.
  intros (T & S & M & _). unfold pop_int. unfold vbind at 1, is_empty. rewrite (not_empty _ _ _ T). unfold vbind at 1. rewrite (pop_frame_at _ _ T).
  cbn [f_ref as_sym f_val f_ctx f_idx]. unfold vbind at 1, vret at 1. unfold vm_get_int. unfold vbind at 1, the_sym.
  rewrite popped_syms, S, vbind_get, M. cbn [andb]. unfold flag_on. rewrite popped_flags. destruct (negb _); reflexivity.
Qed.
Lemma pop_float_loose s i x idx : loose s 0 i x idx ->
  pop_float s = if flag_on s ALLOW_NULL then VRet 0 (popped s) else VExc NoContext (popped s).
Proof.
  intros (T & S & M & _). unfold pop_float. unfold vbind at 1, is_empty. rewrite (not_empty _ _ _ T). unfold vbind at 1. rewrite (pop_frame_at _ _ T).
  cbn [f_ref as_sym f_val f_ctx f_idx]. unfold vbind at 1, vret at 1. unfold vm_get_float. unfold vbind at 1, the_sym.
  rewrite popped_syms, S, vbind_get, M. cbn [andb]. unfold flag_on. rewrite popped_flags. destruct (negb _); reflexivity.
Qed.
Lemma pop_reference_at s i idx c : from_top s 0 (mkFrame c true (FSym i) idx) -> i <> v_tmp s ->
  pop_reference s = VRet (i, u8 idx, c) (popped s).
Proof.
  intros T NT. unfold pop_reference. unfold vbind at 1, is_empty. rewrite (not_empty _ _ _ T). unfold vbind at 1. rewrite (pop_frame_at _ _ T).
  cbn [f_ref negb as_sym f_val f_ctx f_idx]. unfold vbind at 1, vret at 1. rewrite vbind_get. rewrite popped_tmp.
  replace (i =? v_tmp s) with false by (symmetry; apply N.eqb_neq; exact NT). reflexivity.
Qed.
Lemma pop_string_loose s i x idx : loose s 0 i x idx ->
  pop_string s = if flag_on s ALLOW_NULL then VRet [] (popped s) else VExc NoContext (popped s).
Proof.
  intros (T & S & M & NT). unfold pop_string. unfold vbind at 1. rewrite (pop_reference_at _ _ _ _ T NT).
  unfold vbind at 1, the_sym. rewrite popped_syms, S, vbind_get, M. cbn [andb]. unfold flag_on. rewrite popped_flags. destruct (negb _); reflexivity.
Qed.

Definition next_pc (size : N) (s : vm) : vm := set_pc (u32 (v_pc s + size)) s.
Lemma next_only_stack n s : only_stack s (next_pc n s).
Proof. unfold only_stack, next_pc. cbn. auto 15. Qed.

Lemma guarded_loose s i x w : nth_N (v_syms s) i = Some x -> is_member x = true -> is_const x = false ->
  guarded_write None i w s = if flag_on s ALLOW_NULL then VRet tt s else w s.
Proof.
  intros S M C. unfold guarded_write. unfold vbind at 1, the_sym. rewrite S, vbind_get, C, M. cbn [andb negb orb].
  destruct (flag_on s ALLOW_NULL); reflexivity.
Qed.
Lemma wr_int_loose s i x v idx : nth_N (v_syms s) i = Some x -> is_member x = true ->
  exists e, wr_int i v idx None s = VExc e s /\ is_script_error e = true.
Proof.
  intros S M. unfold wr_int, wr_sym, vbind, the_sym, the_ctx, vlift, sym_set_int. rewrite S, M.
  destruct (negb _); [eexists; split; reflexivity|]. destruct (_ <=? _); eexists; split; reflexivity.
Qed.
Lemma wr_float_loose s i x v idx : nth_N (v_syms s) i = Some x -> is_member x = true ->
  exists e, wr_float i v idx None s = VExc e s /\ is_script_error e = true.
Proof.
  intros S M. unfold wr_float, wr_sym, vbind, the_sym, the_ctx, vlift, sym_set_float. rewrite S, M.
  destruct (negb _); [eexists; split; reflexivity|]. destruct (_ <=? _); eexists; split; reflexivity.
Qed.
Lemma wr_string_loose s i x v idx : nth_N (v_syms s) i = Some x -> is_member x = true ->
  exists e, wr_string i v idx None s = VExc e s /\ is_script_error e = true.
Proof.
  intros S M. unfold wr_string, wr_sym, vbind, the_sym, the_ctx, vlift, sym_set_string. rewrite S, M.
  destruct (negb _); [eexists; split; reflexivity|]. destruct (_ <=? _); eexists; split; reflexivity.
Qed.
Lemma rd_int_loose s i x idx : nth_N (v_syms s) i = Some x -> is_member x = true ->
  exists e, rd_int i idx None s = VExc e s /\ is_script_error e = true.
Proof.
  intros S M. unfold rd_int, vbind, the_sym, the_ctx, vlift, sym_get_int. rewrite S, M.
  destruct (negb _); [eexists; split; reflexivity|]. destruct (_ <=? _); eexists; split; reflexivity.
Qed.

(** The assignments whose target is on top of the stack and whose value is an integer below it. *)

Lemma step_int_write_loose h call ins s i x idx f v :
  is_int_write (i_op ins) = true -> loose s 0 i x idx -> is_const x = false -> from_top s 1 f -> int_operand s f v ->
  (i_op ins = 22 -> v <> 0%Z) ->
  if flag_on s ALLOW_NULL
  then exists s', step h call ins s = VRet true s' /\ only_stack s s' /\ v_sp s' = v_sp s - 2 /\ v_pc s' = u32 (v_pc s + i_size ins)
  else exists e s', step h call ins s = VExc e s' /\ is_script_error e = true /\ only_stack s s'.
Proof.
  intros W (T & S & M & NT) C T2 O D. pose proof (from_top_popped _ _ _ T T2) as T3. pose proof (int_operand_popped _ _ _ O) as O3.
  set (s2 := popped (popped s)).
  assert (P : only_stack s s2) by (eapply only_stack_trans; apply popped_only_stack).
  assert (S2 : nth_N (v_syms s2) i = Some x) by (unfold s2; rewrite !popped_syms; exact S).
  assert (F2 : flag_on s2 ALLOW_NULL = flag_on s ALLOW_NULL) by (unfold s2, flag_on; rewrite !popped_flags; reflexivity).
  assert (SP : v_sp s2 = v_sp s - 2) by (unfold s2; rewrite (popped_sp _ _ T3), (popped_sp _ _ T); lia).
  assert (PC : v_pc s2 = v_pc s) by (unfold s2; rewrite !popped_pc; reflexivity).
  assert (G : forall w, (exists e, w s2 = VExc e s2 /\ is_script_error e = true) ->
    forall m, m s = vbind (guarded_write None i w) (fun _ => vret Step) s2 ->
    if flag_on s ALLOW_NULL
    then exists s', vbind m (fun n => match n with
    | Step => vmod (fun s => set_pc (u32 (v_pc s + i_size ins)) s) ;! vret true | Jumped => vret true | Stop => vret false end) s = VRet true s' /\ only_stack s s' /\ v_sp s' = v_sp s - 2 /\ v_pc s' = u32 (v_pc s + i_size ins)
    else exists e s', vbind m (fun n => match n with
    | Step => vmod (fun s => set_pc (u32 (v_pc s + i_size ins)) s) ;! vret true | Jumped => vret true | Stop => vret false end) s = VExc e s' /\ is_script_error e = true /\ only_stack s s').
  { intros w (e & W1 & W2) m E. unfold vbind in E at 1. rewrite (guarded_loose s2 i x w S2 M C), F2 in E.
    destruct (flag_on s ALLOW_NULL).
    - unfold vbind at 1. rewrite E. exists (next_pc (i_size ins) s2). split; [reflexivity|]. split; [eapply only_stack_trans; [exact P|apply next_only_stack]|].
      split; [exact SP|]. cbn. rewrite PC. reflexivity.
    - unfold vbind at 1. rewrite E, W1. exists e, s2. auto. }
  unfold step.
  assert (CS : i_op ins = 9 \/ i_op ins = 72 \/ (i_op ins = 19 \/ i_op ins = 20 \/ i_op ins = 21) \/ i_op ins = 22).
  { unfold is_int_write in W. repeat rewrite orb_true_iff in W. repeat rewrite N.eqb_eq in W. intuition. }
  assert (MV : forall idx', exists e, wr_int i v idx' None s2 = VExc e s2 /\ is_script_error e = true) by (intros; eapply wr_int_loose; eauto).
  assert (OM : forall g idx', exists e, (let! o := rd_int i idx' None in let! n := g o v in wr_int i n idx' None) s2 = VExc e s2 /\ is_script_error e = true).
  { intros g idx'. destruct (rd_int_loose s2 i x idx' S2 M) as (e & E & E'). exists e. unfold vbind at 1. rewrite E. auto. }
  assert (MOVI : (let! r := pop_reference in let '(t, idx, c) := r in let! v := pop_int in vm_set_int c t idx v ;! vret Step) s =
    vbind (guarded_write None i (wr_int i v (u8 idx) None)) (fun _ => vret Step) s2).
  { unfold vbind at 1. rewrite (pop_reference_at _ _ _ _ T NT). unfold vbind at 1. rewrite (pop_int_at _ _ _ T3 O3). reflexivity. }
  assert (OPM : forall dv g, (dv = true -> v <> 0%Z) -> opmov dv g s =
    vbind (guarded_write None i (let! o := rd_int i (u8 idx) None in let! n := g o v in wr_int i n (u8 idx) None)) (fun _ => vret Step) s2).
  { intros dv g H. unfold opmov. unfold vbind at 1. rewrite (pop_reference_at _ _ _ _ T NT). unfold vbind at 1. rewrite (pop_int_at _ _ _ T3 O3).
    replace (dv && (v =? 0)%Z)%bool with false; [reflexivity|]. destruct dv; [|reflexivity]. symmetry. apply Z.eqb_neq. auto. }
  destruct CS as [E|[E|[[E|[E|E]]|E]]].
  - eapply G; [apply MV|]. unfold instruct. cbv zeta. rewrite E. exact MOVI.
  - eapply G; [apply MV|]. unfold instruct. cbv zeta. rewrite E. exact MOVI.
  - eapply G; [apply (OM c_add)|]. unfold instruct. cbv zeta. rewrite E. apply OPM. discriminate.
  - eapply G; [apply (OM c_sub)|]. unfold instruct. cbv zeta. rewrite E. apply OPM. discriminate.
  - eapply G; [apply (OM c_mul)|]. unfold instruct. cbv zeta. rewrite E. apply OPM. discriminate.
  - eapply G; [apply (OM c_div)|]. unfold instruct. cbv zeta. rewrite E. apply OPM. intros _. apply D, E.
Qed.

Lemma step_float_write_loose h call ins s i x idx v :
  i_op ins = 73 -> loose s 0 i x idx -> is_const x = false -> from_top s 1 (mkFrame None false (FFloat v) 0) ->
  if flag_on s ALLOW_NULL
  then exists s', step h call ins s = VRet true s' /\ only_stack s s' /\ v_sp s' = v_sp s - 2 /\ v_pc s' = u32 (v_pc s + i_size ins)
  else exists e s', step h call ins s = VExc e s' /\ is_script_error e = true /\ only_stack s s'.
Proof.
  intros E (T & S & M & NT) C T2. pose proof (from_top_popped _ _ _ T T2) as T3.
  set (s2 := popped (popped s)).
  assert (P : only_stack s s2) by (eapply only_stack_trans; apply popped_only_stack).
  assert (S2 : nth_N (v_syms s2) i = Some x) by (unfold s2; rewrite !popped_syms; exact S).
  assert (F2 : flag_on s2 ALLOW_NULL = flag_on s ALLOW_NULL) by (unfold s2, flag_on; rewrite !popped_flags; reflexivity).
  assert (SP : v_sp s2 = v_sp s - 2) by (unfold s2; rewrite (popped_sp _ _ T3), (popped_sp _ _ T); lia).
  assert (PC : v_pc s2 = v_pc s) by (unfold s2; rewrite !popped_pc; reflexivity).
  assert (I : instruct h call ins s = vbind (guarded_write None i (wr_float i v (u8 idx) None)) (fun _ => vret Step) s2).
  { unfold instruct. cbv zeta. rewrite E. cbn [N.eqb Pos.eqb op_NOP op_RSR op_BL op_BE op_PUSHI op_PUSHV op_PUSHVI op_MOVI orb].
    unfold vbind at 1. rewrite (pop_reference_at _ _ _ _ T NT).
    unfold vbind at 1. unfold pop_float. unfold vbind at 1, is_empty. rewrite (not_empty _ _ _ T3). unfold vbind at 1. rewrite (pop_frame_at _ _ T3). reflexivity. }
  unfold vbind in I at 1. rewrite (guarded_loose s2 i x _ S2 M C), F2 in I. unfold step. destruct (flag_on s ALLOW_NULL).
  - unfold vbind at 1. rewrite I. exists (next_pc (i_size ins) s2). split; [reflexivity|]. split; [eapply only_stack_trans; [exact P|apply next_only_stack]|].
    split; [exact SP|]. cbn. rewrite PC. reflexivity.
  - destruct (wr_float_loose s2 i x v (u8 idx) S2 M) as (e & W1 & W2). unfold vbind at 1. rewrite I, W1. exists e, s2. auto.
Qed.

Lemma rd_string_ext i idx c s s' v : v_syms s' = v_syms s -> v_heap s' = v_heap s -> rd_string i idx c s = VRet v s -> rd_string i idx c s' = VRet v s'.
Proof.
  intros E1 E2. unfold rd_string, vbind, the_sym. rewrite E1.
  destruct (nth_N (v_syms s) i) as [x|]; [|discriminate]. unfold the_ctx. rewrite E2. destruct c as [c|]; [destruct (nth_N (v_heap s) c) as [n|]; [|discriminate]|];
  unfold vlift; match goal with |- context[sym_get_string ?a ?b ?c] => destruct (sym_get_string a b c) end; try discriminate; intros H; injection H as <-; reflexivity.
Qed.
Lemma step_string_write_loose h call ins s i x idx j y k c v :
  i_op ins = 70 -> loose s 0 i x idx -> is_const x = false ->
  from_top s 1 (mkFrame c true (FSym j) k) -> j <> v_tmp s -> nth_N (v_syms s) j = Some y -> (is_member y = true -> c <> None) -> k < 256 ->
  rd_string j k c s = VRet v s ->
  if flag_on s ALLOW_NULL
  then exists s', step h call ins s = VRet true s' /\ only_stack s s' /\ v_sp s' = v_sp s - 2 /\ v_pc s' = u32 (v_pc s + i_size ins)
  else exists e s', step h call ins s = VExc e s' /\ is_script_error e = true /\ only_stack s s'.
Proof.
  intros E (T & S & M & NT) C T2 NJ SY MY K RD. pose proof (from_top_popped _ _ _ T T2) as T3.
  set (s2 := popped (popped s)).
  assert (P : only_stack s s2) by (eapply only_stack_trans; apply popped_only_stack).
  assert (S2 : nth_N (v_syms s2) i = Some x) by (unfold s2; rewrite !popped_syms; exact S).
  assert (F2 : flag_on s2 ALLOW_NULL = flag_on s ALLOW_NULL) by (unfold s2, flag_on; rewrite !popped_flags; reflexivity).
  assert (SP : v_sp s2 = v_sp s - 2) by (unfold s2; rewrite (popped_sp _ _ T3), (popped_sp _ _ T); lia).
  assert (PC : v_pc s2 = v_pc s) by (unfold s2; rewrite !popped_pc; reflexivity).
  assert (PS : pop_string (popped s) = VRet v s2).
  { unfold pop_string. unfold vbind at 1. rewrite (pop_reference_at _ _ _ _ T3) by (rewrite popped_tmp; exact NJ).
    unfold vbind at 1, the_sym. rewrite !popped_syms, SY, vbind_get.
    replace (is_member y && match c with None => true | _ => false end)%bool with false.
    - rewrite u8_small by exact K. apply (rd_string_ext j k c s); [apply P|apply P|exact RD].
    - destruct (is_member y); [|reflexivity]. destruct c; [reflexivity|]. exfalso. apply MY; reflexivity. }
  assert (I : instruct h call ins s = vbind (guarded_write None i (wr_string i v (u8 idx) None)) (fun _ => vret Step) s2).
  { unfold instruct. cbv zeta. rewrite E. cbn [N.eqb Pos.eqb op_NOP op_RSR op_BL op_BE op_PUSHI op_PUSHV op_PUSHVI op_MOVI orb].
    unfold vbind at 1. rewrite (pop_reference_at _ _ _ _ T NT).
    unfold vbind at 1. rewrite PS. reflexivity. }
  unfold vbind in I at 1. rewrite (guarded_loose s2 i x _ S2 M C), F2 in I. unfold step. destruct (flag_on s ALLOW_NULL).
  - unfold vbind at 1. rewrite I. exists (next_pc (i_size ins) s2). split; [reflexivity|]. split; [eapply only_stack_trans; [exact P|apply next_only_stack]|].
    split; [exact SP|]. cbn. rewrite PC. reflexivity.
  - destruct (wr_string_loose s2 i x v (u8 idx) S2 M) as (e & W1 & W2). unfold vbind at 1. rewrite I, W1. exists e, s2. auto.
Qed.

(* ------------------------------------------------------------------ *)
(** * Registration *)

Lemma bad_external_throws {A} t s : t < 8 -> @bad_external A t s = VExc IllegalExternal s.
Proof. intros H. unfold bad_external. replace (8 <=? t) with false by (symmetry; apply N.leb_gt; exact H). reflexivity. Qed.

Lemma check_return_spec x r s : s_rtype x < 8 ->
  (return_matches r (declared_return x) /\ check_return x r s = VRet tt s) \/
  (~ return_matches r (declared_return x) /\ exists e, check_return x r s = VExc e s).
Proof.
  intros H. unfold check_return, declared_return. pose proof (bad_external_throws (A := unit) (s_rtype x) s H) as B.
  assert (Q : forall t, (s_rtype x = t /\ (if s_rtype x =? t then vret tt else bad_external (s_rtype x)) s = VRet tt s) \/
                        (s_rtype x <> t /\ exists e, (if s_rtype x =? t then vret tt else bad_external (s_rtype x)) s = VExc e s)).
  { intros t. destruct (N.eqb_spec (s_rtype x) t); [left|right]; eauto. }
  destruct r, (has_return x); cbn [negb return_matches]; try apply Q; try (right; split; [tauto|eexists; exact B]).
  - left. split; [exact I|reflexivity].
  - right. split; [tauto|]. eexists. reflexivity.
Qed.
Lemma ptype_ok_spec p t : ptype_ok p t = true <-> param_matches p t.
Proof. destruct p; cbn; rewrite ?orb_true_iff, ?N.eqb_eq; reflexivity. Qed.
Lemma check_params_spec s ps : forall first,
  (forall k, k < len ps -> exists y, nth_N (v_syms s) (first + k) = Some y /\ s_type y < 8) ->
  exists ts, len ts = len ps /\ (forall k t, nth_N ts k = Some t -> exists y, nth_N (v_syms s) (first + k) = Some y /\ s_type y = t) /\
  ((Forall2 param_matches ps ts /\ check_params first ps s = VRet tt s) \/
   (~ Forall2 param_matches ps ts /\ exists e, check_params first ps s = VExc e s)).
Proof.
  induction ps as [|p ps IH]; intros first H.
  - exists []. split; [reflexivity|]. split; [intros k t E; rewrite nth_N_at_nil in E; discriminate|]. left. split; [constructor|reflexivity].
  - destruct (H 0) as (y & Y1 & Y2); [rewrite len_cons; lia|]. rewrite N.add_0_r in Y1.
    destruct (IH (first + 1)) as (ts & L & Q & D).
    { intros k K. destruct (H (1 + k)) as (z & Z1 & Z2); [rewrite len_cons; lia|]. rewrite N.add_assoc in Z1. eauto. }
    exists (s_type y :: ts). split; [rewrite !len_cons; lia|]. split.
    { intros k t E. destruct (N.eq_dec k 0) as [->|K0].
      - cbn in E. injection E as <-. rewrite N.add_0_r. eauto.
      - replace k with (1 + (k - 1)) in E |- * by lia. replace (1 + (k - 1)) with (k - 1 + 1) in E by lia. rewrite nth_N_S in E.
        rewrite N.add_assoc. apply Q, E. }
    cbn [check_params]. rewrite vbind_get, Y1. destruct (ptype_ok p (s_type y)) eqn:P.
    + destruct D as [[D1 D2]|[D1 (e & D2)]]; [left|right]; rewrite D2; (split; [|eauto]).
      * constructor; [apply ptype_ok_spec, P|exact D1].
      * intros F. inversion F; subst. contradiction.
    + right. split; [|rewrite bad_external_throws by exact Y2; eauto]. intros F. inversion F; subst. apply ptype_ok_spec in H3. congruence.
Qed.

Lemma Forall2_len {A B} (R : A -> B -> Prop) l m : Forall2 R l m -> len l = len m.
Proof. induction 1; [reflexivity|]. rewrite !len_cons, IHForall2. reflexivity. Qed.
Lemma declared_unique s i x ts us : declared_params s i x ts -> declared_params s i x us -> ts = us.
Proof.
  intros [A1 A2] [B1 B2]. apply nth_N_ext. intros k. destruct (nth_N ts k) as [t|] eqn:E.
  - pose proof (nth_N_lt _ _ _ E). destruct (nth_N us k) as [u|] eqn:F.
    + destruct (A2 _ _ E) as (y & Y1 & <-), (B2 _ _ F) as (z & Z1 & <-). congruence.
    + apply nth_N_out in F. lia.
  - apply nth_N_out in E. symmetry. apply nth_N_None. lia.
Qed.

Lemma check_native_spec s i x ps r : types_known s -> nth_N (v_syms s) i = Some x -> i + s_count x < len (v_syms s) ->
  (signature_ok s i x ps r /\ check_native i x ps r s = VRet tt s) \/
  (~ signature_ok s i x ps r /\ exists e, check_native i x ps r s = VExc e s).
Proof.
  intros K S B. destruct (K _ _ S) as [_ RT].
  destruct (check_return_spec x r s RT) as [[R1 R2]|[R1 (e & R2)]].
  2:{ right. split; [intros [H _]; contradiction|]. exists e. unfold check_native, vbind. rewrite R2. reflexivity. }
  assert (Q0 : check_native i x ps r s = (if negb (s_count x =? len ps) then vthrow IllegalExternal else check_params (i + 1) ps) s).
  { unfold check_native, vbind. rewrite R2. reflexivity. }
  rewrite Q0. clear Q0.
  destruct (N.eqb_spec (s_count x) (len ps)) as [E|E]; cbn [negb].
  2:{ right. split; [|eexists; reflexivity]. intros (_ & ts & (L & _) & F). apply E. rewrite <- L. symmetry. exact (Forall2_len _ _ _ F). }
  destruct (check_params_spec s ps (i + 1)) as (ts & L & Q & D).
  { intros k Hk. assert (X : i + 1 + k < len (v_syms s)) by lia. destruct (nth_N (v_syms s) (i + 1 + k)) as [y|] eqn:Y.
    - exists y. split; [reflexivity|]. apply (K _ _ Y).
    - apply nth_N_out in Y. lia. }
  assert (DP : declared_params s i x ts) by (split; [lia|exact Q]).
  destruct D as [[D1 D2]|[D1 D2]]; [left|right]; (split; [|exact D2]).
  - split; [exact R1|]. eauto.
  - intros (_ & us & U1 & U2). rewrite (declared_unique _ _ _ _ _ DP U1) in D1. contradiction.
Qed.

Lemma register_external_spec h name ps r cb s i x :
  types_known s -> find_by_name (v_names s) name = Some i -> nth_N (v_syms s) i = Some x -> i + s_count x < len (v_syms s) ->
  (is_external x = true /\ signature_ok s i x ps r /\ register_external h name ps r cb s = VRet (add_ext h i (wrap_external ps r cb)) s) \/
  (~ (is_external x = true /\ signature_ok s i x ps r) /\ exists e, register_external h name ps r cb s = VExc e s).
Proof.
  intros K F S B.
  assert (Q0 : register_external h name ps r cb s = (if negb (is_external x) then vthrow VmException
      else check_native i x ps r ;! vret (add_ext h i (wrap_external ps r cb))) s).
  { unfold register_external. rewrite vbind_get, F. unfold vbind at 1, the_sym. rewrite S. reflexivity. }
  rewrite Q0. clear Q0.
  destruct (is_external x); cbn [negb]; [|right; split; [intros [? _]; discriminate|eexists; reflexivity]].
  destruct (check_native_spec s i x ps r K S B) as [[C1 C2]|[C1 (e & C2)]]; [left|right].
  - split; [reflexivity|]. split; [exact C1|]. unfold vbind at 1. rewrite C2. reflexivity.
  - split; [intros [_ ?]; contradiction|]. exists e. unfold vbind at 1. rewrite C2. reflexivity.
Qed.
Lemma override_function_spec h name ps r cb s i x :
  types_known s -> find_by_name (v_names s) name = Some i -> nth_N (v_syms s) i = Some x -> i + s_count x < len (v_syms s) ->
  (is_external x = false /\ signature_ok s i x ps r /\
     override_function h name ps r cb s = VRet (add_over h (s_addr x) (push_call i ;! wrap_external ps r cb ;! pop_call)) s) \/
  (~ (is_external x = false /\ signature_ok s i x ps r) /\ exists e, override_function h name ps r cb s = VExc e s).
Proof.
  intros K F S B.
  assert (Q0 : override_function h name ps r cb s = (if is_external x then vthrow VmException
      else check_native i x ps r ;! vret (add_over h (s_addr x) (push_call i ;! wrap_external ps r cb ;! pop_call))) s).
  { unfold override_function. rewrite vbind_get, F. unfold vbind at 1, the_sym. rewrite S. reflexivity. }
  rewrite Q0. clear Q0.
  destruct (is_external x); [right; split; [intros [? _]; discriminate|eexists; reflexivity]|].
  destruct (check_native_spec s i x ps r K S B) as [[C1 C2]|[C1 (e & C2)]]; [left|right].
  - split; [reflexivity|]. split; [exact C1|]. unfold vbind at 1. rewrite C2. reflexivity.
  - split; [intros [_ ?]; contradiction|]. exists e. unfold vbind at 1. rewrite C2. reflexivity.
Qed.

(** Calls. *)
Lemma arg_ok_spec v t : arg_ok v t = true <-> arg_matches v t.
Proof. destruct v; cbn; rewrite ?orb_true_iff, ?N.eqb_eq; try reflexivity; (split; [discriminate|tauto]). Qed.
Lemma call_count_checked fuel h i x args r s : nth_N (v_syms s) i = Some x ->
  (s_type x <> T_FUNCTION \/ s_count x <> len args) -> call_function fuel h (Some i) args r s = VExc VmException s.
Proof.
  intros S H. unfold call_function, vbind at 1, the_sym. rewrite S. destruct (N.eqb_spec (s_type x) T_FUNCTION) as [E|E]; cbn [negb]; [|reflexivity].
  destruct (N.eqb_spec (s_count x) (len args)) as [F|F]; cbn [negb]; [|reflexivity]. destruct H; contradiction.
Qed.

Lemma push_params_types vs : forall first s s', push_params first vs s = VRet tt s' -> first + len vs <= v_tmp s ->
  exists ts, len ts = len vs /\ (forall k t, nth_N ts k = Some t -> exists y, nth_N (v_syms s) (first + k) = Some y /\ s_type y = t) /\ Forall2 arg_matches vs ts.
Proof.
  induction vs as [|v vs IH]; intros first s s' E L.
  - exists []. split; [reflexivity|]. split; [intros k t F; rewrite nth_N_at_nil in F; discriminate|constructor].
  - cbn [push_params] in E. rewrite vbind_get in E. destruct (nth_N (v_syms s) first) as [y|] eqn:Y; [|discriminate].
    destruct (arg_ok v (s_type y)) eqn:A; [|unfold bad_external in E; destruct (8 <=? s_type y); discriminate].
    apply vbind_ret in E as (u & s1 & E1 & E2). pose proof (keeps_push_value v s) as K. rewrite E1 in K. cbn in K.
    pose proof (mo_static _ _ (proj1 K)) as ST. rewrite len_cons in L.
    assert (TM : v_tmp s1 = v_tmp s) by (destruct ST; auto).
    destruct (IH (first + 1) s1 s' E2) as (ts & T1 & T2 & T3); [lia|].
    exists (s_type y :: ts). split; [rewrite !len_cons; lia|]. split; [|constructor; [apply arg_ok_spec, A|exact T3]].
    intros k t F. destruct (N.eq_dec k 0) as [->|K0].
    + cbn in F. injection F as <-. rewrite N.add_0_r. eauto.
    + replace k with (k - 1 + 1) in F by lia. rewrite nth_N_S in F. pose proof (nth_N_lt _ _ _ F) as LT.
      destruct (T2 _ _ F) as (z & Z1 & Z2). replace (first + 1 + (k - 1)) with (first + k) in Z1 by lia.
      destruct (nth_N (v_syms s) (first + k)) as [w|] eqn:W.
      * destruct (shape1_static s s1 (first + k) w ST W) as (v1 & V1); [lia|]. rewrite Z1 in V1. injection V1 as ->. exists w. split; [reflexivity|exact Z2].
      * exfalso. assert (NT : first + k <> v_tmp s) by lia. pose proof (st_sym _ _ ST (first + k) NT) as Q. rewrite W, Z1 in Q. discriminate.
Qed.
(** A call whose arguments do not match does not reach the function. *)
Lemma call_types_checked i x args ts r s : nth_N (v_syms s) i = Some x -> i + s_count x < v_tmp s ->
  declared_params s i x ts -> ~ Forall2 arg_matches args ts ->
  exists o, (forall fuel h, call_function fuel h (Some i) args r s = o) /\ match o with VRet _ _ => False | _ => True end.
Proof.
  intros S B D N. unfold call_function, vbind at 1, the_sym. rewrite S.
  destruct (negb (s_type x =? T_FUNCTION)); [exists (VExc VmException s); split; [reflexivity|exact I]|].
  destruct (N.eqb_spec (s_count x) (len args)) as [F|F]; cbn [negb]; [|exists (VExc VmException s); split; [reflexivity|exact I]].
  unfold vbind at 1. unfold check_call_return. match goal with |- context[if ?b then vret tt else _] => destruct b end; [|exists (VExc VmException s); split; [reflexivity|exact I]].
  cbv beta iota delta [vret]. unfold vbind at 1.
  destruct (push_params (i + 1) args s) as [[] s'|e s'|k s'|] eqn:E.
  - exfalso. apply N. destruct (push_params_types _ _ _ _ E) as (us & U1 & U2 & U3); [lia|].
    replace ts with us; [exact U3|]. apply (declared_unique s i x); [split; [lia|exact U2]|exact D].
  - exists (VExc e s'). split; [reflexivity|exact I].
  - exists (VUndef k s'). split; [reflexivity|exact I].
  - exists VFuel. split; [reflexivity|exact I].
Qed.

(* ------------------------------------------------------------------ *)
(** * Jumps *)

Lemma step_jump h call ins s : i_op ins = op_B ->
  (i_addr ins < text_size (v_text s) /\ step h call ins s = VRet true (set_pc (i_addr ins) s)) \/
  (text_size (v_text s) <= i_addr ins /\ step h call ins s = VExc VmException s).
Proof.
  intros E. unfold step, instruct. cbv zeta. rewrite E. cbn [N.eqb Pos.eqb op_NOP op_RSR op_BL op_BE op_PUSHI op_PUSHV op_PUSHVI op_MOVI op_B orb].
  unfold vbind, jump. destruct (N.leb_spec (text_size (v_text s)) (i_addr ins)); [right|left]; split; auto.
Qed.
Lemma step_branch h call ins s f v : i_op ins = op_BZ -> from_top s 0 f -> int_operand s f v ->
  (v <> 0%Z /\ step h call ins s = VRet true (set_pc (u32 (v_pc s + i_size ins)) (popped s))) \/
  (v = 0%Z /\ i_addr ins < text_size (v_text s) /\ step h call ins s = VRet true (set_pc (i_addr ins) (popped s))) \/
  (v = 0%Z /\ text_size (v_text s) <= i_addr ins /\ step h call ins s = VExc VmException (popped s)).
Proof.
  intros E T O. unfold step, instruct. cbv zeta. rewrite E. cbn [N.eqb Pos.eqb op_NOP op_RSR op_BL op_BE op_PUSHI op_PUSHV op_PUSHVI op_MOVI op_B op_BZ orb].
  unfold vbind. rewrite (pop_int_at _ _ _ T O). pose proof (popped_pc s) as P1.
  assert (P2 : v_text (popped s) = v_text s) by (apply popped_only_stack).
  destruct (Z.eqb_spec v 0) as [->|H].
  - unfold jump. rewrite P2. destruct (N.leb_spec (text_size (v_text s)) (i_addr ins)); right; [right|left]; auto.
  - left. split; [exact H|]. cbn. rewrite P1. reflexivity.
Qed.
(** The callee's code only runs from an address inside the code. *)
Lemma call_jump f x s : nth_N (v_syms s) f = Some x -> f <> v_tmp s -> text_size (v_text s) <= s_addr x ->
  exists o, (forall body, call_with body f s = o) /\ match o with VRet _ _ => False | _ => True end.
Proof.
  intros S T H. unfold call_with. unfold vbind at 1. pose proof (push_call_Rx f s) as P.
  destruct (push_call f s) as [[] s1|e s1|k s1|] eqn:E.
  - destruct P as [P _]. pose proof (mo_static _ _ (proj1 P)) as ST. destruct (shape1_static s s1 f x ST S T) as (v & X).
    exists (VExc VmException s1). split; [|exact I]. intros body. unfold vbind at 1, the_sym. rewrite X.
    unfold vbind at 1, jump. cbn [s_addr with_val].
    replace (text_size (v_text s1) <=? s_addr x) with true; [reflexivity|]. symmetry. apply N.leb_le.
    replace (text_size (v_text s1)) with (text_size (v_text s)); [exact H|]. unfold text_size. rewrite (st_data _ _ ST). reflexivity.
  - exists (VExc e s1). split; [reflexivity|exact I].
  - exists (VUndef k s1). split; [reflexivity|exact I].
  - exists VFuel. split; [reflexivity|exact I].
Qed.

(* ------------------------------------------------------------------ *)
(** * Error handlers *)

Lemma same_machine_refl s : same_machine s s.
Proof. destruct s. reflexivity. Qed.
Lemma exec_error h call s i s1 e s2 : fetch s = VRet i s1 -> step h call i s1 = VExc e s2 ->
  exec h call s = if is_script_error e then handle h i (len (v_calls s1)) e s2 else VExc e s2.
Proof. intros F S. unfold exec, vbind at 1. rewrite F, S. destruct (is_script_error e); reflexivity. Qed.

Lemma exec_continue h call s i s1 e s2 hd s3 :
  fetch s = VRet i s1 -> step h call i s1 = VExc e s2 -> is_script_error e = true -> h_handler h = Some hd -> hd e i s2 = VRet Continue s3 ->
  exists s4, exec h call s = VRet true s4 /\
    same_machine (set_pc (if v_pc s3 =? v_pc s2 then u32 (v_pc s3 + i_size i) else v_pc s3) s3) s4.
Proof.
  intros F S E H R. rewrite (exec_error _ _ _ _ _ _ _ F S), E. unfold handle. rewrite vbind_get, H. unfold vbind at 1. rewrite R.
  eexists. split; [reflexivity|]. cbn. destruct (v_pc s3 =? v_pc s2); unfold same_machine; destruct s3; reflexivity.
Qed.
Lemma exec_return h call s i s1 e s2 hd s3 :
  fetch s = VRet i s1 -> step h call i s1 = VExc e s2 -> is_script_error e = true -> h_handler h = Some hd -> hd e i s2 = VRet Return s3 ->
  exists s4, exec h call s = VRet false s4 /\ same_machine s3 s4.
Proof.
  intros F S E H R. rewrite (exec_error _ _ _ _ _ _ _ F S), E. unfold handle. rewrite vbind_get, H. unfold vbind at 1. rewrite R.
  eexists. split; [reflexivity|]. unfold same_machine; destruct s3; reflexivity.
Qed.
Lemma exec_fail h call s i s1 e s2 hd s3 s4 :
  fetch s = VRet i s1 -> step h call i s1 = VExc e s2 -> is_script_error e = true -> h_handler h = Some hd -> hd e i s2 = VRet Fail s3 ->
  print_stack_trace s3 = VRet tt s4 -> exec h call s = VExc e s4.
Proof.
  intros F S E H R P. rewrite (exec_error _ _ _ _ _ _ _ F S), E. unfold handle. rewrite vbind_get, H. unfold vbind at 1. rewrite R.
  unfold vbind at 1. rewrite P. reflexivity.
Qed.
Lemma exec_unhandled h call s i s1 e s2 s4 :
  fetch s = VRet i s1 -> step h call i s1 = VExc e s2 -> is_script_error e = true -> h_handler h = None ->
  print_stack_trace s2 = VRet tt s4 -> exec h call s = VExc e s4.
Proof.
  intros F S E H P. rewrite (exec_error _ _ _ _ _ _ _ F S), E. unfold handle. rewrite vbind_get, H. unfold vbind at 1. rewrite P. reflexivity.
Qed.
Lemma trace_same s s' : print_stack_trace s = VRet tt s' -> s' = s.
Proof.
  intros E. pose proof (trace_spec s) as T. rewrite E in T. congruence.
Qed.

(* ------------------------------------------------------------------ *)
(** * Fuel *)

(** A computation that finished finishes in the same way when given more fuel. *)
Definition refines {A} (m m' : V A) : Prop := forall s, m s <> VFuel -> m' s = m s.
Lemma refines_refl {A} (m : V A) : refines m m. Proof. intros s _. reflexivity. Qed.
Lemma refines_bind {A B} (m m' : V A) (k k' : A -> V B) : refines m m' -> (forall a, refines (k a) (k' a)) -> refines (vbind m k) (vbind m' k').
Proof.
  intros H1 H2 s. unfold vbind. specialize (H1 s). destruct (m s) as [a t|e t|u t|]; intros N.
  - rewrite H1 by congruence. apply H2, N.
  - rewrite H1 by congruence. reflexivity.
  - rewrite H1 by congruence. reflexivity.
  - contradiction.
Qed.
Lemma refines_if {A} (b : bool) (m m' n n' : V A) : refines m m' -> refines n n' -> refines (if b then m else n) (if b then m' else n').
Proof. destruct b; auto. Qed.
Lemma refines_instruct h call call' i : (forall f, refines (call f) (call' f)) -> refines (instruct h call i) (instruct h call' i).
Proof.
  intros H. unfold instruct. cbv zeta.
  do 23 (apply refines_if; [apply refines_refl|]).
  apply refines_if.
  { apply refines_bind; [apply refines_refl|]. intros s. destruct (h_over h (i_addr i)); [apply refines_refl|].
    destruct (find_by_address (v_addrs s) (i_addr i)); [|apply refines_refl]. apply refines_bind; [apply H|]. intros. apply refines_refl. }
  apply refines_refl.
Qed.
Lemma refines_exec h call call' : (forall f, refines (call f) (call' f)) -> refines (exec h call) (exec h call').
Proof.
  intros H. unfold exec. apply refines_bind; [apply refines_refl|]. intros i s.
  assert (R : refines (step h call i) (step h call' i)).
  { unfold step. apply refines_bind; [apply refines_instruct, H|]. intros []; apply refines_refl. }
  specialize (R s). destruct (step h call i s) as [a t|e t|u t|]; intros N; try (rewrite R by congruence); auto; try contradiction.
Qed.
Lemma refines_call m m' f : refines m m' -> refines (call_with m f) (call_with m' f).
Proof.
  intros H. unfold call_with. repeat first [apply refines_refl | exact H | (apply refines_bind; [|intros])].
Qed.
Lemma run_more h n : refines (run n h) (run (S n) h).
Proof.
  induction n as [|n IH]; [intros s N; contradiction|].
  change (run (S (S n)) h) with (vbind (exec h (call_with (run (S n) h))) (fun go => if go then run (S n) h else vret tt)).
  change (run (S n) h) with (vbind (exec h (call_with (run n h))) (fun go => if go then run n h else vret tt)) at 1.
  apply refines_bind; [apply refines_exec; intros; apply refines_call, IH|]. intros []; [exact IH|apply refines_refl].
Qed.
Lemma run_fuel h n m s : (n <= m)%nat -> run n h s <> VFuel -> run m h s = run n h s.
Proof.
  intros L. induction L as [|m L IH]; [auto|]. intros N. rewrite <- (IH N). apply run_more. rewrite (IH N). exact N.
Qed.
Lemma unsafe_call_fuel h n m f s : (n <= m)%nat -> unsafe_call n h f s <> VFuel -> unsafe_call m h f s = unsafe_call n h f s.
Proof.
  intros L. unfold unsafe_call. apply refines_call. intros t. apply run_fuel, L.
Qed.
Lemma call_function_fuel h n m f args r s : (n <= m)%nat -> call_function n h f args r s <> VFuel ->
  call_function m h f args r s = call_function n h f args r s.
Proof.
  intros L. revert s. change (refines (call_function n h f args r) (call_function m h f args r)). unfold call_function.
  destruct f as [i|]; [|apply refines_refl].
  repeat first [apply refines_refl | apply refines_if | (intros ?s; apply unsafe_call_fuel, L) | (apply refines_bind; [|intros])].
Qed.

(* ------------------------------------------------------------------ *)
(** * Binding members *)

Lemma register_member_ok l names ty n name cls off l' :
  register_member l names ty n name cls off = (l', Ret tt) ->
  exists i x p, find_by_name names name = Some i /\ nth_N l i = Some x /\ nth_N l (s_parent x) = Some p /\
    is_member x = true /\ s_count x <= n /\ binds (s_type x) ty /\ (s_reg p = None \/ s_reg p = Some cls).
Proof.
  unfold register_member, check_member. destruct (find_by_name names name) as [i|]; [|discriminate].
  destruct (nth_N l i) as [x|] eqn:X; [|discriminate]. destruct (is_member x) eqn:M; cbn [negb]; [|discriminate].
  destruct (N.ltb_spec n (s_count x)) as [|C]; [discriminate|]. destruct (nth_N l (s_parent x)) as [p|] eqn:P; [|discriminate].
  assert (T : (if ty =? 0 then s_type x =? T_STRING else if ty =? 1 then s_type x =? T_FLOAT
               else if ty =? 2 then (s_type x =? T_INT) || (s_type x =? T_FUNCTION) else false) = true -> binds (s_type x) ty).
  { destruct (N.eqb_spec ty 0) as [->|]; [apply N.eqb_eq|]. destruct (N.eqb_spec ty 1) as [->|]; [apply N.eqb_eq|].
    destruct (N.eqb_spec ty 2) as [->|]; [|discriminate]. cbn [binds]. rewrite orb_true_iff, !N.eqb_eq. auto. }
  intros E. exists i, x, p. 
  assert (Q : (s_reg p = None \/ s_reg p = Some cls) /\ (if ty =? 0 then s_type x =? T_STRING else if ty =? 1 then s_type x =? T_FLOAT
               else if ty =? 2 then (s_type x =? T_INT) || (s_type x =? T_FUNCTION) else false) = true).
  { destruct (s_reg p) as [r|].
    - destruct (N.eqb_spec r cls) as [RE|]; [|discriminate]; rewrite RE. split; [auto|]. destruct (if ty =? 0 then _ else _); [reflexivity|discriminate].
    - split; [auto|]. destruct (if ty =? 0 then _ else _); [reflexivity|discriminate]. }
  destruct Q as [Q1 Q2]. auto 10.
Qed.
Lemma register_member_effect l names ty n name cls off l' i x p :
  register_member l names ty n name cls off = (l', Ret tt) ->
  find_by_name names name = Some i -> nth_N l i = Some x -> nth_N l (s_parent x) = Some p -> s_parent x <> i ->
  nth_N l' i = Some (with_member x (u32 off) (Some cls)) /\
  (exists p', nth_N l' (s_parent x) = Some p' /\ s_reg p' = Some cls) /\
  (forall j, j <> i -> j <> s_parent x -> nth_N l' j = nth_N l j).
Proof.
  intros E F X P NE. destruct (register_member_ok _ _ _ _ _ _ _ _ E) as (i' & x' & p' & F' & X' & P' & M & C & B & R).
  rewrite F in F'. injection F' as <-. rewrite X in X'. injection X' as <-. rewrite P in P'. injection P' as <-.
  unfold register_member, check_member in E. rewrite F, X, M in E. cbn [negb] in E.
  replace (n <? s_count x) with false in E by (symmetry; apply N.ltb_ge; exact C). rewrite P in E.
  pose proof (nth_N_lt _ _ _ X) as LX. pose proof (nth_N_lt _ _ _ P) as LP. apply N.ltb_lt in LX, LP.
  destruct (s_reg p) as [r|] eqn:RP.
  - destruct R as [R|R]; [discriminate|]. injection R as ->. rewrite N.eqb_refl in E.
    destruct (if ty =? 0 then _ else _); [|discriminate]. rewrite X in E. injection E as <-.
    split; [rewrite nth_set_N, N.eqb_refl, LX; reflexivity|]. split.
    + exists p. rewrite nth_set_N. replace (s_parent x =? i) with false by (symmetry; apply N.eqb_neq; exact NE). auto.
    + intros j J _. rewrite nth_set_N. replace (j =? i) with false by (symmetry; apply N.eqb_neq; exact J). reflexivity.
  - destruct (if ty =? 0 then _ else _); [|discriminate].
    assert (X2 : nth_N (set_N l (s_parent x) (with_class p (s_csize p) (Some cls))) i = Some x).
    { rewrite nth_set_N. replace (i =? s_parent x) with false by (symmetry; apply N.eqb_neq; congruence). exact X. }
    rewrite X2 in E. injection E as <-.
    pose proof (nth_N_lt _ _ _ X2) as LX2. apply N.ltb_lt in LX2.
    split; [rewrite nth_set_N, N.eqb_refl, LX2; reflexivity|]. split.
    + exists (with_class p (s_csize p) (Some cls)). rewrite nth_set_N. replace (s_parent x =? i) with false by (symmetry; apply N.eqb_neq; exact NE).
      rewrite nth_set_N, N.eqb_refl, LP. auto.
    + intros j J1 J2. rewrite nth_set_N. replace (j =? i) with false by (symmetry; apply N.eqb_neq; exact J1).
      rewrite nth_set_N. replace (j =? s_parent x) with false by (symmetry; apply N.eqb_neq; exact J2). reflexivity.
Qed.
