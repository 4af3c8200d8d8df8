(** Calling and returning. *)

From Coq Require Import Lia.
From Verif Require Import MBase LBase MStream MDaedalus MVm LVm.
Local Open Scope N_scope.
Local Open Scope v_scope.
Ltac Zify.zify_post_hook ::= idtac.

(* ------------------------------------------------------------------ *)
(** * How far the stack pointer moves *)

Lemma u16_small n : n < 65536 -> u16 n = n.
Proof. intros. unfold u16. apply N.mod_small. exact H. Qed.
Lemma u32_small n : n < 4294967296 -> u32 n = n.
Proof. intros. unfold u32. apply N.mod_small. exact H. Qed.

Lemma vbind_ret {A B} (m : V A) (k : A -> V B) s b s' :
  vbind m k s = VRet b s' -> exists a s1, m s = VRet a s1 /\ k a s1 = VRet b s'.
Proof. unfold vbind. destruct (m s); try discriminate. eauto. Qed.

Definition sp_add {A} (n : N) (m : V A) : Prop := forall s a s', m s = VRet a s' -> v_sp s' = v_sp s + n.
Lemma add_calm {A} (m : V A) : calm m -> sp_add 0 m.
Proof. intros C s a s' E. specialize (C s). rewrite E in C. rewrite (q_sp _ _ C). lia. Qed.
Lemma add_bind {A B} (m : V A) (k : A -> V B) n n' : sp_add n m -> (forall a, sp_add n' (k a)) -> sp_add (n + n') (vbind m k).
Proof. intros H1 H2 s b s' E. apply vbind_ret in E as (a & s1 & E1 & E2). rewrite (H2 _ _ _ _ E2), (H1 _ _ _ E1). lia. Qed.
Lemma add_bind0 {A B} (m : V A) (k : A -> V B) n : calm m -> (forall a, sp_add n (k a)) -> sp_add n (vbind m k).
Proof. intros H1 H2. replace n with (0 + n) by lia. apply add_bind; auto using add_calm. Qed.
Lemma add_iter {A} (f : A -> V unit) l c : (forall a, sp_add c (f a)) -> sp_add (c * len l) (viter f l).
Proof.
  intros H. induction l.
  - cbn [viter]. change (len (@nil A)) with 0. replace (c * 0) with 0 by lia. apply add_calm, calm_ret.
  - cbn [viter]. rewrite len_cons. replace (c * (1 + len l)) with (c + c * len l) by lia. apply add_bind; auto.
Qed.
Lemma add_push f : sp_add 1 (push_frame f).
Proof.
  intros s a s'. unfold push_frame. destruct (_ =? _); [discriminate|]. destruct (stack_size <=? v_sp s) eqn:F; [discriminate|].
  apply N.leb_gt in F. unfold stack_size in F. intros E. injection E as <- <-. cbn. rewrite u16_small; lia.
Qed.
Lemma add_push_int v : sp_add 1 (push_int v). Proof. apply add_push. Qed.
Lemma add_push_float v : sp_add 1 (push_float v). Proof. apply add_push. Qed.
Lemma add_push_instance v : sp_add 1 (push_instance v). Proof. apply add_push. Qed.
Lemma add_push_reference i x : sp_add 1 (push_reference i x).
Proof. apply add_bind0; [apply calm_get|]. intros. apply add_push. Qed.
Lemma add_push_string v : sp_add 1 (push_string v).
Proof.
  apply add_bind0; [apply calm_get_free|]. intros. apply add_bind0; [apply calm_get|]. intros.
  apply add_bind0; [apply calm_wr_string|]. intros. apply add_push_reference.
Qed.
Lemma add_fix t : value_type t -> sp_add 1 (fix_stack t).
Proof.
  unfold value_type, fix_stack. intros [->|[->|[->|[->| ->]]]]; cbn;
    auto using add_push_int, add_push_float, add_push_instance, add_push_string.
Qed.

(** Popping from a stack that is not empty. *)
Definition sp_sub {A} (n : N) (m : V A) : Prop := forall s a s', m s = VRet a s' -> n <= v_sp s -> v_sp s' = v_sp s - n.
Definition sp_dec {A} (m : V A) : Prop := forall s a s', m s = VRet a s' -> v_sp s' <= v_sp s.
Lemma sub_calm {A} (m : V A) : calm m -> sp_sub 0 m.
Proof. intros C s a s' E _. specialize (C s). rewrite E in C. rewrite (q_sp _ _ C). lia. Qed.
Lemma sub_bind {A B} (m : V A) (k : A -> V B) n n' : sp_sub n m -> (forall a, sp_sub n' (k a)) -> sp_sub (n + n') (vbind m k).
Proof.
  intros H1 H2 s b s' E L. apply vbind_ret in E as (a & s1 & E1 & E2).
  pose proof (H1 _ _ _ E1 ltac:(lia)) as Q. rewrite (H2 _ _ _ _ E2), Q; lia.
Qed.
Lemma sub_bind0 {A B} (m : V A) (k : A -> V B) n : calm m -> (forall a, sp_sub n (k a)) -> sp_sub n (vbind m k).
Proof. intros H1 H2. replace n with (0 + n) by lia. apply sub_bind; auto using sub_calm. Qed.
Lemma sub_then {A B} (m : V A) (k : A -> V B) n : sp_sub n m -> (forall a, calm (k a)) -> sp_sub n (vbind m k).
Proof. intros H1 H2. replace n with (n + 0) by lia. apply sub_bind; auto using sub_calm. Qed.
Lemma sub_iter {A} (f : A -> V unit) l c : (forall a, sp_sub c (f a)) -> sp_sub (c * len l) (viter f l).
Proof.
  intros H. induction l.
  - cbn [viter]. change (len (@nil A)) with 0. replace (c * 0) with 0 by lia. apply sub_calm, calm_ret.
  - cbn [viter]. rewrite len_cons. replace (c * (1 + len l)) with (c + c * len l) by lia. apply sub_bind; auto.
Qed.
Lemma dec_calm {A} (m : V A) : calm m -> sp_dec m.
Proof. intros C s a s' E. specialize (C s). rewrite E in C. rewrite (q_sp _ _ C). lia. Qed.
Lemma dec_bind {A B} (m : V A) (k : A -> V B) : sp_dec m -> (forall a, sp_dec (k a)) -> sp_dec (vbind m k).
Proof.
  intros H1 H2 s b s' E. apply vbind_ret in E as (a & s1 & E1 & E2).
  pose proof (H1 _ _ _ E1). pose proof (H2 _ _ _ _ E2). lia.
Qed.
Lemma dec_iter {A} (f : A -> V unit) l : (forall a, sp_dec (f a)) -> sp_dec (viter f l).
Proof.
  intros H. induction l; cbn [viter]; [apply dec_calm, calm_ret|]. apply dec_bind; auto.
Qed.

Lemma pop_frame_sp s f s' : pop_frame s = VRet f s' -> v_sp s' = v_sp s - 1.
Proof.
  unfold pop_frame, vbind, note_pop, vmod, vget, slot. cbn. destruct (_ <=? _); [discriminate|].
  destruct (v_slots s _); [|discriminate]. intros E. injection E as <- <-. reflexivity.
Qed.
Lemma pop_frame_bound s f s' : pop_frame s = VRet f s' -> v_sp s - 1 < stack_size.
Proof.
  unfold pop_frame, vbind, note_pop, vmod, vget, slot. cbn [v_sp note_under set_ghost].
  destruct (stack_size <=? v_sp s - 1) eqn:E; [discriminate|]. intros _. apply N.leb_gt, E.
Qed.
Lemma sub_unless_empty {A} (d : V A) (k : frame -> V A) :
  (forall f, calm (k f)) -> sp_sub 1 (let! e := is_empty in if e then d else vbind pop_frame k).
Proof.
  intros K s a s'. unfold vbind at 1, is_empty. destruct (v_sp s =? 0) eqn:E.
  - apply N.eqb_eq in E. lia.
  - intros H _. apply vbind_ret in H as (f & s1 & E1 & E2). apply pop_frame_sp in E1.
    specialize (K f s1). rewrite E2 in K. rewrite (q_sp _ _ K). exact E1.
Qed.
Lemma dec_unless_empty {A} (d : V A) (k : frame -> V A) :
  calm d -> (forall f, calm (k f)) -> sp_dec (let! e := is_empty in if e then d else vbind pop_frame k).
Proof.
  intros D K s a s'. unfold vbind at 1, is_empty. destruct (v_sp s =? 0) eqn:E.
  - intros H. eapply dec_calm; eauto.
  - intros H. apply vbind_ret in H as (f & s1 & E1 & E2). apply pop_frame_sp in E1.
    specialize (K f s1). rewrite E2 in K. rewrite (q_sp _ _ K). lia.
Qed.
Lemma calm_int_tail f : calm (if f_ref f then let! i := as_sym f in vm_get_int (f_ctx f) i (f_idx f)
    else match f_val f with FInt v => vret v | _ => vthrow VmException end).
Proof. calms; auto using calm_as_sym, calm_get_int. Qed.
Lemma calm_float_tail f : calm (if f_ref f then let! i := as_sym f in vm_get_float (f_ctx f) i (f_idx f)
    else match f_val f with FFloat v => vret v | FInt v => vret (uint 32 v) | _ => vthrow VmException end).
Proof. calms; auto using calm_as_sym, calm_get_float. Qed.
Lemma calm_inst_tail f : calm (if f_ref f then let! i := as_sym f in rd_inst i
    else match f_val f with FInst v => vret v | _ => vthrow VmException end).
Proof. calms; auto using calm_as_sym, calm_rd_inst. Qed.
Lemma calm_ref_tail f : calm (if negb (f_ref f) then vthrow VmException
    else
      let! i := as_sym f in
      let! s := vget in
      (if i =? v_tmp s then mark_free_string (f_idx f) else vret tt) ;!
      vret (i, u8 (f_idx f), f_ctx f)).
Proof. calms; auto using calm_as_sym, calm_mark. Qed.
Lemma sub_pop_int : sp_sub 1 pop_int. Proof. apply sub_unless_empty, calm_int_tail. Qed.
Lemma sub_pop_float : sp_sub 1 pop_float. Proof. apply sub_unless_empty, calm_float_tail. Qed.
Lemma sub_pop_instance : sp_sub 1 pop_instance. Proof. apply sub_unless_empty, calm_inst_tail. Qed.
Lemma sub_pop_reference : sp_sub 1 pop_reference. Proof. apply sub_unless_empty, calm_ref_tail. Qed.
Lemma calm_string_tail (r : N * N * option N) : calm (let '(i, idx, c) := r in
  let! x := the_sym i in
  let! s := vget in
  if is_member x && (match c with None => true | _ => false end) then
    if flag_on s ALLOW_NULL then vret [] else vthrow NoContext
  else rd_string i idx c).
Proof. destruct r as [[i idx] c]. calms; apply calm_rd_string. Qed.
Lemma sub_pop_string : sp_sub 1 pop_string.
Proof. apply sub_then; [apply sub_pop_reference|]. intros. apply calm_string_tail. Qed.
Lemma dec_pop_int : sp_dec pop_int. Proof. apply dec_unless_empty; [apply calm_ret|apply calm_int_tail]. Qed.
Lemma dec_pop_float : sp_dec pop_float. Proof. apply dec_unless_empty; [apply calm_ret|apply calm_float_tail]. Qed.
Lemma dec_pop_instance : sp_dec pop_instance. Proof. apply dec_unless_empty; [apply calm_throw|apply calm_inst_tail]. Qed.
Lemma dec_pop_reference : sp_dec pop_reference. Proof. apply dec_unless_empty; [apply calm_throw|apply calm_ref_tail]. Qed.
Lemma dec_pop_string : sp_dec pop_string.
Proof. apply dec_bind; [apply dec_pop_reference|]. intros. apply dec_calm, calm_string_tail. Qed.

Lemma len_upto n : len (upto n) = n.
Proof. unfold upto, len. rewrite map_length, seq_length. lia. Qed.

Lemma save_local_sp i s a s' : save_local i s = VRet a s' ->
  exists x, nth_N (v_syms s) i = Some x /\ v_sp s' = v_sp s + saved_size x.
Proof.
  unfold save_local. intros E. apply vbind_ret in E as (x & s1 & E1 & E). unfold the_sym in E1.
  destruct (nth_N (v_syms s) i) as [y|] eqn:Y; [|discriminate]. injection E1 as -> <-. exists x. split; auto.
  unfold saved_size.
  destruct (s_type x =? T_FLOAT).
  { cbn. revert E. rewrite <- (len_upto (s_count x)) at 2. rewrite <- (N.mul_1_l (len _)).
    apply add_iter. intros k. apply add_bind0; [apply calm_rd_float|]. intros. apply add_push_float. }
  destruct ((s_type x =? T_FUNCTION) || (s_type x =? T_INT)) eqn:F.
  { replace (false || (s_type x =? T_FUNCTION) || (s_type x =? T_INT) || (s_type x =? T_STRING)) with true
      by (cbn; rewrite F; reflexivity).
    revert E. rewrite <- (len_upto (s_count x)) at 2. rewrite <- (N.mul_1_l (len _)).
    apply add_iter. intros k. apply add_bind0; [apply calm_rd_int|]. intros. apply add_push_int. }
  cbn [orb]. rewrite F. cbn [orb].
  destruct (s_type x =? T_STRING).
  { revert E. rewrite <- (len_upto (s_count x)) at 2. rewrite <- (N.mul_1_l (len _)).
    apply add_iter. intros k. apply add_bind0; [apply calm_rd_string|]. intros. apply add_push_string. }
  destruct (s_type x =? T_INSTANCE).
  { revert E. apply add_bind0; [apply calm_rd_inst|]. intros. apply add_push_instance. }
  injection E as <- <-. lia.
Qed.
Lemma keeps_save_local i : keeps (save_local i).
Proof.
  apply keeps_bind; [apply calm_keeps, calm_sym|]. intros x. repeat apply keeps_if.
  - apply keeps_iter. intros. apply keeps_bind; [apply calm_keeps, calm_rd_float|]. intros. apply keeps_push_float.
  - apply keeps_iter. intros. apply keeps_bind; [apply calm_keeps, calm_rd_int|]. intros. apply keeps_push_int.
  - apply keeps_iter. intros. apply keeps_bind; [apply calm_keeps, calm_rd_string|]. intros. apply keeps_push_string.
  - apply keeps_bind; [apply calm_keeps, calm_rd_inst|]. intros. apply keeps_push_instance.
  - apply keeps_ret.
Qed.

Lemma restore_local_sp i s a s' : restore_local i s = VRet a s' ->
  exists x, nth_N (v_syms s) i = Some x /\ (saved_size x <= v_sp s -> v_sp s' = v_sp s - saved_size x).
Proof.
  unfold restore_local. intros E. apply vbind_ret in E as (x & s1 & E1 & E). unfold the_sym in E1.
  destruct (nth_N (v_syms s) i) as [y|] eqn:Y; [|discriminate]. injection E1 as -> <-. exists x. split; auto.
  unfold saved_size.
  assert (L : len (rev (upto (s_count x))) = s_count x) by (rewrite len_rev; apply len_upto).
  destruct (s_type x =? T_FLOAT).
  { cbn. revert E. rewrite <- L at 2 3. rewrite <- (N.mul_1_l (len _)).
    apply sub_iter. intros k. apply sub_then; [apply sub_pop_float|]. intros. apply calm_wr_float. }
  destruct ((s_type x =? T_FUNCTION) || (s_type x =? T_INT)) eqn:F.
  { replace (false || (s_type x =? T_FUNCTION) || (s_type x =? T_INT) || (s_type x =? T_STRING)) with true
      by (cbn; rewrite F; reflexivity).
    revert E. rewrite <- L at 2 3. rewrite <- (N.mul_1_l (len _)).
    apply sub_iter. intros k. apply sub_then; [apply sub_pop_int|]. intros. apply calm_wr_int. }
  cbn [orb]. rewrite F. cbn [orb].
  destruct (s_type x =? T_STRING).
  { revert E. rewrite <- L at 2 3. rewrite <- (N.mul_1_l (len _)).
    apply sub_iter. intros k. apply sub_then; [apply sub_pop_string|]. intros. apply calm_wr_string. }
  destruct (s_type x =? T_INSTANCE).
  { revert E. apply sub_then; [apply sub_pop_instance|]. intros. apply calm_wr_inst. }
  injection E as <- <-. lia.
Qed.
Lemma dec_restore i : sp_dec (restore_local i).
Proof.
  apply dec_bind; [apply dec_calm, calm_sym|]. intros x.
  destruct (_ =? _); [|destruct (_ || _); [|destruct (_ =? _); [|destruct (_ =? _)]]].
  - apply dec_iter. intros. apply dec_bind; [apply dec_pop_float|]. intros. apply dec_calm, calm_wr_float.
  - apply dec_iter. intros. apply dec_bind; [apply dec_pop_int|]. intros. apply dec_calm, calm_wr_int.
  - apply dec_iter. intros. apply dec_bind; [apply dec_pop_string|]. intros. apply dec_calm, calm_wr_string.
  - apply dec_bind; [apply dec_pop_instance|]. intros. apply dec_calm, calm_wr_inst.
  - apply dec_calm, calm_ret.
Qed.
Lemma keeps_restore_local i : keeps (restore_local i).
Proof.
  apply keeps_bind; [apply calm_keeps, calm_sym|]. intros x. repeat apply keeps_if.
  - apply keeps_iter. intros. apply keeps_bind; [apply keeps_pop_float|]. intros. apply calm_keeps, calm_wr_float.
  - apply keeps_iter. intros. apply keeps_bind; [apply keeps_pop_int|]. intros. apply calm_keeps, calm_wr_int.
  - apply keeps_iter. intros. apply keeps_bind; [apply keeps_pop_string|]. intros. apply calm_keeps, calm_wr_string.
  - apply keeps_bind; [apply keeps_pop_instance|]. intros. apply calm_keeps, calm_wr_inst.
  - apply keeps_ret.
Qed.

(* ------------------------------------------------------------------ *)
(** * Local variables *)

Lemma drop_in {A} n (l : list A) x : In x (drop n l) -> In x l.
Proof. rewrite drop_skipn. intros H. rewrite <- (firstn_skipn (N.to_nat n) l). apply in_or_app. right. exact H. Qed.
Lemma hd_drop n (l : bytes) d : hd d (drop n l) = d \/ In (hd d (drop n l)) l.
Proof. destruct (drop n l) eqn:E; [auto|]. right. apply (drop_in n). rewrite E. left. reflexivity. Qed.
Lemma temp_not_local fn : is_local_name fn (s_name temp_symbol) = false.
Proof.
  unfold is_local_name. destruct (hd_drop (len fn) (s_name temp_symbol) x00) as [H|H].
  - rewrite H. apply andb_false_r.
  - destruct (beq _ _) eqn:E; [|apply andb_false_r]. apply beq_spec in E. rewrite E in H. exfalso.
    revert H. cbn. intuition discriminate.
Qed.

Lemma locals_from_nth fn l n k : locals_from fn l = Some n -> (k < n)%nat ->
  exists y, nth_error l k = Some y /\ is_local_name fn (s_name y) = true.
Proof.
  revert n k. induction l as [|a l IH]; cbn; intros n k; [discriminate|].
  destruct (is_local_name fn (s_name a)) eqn:E.
  - destruct (locals_from fn l) as [m|]; cbn; [|discriminate]. intros H. injection H as <-.
    destruct k; [intros; exists a; auto|]. intros. apply (IH m); auto. lia.
  - intros H. injection H as <-. lia.
Qed.
Lemma locals_from_len fn l n : locals_from fn l = Some n -> (n <= length l)%nat.
Proof.
  revert n. induction l as [|a l IH]; cbn; intros n; [discriminate|].
  destruct (is_local_name fn (s_name a)).
  - destruct (locals_from fn l); cbn; [|discriminate]. intros H. injection H as <-. specialize (IH _ eq_refl). lia.
  - intros H. injection H as <-. lia.
Qed.
Lemma nth_N_drop {A} (l : list A) n k : nth_error (drop n l) k = nth_N l (n + N.of_nat k).
Proof.
  rewrite drop_skipn.
  unfold nth_N. destruct (_ <? _) eqn:E.
  - replace (N.to_nat (n + N.of_nat k)) with (N.to_nat n + k)%nat by lia.
    clear E. revert l. induction (N.to_nat n); intros l; cbn; auto. destruct l; cbn; auto. destruct k; reflexivity.
  - apply N.ltb_ge in E. apply nth_error_None. rewrite skipn_length. unfold len in E. lia.
Qed.
Lemma locals_in l f x i : In i (locals_of l f x) ->
  exists y, nth_N l i = Some y /\ is_local_name (s_name x) (s_name y) = true.
Proof.
  unfold locals_of. destruct (locals_from _ _) as [n|] eqn:E; [|intros []].
  intros H. apply in_map_iff in H as (k & <- & Hk). apply in_seq in Hk.
  destruct (locals_from_nth _ _ _ k E ltac:(lia)) as (y & A & B). exists y. split; auto.
  rewrite <- nth_N_drop. exact A.
Qed.
Lemma locals_len l f x : len (locals_of l f x) <= len l.
Proof.
  unfold locals_of. destruct (locals_from _ _) as [n|] eqn:E; [|apply N.le_0_l].
  apply locals_from_len in E. unfold len. rewrite map_length, seq_length. rewrite drop_skipn, skipn_length in E. lia.
Qed.
Lemma local_not_tmp s f x i : table_ok s -> In i (locals_of (v_syms s) f x) -> i <> v_tmp s.
Proof.
  intros (_ & _ & _ & t & H1 & H2) H -> . apply locals_in in H as (y & A & B).
  rewrite H1 in A. injection A as <-. rewrite H2, temp_not_local in B. discriminate.
Qed.

Definition size_at (s : vm) (i : N) : N := match nth_N (v_syms s) i with Some l => saved_size l | None => 0 end.
Definition total_size (s : vm) (l : list N) : N := fold_right N.add 0 (map (size_at s) l).

Lemma size_static s t i : static s t -> i <> v_tmp s -> size_at t i = size_at s i.
Proof.
  intros S E. unfold size_at. pose proof (st_sym _ _ S i E) as Q.
  destruct (nth_N (v_syms t) i) as [a|], (nth_N (v_syms s) i) as [b|]; try discriminate; auto.
  injection Q. intros. unfold saved_size. replace (s_type a) with (s_type b) by congruence.
  replace (s_count a) with (s_count b) by congruence. reflexivity.
Qed.
Lemma size_bound s i : table_ok s -> i <> v_tmp s -> size_at s i <= 4095.
Proof.
  intros (_ & T & _) E. unfold size_at. destruct (nth_N _ _) as [x|] eqn:X; [|lia].
  specialize (T _ _ X E). unfold saved_size. destruct (_ || _); auto. destruct (_ =? _); lia.
Qed.
Lemma total_bound s l : table_ok s -> (forall i, In i l -> i <> v_tmp s) -> total_size s l <= 4095 * len l.
Proof.
  intros T. induction l as [|i l IH]; intros H; [cbn; lia|].
  change (total_size s (i :: l)) with (size_at s i + total_size s l). rewrite len_cons.
  pose proof (size_bound s i T (H i (or_introl eq_refl))). specialize (IH (fun j Hj => H j (or_intror Hj))). lia.
Qed.

Lemma keeps_static {A} (m : V A) s a s' : keeps m -> m s = VRet a s' -> static s s'.
Proof. intros K E. specialize (K s). rewrite E in K. apply K. Qed.

Lemma save_locals_sp s l : (forall i, In i l -> i <> v_tmp s) -> forall t a t', static s t ->
  viter save_local l t = VRet a t' -> v_sp t' = v_sp t + total_size s l.
Proof.
  induction l as [|i l IH]; intros H t a t' S E.
  - cbn in E. injection E as <- <-. cbn. lia.
  - cbn in E. apply vbind_ret in E as (b & t1 & E1 & E2).
    change (total_size s (i :: l)) with (size_at s i + total_size s l).
    rewrite (IH (fun j Hj => H j (or_intror Hj)) t1 a t'); [|eapply static_trans; [exact S|eapply keeps_static; [apply keeps_save_local|exact E1]]|exact E2].
    apply save_local_sp in E1 as (x & X & ->). rewrite <- (size_static s t i S (H i (or_introl eq_refl))).
    unfold size_at. rewrite X. lia.
Qed.
Lemma restore_locals_sp s l : (forall i, In i l -> i <> v_tmp s) -> forall t a t', static s t ->
  viter restore_local l t = VRet a t' -> total_size s l <= v_sp t -> v_sp t' = v_sp t - total_size s l.
Proof.
  induction l as [|i l IH]; intros H t a t' S E L.
  - cbn in E. injection E as <- <-. cbn. lia.
  - cbn in E. apply vbind_ret in E as (b & t1 & E1 & E2).
    change (total_size s (i :: l)) with (size_at s i + total_size s l) in *.
    assert (Q : v_sp t1 = v_sp t - size_at s i).
    { apply restore_local_sp in E1 as (x & X & Y). rewrite <- (size_static s t i S (H i (or_introl eq_refl))) in *.
      unfold size_at in *. rewrite X in *. apply Y. lia. }
    rewrite (IH (fun j Hj => H j (or_intror Hj)) t1 a t'); [lia| |exact E2|lia].
    eapply static_trans; [exact S|eapply keeps_static; [apply keeps_restore_local|exact E1]].
Qed.
Lemma total_app s a b : total_size s (a ++ b) = total_size s a + total_size s b.
Proof. unfold total_size. rewrite map_app. induction a; cbn; auto. rewrite IHa. unfold total_size. lia. Qed.
Lemma total_rev s l : total_size s (rev l) = total_size s l.
Proof.
  induction l as [|i l IH]; auto. cbn [rev]. rewrite total_app, IH.
  change (total_size s (i :: l)) with (size_at s i + total_size s l).
  change (total_size s [i]) with (size_at s i + 0). lia.
Qed.

(** Moving the arguments up. *)
Lemma moves_spec b d l : forall t,
  (forall k, In k l -> b + d + k < stack_size /\ v_slots t (b + k) <> None) ->
  exists sl, viter (fun k => move_slot (b + k) (b + d + k)) l t = VRet tt (set_stack sl (v_sp t) t) /\
    (forall i, v_slots t i <> None -> sl i <> None) /\
    (forall k, In k l -> sl (b + d + k) <> None) /\
    (forall i, i < b -> sl i = v_slots t i).
Proof.
  induction l as [|k l IH]; intros t H.
  - exists (v_slots t). cbn. split; [destruct t; reflexivity|]. repeat split; auto; intros ? [].
  - destruct (H k (or_introl eq_refl)) as [H1 H2].
    cbn [viter]. unfold vbind at 1, move_slot at 1, vbind at 1, slot.
    replace (stack_size <=? b + k) with false by (symmetry; apply N.leb_gt; lia).
    destruct (v_slots t (b + k)) as [f|] eqn:F; [|congruence].
    replace (stack_size <=? b + d + k) with false by (symmetry; apply N.leb_gt; lia).
    unfold vmod at 1.
    match goal with |- context [viter _ l ?u] => set (t1 := u) end.
    assert (W : forall i, v_slots t i <> None -> v_slots t1 i <> None).
    { intros i Hi. cbn. unfold upd. destruct (i =? b + d + k); [congruence|].
      destruct (b + k =? b + d + k); auto. destruct (i =? b + k); [congruence|auto]. }
    destruct (IH t1) as (sl & E & A & B & C).
    { intros j Hj. destruct (H j (or_intror Hj)). split; auto. }
    exists sl. rewrite E. split; [reflexivity|]. split; [auto|]. split.
    + intros j [<-|Hj]; auto. apply A. cbn. unfold upd. rewrite N.eqb_refl. congruence.
    + intros i Hi. rewrite C by auto. cbn. unfold upd.
      replace (i =? b + d + k) with false by (symmetry; apply N.eqb_neq; lia).
      destruct (b + k =? b + d + k); auto.
      replace (i =? b + k) with false by (symmetry; apply N.eqb_neq; lia). reflexivity.
Qed.
(** Without assumptions: what is still preserved. *)
Lemma moves_any b d l : forall t,
  match viter (fun k => move_slot (b + k) (b + d + k)) l t with
  | VRet _ t' => exists sl, t' = set_stack sl (v_sp t) t /\
      (forall i, v_slots t i <> None -> sl i <> None) /\ (forall i, i < b -> sl i = v_slots t i)
  | VUndef k t' => exists sl, t' = set_stack sl (v_sp t) t /\
      (forall i, v_slots t i <> None -> sl i <> None)
  | VExc _ _ => False
  | VFuel => False
  end.
Proof.
  induction l as [|k l IH]; intros t.
  - exists (v_slots t). cbn. split; [destruct t; reflexivity|]. auto.
  - cbn [viter]. unfold vbind at 1, move_slot at 1, vbind at 1, slot.
    assert (Z : exists sl, t = set_stack sl (v_sp t) t /\ (forall i, v_slots t i <> None -> sl i <> None))
      by (exists (v_slots t); split; [destruct t; reflexivity|auto]).
    destruct (stack_size <=? b + k); [exact Z|].
    destruct (v_slots t (b + k)) as [f|] eqn:F; [|exact Z].
    destruct (stack_size <=? b + d + k); [exact Z|].
    unfold vmod at 1.
    match goal with |- context [viter _ l ?u] => set (t1 := u) end.
    assert (W : forall i, v_slots t i <> None -> v_slots t1 i <> None).
    { intros i Hi. cbn. unfold upd. destruct (i =? b + d + k); [congruence|].
      destruct (b + k =? b + d + k); auto. destruct (i =? b + k); [congruence|auto]. }
    specialize (IH t1). destruct (viter _ l t1); auto.
    + destruct IH as (sl & E & A & C). exists sl. rewrite E. split; [reflexivity|]. split; [auto|].
      intros i Hi. rewrite C by auto. cbn. unfold upd.
      replace (i =? b + d + k) with false by (symmetry; apply N.eqb_neq; lia).
      destruct (b + k =? b + d + k); auto.
      replace (i =? b + k) with false by (symmetry; apply N.eqb_neq; lia). reflexivity.
    + destruct IH as (sl & E & A). exists sl. rewrite E. split; [reflexivity|]. auto.
Qed.

Lemma in_upto n k : In k (upto n) <-> k < n.
Proof.
  unfold upto. rewrite in_map_iff. split.
  - intros (j & <- & H). apply in_seq in H. lia.
  - intros H. exists (N.to_nat k). rewrite in_seq. lia.
Qed.

Lemma okr_seq_mono {A} s s' (r : vres A) :
  mono s s' -> (clean s' -> Framed s -> Framed s' /\ v_calls s' = v_calls s /\ floor s' = floor s /\ below s s') ->
  okr s' r -> okr s r.
Proof. intros M H. apply okr_seq. split; auto. Qed.

(** The frame relation after the arguments were dropped and moved. *)
Lemma drop_args_Rn s n sl : n <= v_sp s ->
  (forall i, v_slots s i <> None -> sl i <> None) -> (forall i, i < v_sp s - n -> sl i = v_slots s i) ->
  Rn s (set_stack sl (v_sp s - n) (note_under (v_sp s - n <? floor s) s)).
Proof.
  intros L W B. assert (S : static s (set_stack sl (v_sp s - n) (note_under (v_sp s - n <? floor s) s)))
    by (constructor; auto).
  assert (II : Inv s -> Inv (set_stack sl (v_sp s - n) (note_under (v_sp s - n <? floor s) s))).
  { intros [T1 T2 T3 T4]. constructor; cbn.
    - eapply static_table; eauto.
    - lia.
    - intros i Hi. apply W, T3. lia.
    - intros c Hc. destruct (T4 c Hc). split; auto. }
  split.
  - constructor; auto. unfold under; cbn; intros ->. reflexivity.
  - intros (C & _) [F1 F2 F3]. unfold under in C. cbn in C. apply orb_false_iff in C as [_ C]. apply N.ltb_ge in C.
    split; [constructor; auto|].
    cbn. repeat split; auto. intros i Hi. cbn. apply B. unfold floor in *. lia.
Qed.

Lemma vbind_get {B} (k : vm -> V B) s : vbind vget k s = k s s. Proof. reflexivity. Qed.
Lemma vbind_mod {B} f (k : unit -> V B) s : vbind (vmod f) k s = k tt (f s). Proof. reflexivity. Qed.
Lemma vbind_vret {A B} (a : A) (k : A -> V B) s : vbind (vret a) k s = k a s. Proof. reflexivity. Qed.
Lemma vbind_assoc {A B C} (m : V A) (k : A -> V B) (l : B -> V C) s :
  vbind (vbind m k) l s = vbind m (fun a => vbind (k a) l) s.
Proof. unfold vbind. destruct (m s); auto. Qed.

Lemma push_local_cases f x s :
  okr s (push_local_variables f x s) /\
  forall a s', push_local_variables f x s = VRet a s' -> Inv s ->
    v_sp s' = v_sp s + (if recursions s f =? 0 then 0 else total_size s (locals_of (v_syms s) f x)) /\
    v_sp s' <= stack_size.
Proof.
  unfold push_local_variables. rewrite vbind_get.
  destruct (recursions s f =? 0).
  { split; [apply Rn_refl|]. intros a s' E I. injection E as <- <-. split; [lia|apply I]. }
  set (n := s_count x). set (L := locals_of (v_syms s) f x).
  change (fold_right N.add 0 (map _ L)) with (total_size s L).
  cbv zeta.
  destruct (stack_size <? u32 (v_sp s + u32 (total_size s L))) eqn:C1.
  { split; [apply Rn_Rx, Rn_refl|]. discriminate. }
  destruct (v_sp s <? n) eqn:C2.
  { split; [apply Rn_Rx, Rn_refl|]. discriminate. }
  apply N.ltb_ge in C1, C2.
  set (d := u32 (total_size s L)) in *. set (b := v_sp s - n).
  rewrite !vbind_mod.
  set (t0 := set_stack (v_slots s) b (note_under (b <? floor s) s)).
  assert (NT : Inv s -> forall i, In i L -> i <> v_tmp s).
  { intros I i Hi. eapply local_not_tmp; [apply I|exact Hi]. }
  assert (D : Inv s -> d = total_size s L /\ v_sp s + d <= stack_size).
  { intros I. pose proof (total_bound s L (inv_table _ I) (NT I)) as T. pose proof (locals_len (v_syms s) f x) as T'. fold L in T'.
    destruct (inv_table _ I) as (T1 & _). pose proof (inv_sp _ I) as T2.
    change (2 ^ 19) with 524288 in T1. unfold stack_size in *.
    assert (E : d = total_size s L) by (unfold d; apply u32_small; clear - T T' T1; lia).
    split; auto. rewrite u32_small in C1; auto. clear - E T T' T1 T2. lia. }
  assert (R1 : Rn s t0) by (apply drop_args_Rn; auto).
  pose proof (moves_any b d (upto n) t0) as MA.
  assert (MS : Inv s -> forall k, In k (upto n) -> b + d + k < stack_size /\ v_slots t0 (b + k) <> None).
  { intros I k Hk. apply in_upto in Hk. destruct (D I) as [_ D2]. split; [unfold b; clear - C2 D2 Hk; lia|].
    cbn. apply (inv_slots _ I). unfold b. clear - C2 Hk. lia. }
  change (v_slots t0) with (v_slots s) in *. change (v_sp t0) with b in *.
  unfold vbind.
  destruct (viter (fun k => move_slot (b + k) (b + d + k)) (upto n) t0) as [u t1|e t1|k t1|] eqn:E1; try contradiction.
  2:{ split; [|discriminate]. destruct MA as (sl & -> & W). split.
      - eapply mono_trans; [apply R1|]. constructor; auto.
        + apply static_stack.
        + intros [T1 T2 T3 T4] _. constructor.
          * exact (static_table _ _ (static_stack _ _ _) T1).
          * exact T2.
          * intros i Hi. apply W, T3, Hi.
          * intros c Hc. destruct (T4 c Hc) as [Q1 Q2]. split; auto. intros i Hi. apply W, (Q2 i Hi).
      - intros I _. destruct (moves_spec b d (upto n) t0 (MS I)) as (sl' & E & _). rewrite E in E1. discriminate. }
  destruct MA as (sl & -> & W & BB).
  assert (R2 : Rn s (set_stack sl b t0)).
  { apply (drop_args_Rn s n sl); auto. }
  assert (HI : Inv s -> forall k, k < n -> sl (b + d + k) <> None).
  { intros I k Hk. destruct (moves_spec b d (upto n) t0 (MS I)) as (sl' & E & _ & Q & _). rewrite E in E1.
    injection E1 as _ E1. rewrite E1 in Q. apply Q. apply in_upto, Hk. }
  set (t1 := set_stack sl b t0) in *. change (v_sp t0) with b in *. fold t1.
  assert (K : keeps (viter save_local L)) by (apply keeps_iter; intros; apply keeps_save_local).
  specialize (K t1).
  destruct (viter save_local L t1) as [v t2|e t2|k t2|] eqn:E2.
  2:{ split; [|discriminate]. eapply Rnx_trans; eauto. }
  2:{ split; [|discriminate]. eapply Ru_mono; [apply R2|exact K]. }
  2:{ split; [exact I|discriminate]. }
  cbn in K.
  assert (SP : Inv s -> v_sp t2 = b + d).
  { intros I. rewrite (save_locals_sp s L (NT I) t1 v t2); [|apply R2|exact E2]. destruct (D I) as [-> _]. reflexivity. }
  unfold vmod.
  assert (R3 : Rn s t2) by (eapply Rn_trans; eauto).
  set (t3 := set_stack (v_slots t2) (u16 (v_sp t2 + n)) t2).
  assert (SP3 : Inv s -> v_sp t3 = v_sp s + d /\ v_sp t3 = v_sp t2 + n /\ v_sp t3 <= stack_size).
  { intros I. destruct (D I) as [_ D2]. unfold stack_size in D2. cbn. rewrite (SP I).
    rewrite u16_small by (unfold b; clear - C2 D2; lia). unfold b, stack_size. clear - C2 D2. lia. }
  assert (I3 : Inv s -> wrapped t3 = false -> Inv t3).
  { intros I Wr. destruct (SP3 I) as (A & B & C). change (wrapped t3) with (wrapped t2) in Wr.
    destruct (mo_inv _ _ (proj1 R3) I Wr) as [T1 T2 T3 T4]. constructor; [|exact C| |exact T4].
    - exact (static_table _ _ (static_stack _ _ _) T1).
    - intros i Hi. change (v_slots t3 i) with (v_slots t2 i). destruct (N.lt_ge_cases i (v_sp t2)) as [H|H]; [apply T3, H|].
      apply (mo_slots _ _ (proj1 K)). change (v_slots t1 i) with (sl i).
      rewrite (SP I) in *. replace i with (b + d + (i - (b + d))) by (clear - H; lia). apply HI; auto. clear - B Hi H. lia. }
  split.
  - change (Rn s t3). split.
    + destruct (proj1 R3). constructor; auto. eapply static_trans; [exact mo_static|apply static_stack].
    + intros C F. destruct (proj2 R3 C F) as ([F1 F2 F3] & A2 & A3 & A4).
      split; [constructor|split; [|split]]; auto.
      * apply I3; [apply F|apply C].
      * destruct (SP3 (fr_inv _ F)) as (_ & -> & _). change (floor t3) with (floor t2). clear - F2. lia.
  - intros a s' E I. injection E as _ <-. destruct (SP3 I) as (A & _ & B). destruct (D I) as [<- _]. auto.
Qed.

(* ------------------------------------------------------------------ *)
(** * Calling *)

Definition the_call (s : vm) (f n : N) : call :=
  mkCall f (v_pc s) (uint 32 (Z.of_N (v_sp s) - Z.of_N n)) (v_inst s) (floor s).

Lemma uint_sub a b : b <= a -> a < 4294967296 -> uint 32 (Z.of_N a - Z.of_N b) = a - b.
Proof. intros. rewrite <- N2Z.inj_sub by auto. apply uint_of_N. change (2 ^ 32) with 4294967296. lia. Qed.

Definition enter (f n : N) (s : vm) : vm :=
  let g := v_ghost s in
  set_ghost (mkGhost (uint 32 (Z.of_N (v_sp s) - Z.of_N n)) (g_under g || (v_sp s <? floor s + n))
                     (g_wrap g || (v_sp s <? n)) (g_stale g))
    (set_calls (the_call s f n :: v_calls s) s).

Lemma enter_Rx f n s : Rx s (enter f n s).
Proof.
  assert (S : static s (enter f n s)) by (constructor; auto).
  assert (II : Inv s -> wrapped (enter f n s) = false -> Inv (enter f n s)).
  { intros [T1 T2 T3 T4] W. unfold wrapped in W. cbn in W. apply orb_false_iff in W as [_ W]. apply N.ltb_ge in W.
    unfold stack_size in T2.
    constructor; auto.
    cbn. intros c [<-|Hc]; auto. cbn. rewrite uint_sub by lia. unfold stack_size. split; [lia|]. intros i Hi. apply T3. lia. }
  split.
  - constructor; auto; unfold under, wrapped; cbn; intros ->; reflexivity.
  - intros (C1 & C2 & C3) [F1 F2 F3].
    assert (I2 := II F1 C2).
    unfold under in C1. cbn in C1. apply orb_false_iff in C1 as [_ C1]. apply N.ltb_ge in C1.
    unfold wrapped in C2. cbn in C2. apply orb_false_iff in C2 as [_ C2]. apply N.ltb_ge in C2.
    pose proof (inv_sp _ F1) as Q. unfold stack_size in Q.
    assert (B : uint 32 (Z.of_N (v_sp s) - Z.of_N n) = v_sp s - n) by (apply uint_sub; lia).
    unfold floor in *.
    split; [constructor; auto|split; [|split]].
    + unfold floor. cbn. rewrite B. lia.
    + cbn. intros c [<-|Hc]; auto. cbn. unfold floor. rewrite B. lia.
    + cbn. rewrite B. lia.
    + intros i Hi. reflexivity.
    + exists [the_call s f n]. split; [reflexivity|]. discriminate.
Qed.

Lemma push_call_eq f : push_call f =
  (let! x := the_sym f in (if has_locals x then push_local_variables f x else vret tt) ;! vmod (enter f (s_count x))).
Proof. reflexivity. Qed.

Lemma keeps_locals f x : keeps (if has_locals x then push_local_variables f x else vret tt).
Proof. destruct (has_locals x); [|apply keeps_ret]. intros s. apply push_local_cases. Qed.

Lemma push_call_Rx f s :
  match push_call f s with
  | VRet _ s' => Rx s s' /\ (clean s' -> Framed s -> exists c, v_calls s' = c :: v_calls s /\ c_floor c = floor s /\ c_fun c = f)
  | VExc _ s' => Rx s s'
  | VUndef k s' => Ru k s s'
  | VFuel => True
  end.
Proof.
  rewrite push_call_eq. unfold vbind at 1. unfold the_sym. destruct (nth_N (v_syms s) f) as [x|]; [|split; [apply mono_refl|split; discriminate]].
  pose proof (keeps_locals f x s) as K. unfold vbind, vmod.
  destruct ((if has_locals x then push_local_variables f x else vret tt) s) as [u s1|e s1|k s1|]; auto.
  - cbn in K. pose proof (enter_Rx f (s_count x) s1) as E. split; [eapply Rnx_trans; [exact K|exact E]|].
    intros C F. destruct (proj2 K (mono_clean _ _ (proj1 E) C) F) as (A1 & A2 & A3 & A4).
    exists (the_call s1 f (s_count x)). cbn. rewrite A2, A3. auto.
Qed.

(* ------------------------------------------------------------------ *)
(** * Returning *)

Lemma lower_mono c s : mono s (lower_floor c s).
Proof.
  assert (S : static s (lower_floor c s)) by (constructor; auto).
  constructor; auto.
  - unfold under; cbn; intros ->. reflexivity.
  - intros [T1 T2 T3 T4] _. constructor; auto.
Qed.
Lemma lower_framed c s : In c (v_calls s) -> clean (lower_floor c s) -> Framed s -> Framed (lower_floor c s).
Proof.
  intros H (C & _) [F1 F2 F3]. unfold under in C. cbn in C. apply orb_false_iff in C as [_ C]. apply N.ltb_ge in C.
  specialize (F3 c H) as Q. constructor; auto.
  - destruct F1 as [T1 T2 T3 T4]. constructor; auto.
  - unfold floor. cbn. lia.
Qed.

Lemma okr_reset c x t : (exists i, nth_N (v_syms t) i = Some x) ->
  In c (v_calls t) -> floor t = c_floor c -> (v_sp t < c_sp c -> under t = true) ->
  okr t (reset_stack c x t).
Proof.
  intros [ix X] HC HF HU. unfold reset_stack.
  assert (CS : Inv t -> u16 (c_sp c) = c_sp c /\ c_sp c <= stack_size /\ (forall i, i < c_sp c -> v_slots t i <> None)).
  { intros I. destruct (inv_calls _ I c HC). unfold stack_size in *. repeat split; auto. apply u16_small. lia. }
  destruct (has_return x) eqn:HR; cbn [negb].
  - destruct (_ =? 0) eqn:R0; [apply keeps_fix|].
    destruct (1 <? _) eqn:R1; [|apply Rn_refl].
    apply N.ltb_lt in R1. apply N.eqb_neq in R0.
    assert (LT : under t = false -> c_sp c < v_sp t \/ c_sp c = v_sp t).
    { intros U. destruct (N.lt_ge_cases (v_sp t) (c_sp c)) as [H|H]; [rewrite HU in U; auto; discriminate|lia]. }
    assert (NE : c_sp c <> v_sp t).
    { intros E. rewrite E, Z.sub_diag in R0. apply R0. reflexivity. }
    destruct (v_sp t =? 0) eqn:Z0.
    { apply N.eqb_eq in Z0. split; [apply mono_refl|]. intros I _. split; [discriminate|]. intros _.
      apply HU. lia. }
    apply N.eqb_neq in Z0. unfold vbind, slot.
    destruct (stack_size <=? v_sp t - 1) eqn:Z1.
    { apply N.leb_le in Z1. split; [apply mono_refl|]. intros I _. pose proof (inv_sp _ I). lia. }
    destruct (v_slots t (v_sp t - 1)) as [f|] eqn:F.
    2:{ split; [apply mono_refl|]. intros I _. destruct (inv_slots _ I (v_sp t - 1)); auto. lia. }
    destruct (stack_size <=? u16 (c_sp c)) eqn:Z2.
    { apply N.leb_le in Z2. split; [apply mono_refl|]. intros I _. split; [discriminate|]. intros _.
      destruct (CS I) as (A & B & _). rewrite A in Z2. pose proof (inv_sp _ I). apply HU. lia. }
    apply N.leb_gt in Z2.
    set (t' := set_stack (upd (v_slots t) (u16 (c_sp c)) (Some f)) (u16 (u16 (c_sp c) + 1)) t).
    assert (P : u16 (u16 (c_sp c) + 1) = u16 (c_sp c) + 1) by (apply u16_small; unfold stack_size in Z2; lia).
    assert (W : forall i, v_slots t i <> None -> v_slots t' i <> None).
    { intros i. cbn. unfold upd. destruct (i =? _); congruence. }
    assert (II : Inv t -> Inv t').
    { intros I. destruct (CS I) as (A & B & C). destruct I as [T1 T2 T3 T4]. constructor.
      - exact (static_table _ _ (static_stack _ _ _) T1).
      - cbn. rewrite P. lia.
      - intros i Hi. change (v_sp t') with (u16 (u16 (c_sp c) + 1)) in Hi. rewrite P in Hi. cbn. unfold upd. destruct (i =? _) eqn:G; [congruence|]. apply N.eqb_neq in G. apply C. lia.
      - intros c' Hc. destruct (T4 c' Hc). split; auto. }
    change (Rn t t'). split.
    + constructor; auto. apply static_stack.
    + intros _ [F1 F2 F3]. destruct (CS F1) as (A & B & _). specialize (F3 c HC) as F4.
      unfold floor in *. split; [constructor; auto|]. { unfold floor. cbn. rewrite P. lia. }
      cbn. repeat split; auto. intros i Hi. cbn. unfold upd. replace (i =? u16 (c_sp c)) with false; auto.
        symmetry. apply N.eqb_neq. unfold floor in *. lia.
  - set (t' := set_stack (v_slots t) (u16 (c_sp c)) t).
    assert (II : Inv t -> Inv t').
    { intros I. destruct (CS I) as (A & B & C). destruct I as [T1 T2 T3 T4]. constructor; auto.
      - cbn. lia.
      - cbn. rewrite A. exact C. }
    change (Rn t t'). split.
    + constructor; auto. apply static_stack.
    + intros _ [F1 F2 F3]. destruct (CS F1) as (A & B & _). specialize (F3 c HC) as F4.
      split; [constructor; auto|]. { unfold floor in *. cbn. rewrite A. lia. }
      cbn. repeat split; auto.
Qed.

Lemma okr_push_back r s : v_sp s < stack_size ->
  okr s (VRet tt (set_stack (upd (v_slots s) (v_sp s) (Some r)) (u16 (v_sp s + 1)) s)).
Proof.
  intros H. pose proof (keeps_push r s) as K. unfold push_frame in K.
  replace (v_sp s =? stack_size) with false in K by (symmetry; apply N.eqb_neq; lia).
  replace (stack_size <=? v_sp s) with false in K by (symmetry; apply N.leb_gt; lia). exact K.
Qed.

Lemma okr_pop_local f x t : okr t (pop_local_variables f x t).
Proof.
  unfold pop_local_variables, vbind at 1, vget.
  destruct (recursions t f <=? 1); [apply Rn_refl|].
  assert (K : keeps (viter restore_local (rev (locals_of (v_syms t) f x)))) by (apply keeps_iter; intros; apply keeps_restore_local).
  destruct (has_return x).
  - destruct (v_sp t =? 0) eqn:Z0.
    { unfold vbind, vmod, vundef. split.
      - constructor; auto.
        + constructor; auto.
        + unfold under; cbn; intros _. apply orb_true_r.
        + intros [T1 T2 T3 T4] _. constructor; auto.
      - intros _ _. split; [discriminate|]. intros _. unfold under. cbn. apply orb_true_r. }
    apply N.eqb_neq in Z0. unfold vbind at 2. pose proof (okr_pop t Z0) as P. unfold vbind at 1.
    destruct (pop_frame t) as [r t1|e t1|k t1|] eqn:E1; auto. cbn in P. unfold vret at 1. cbn beta iota.
    eapply okr_seq; [exact P|]. specialize (K t1). unfold vbind.
    destruct (viter restore_local _ t1) as [u t2|e t2|k t2|] eqn:E2; auto. cbn in K.
    eapply okr_seq; [exact K|].
    destruct (stack_size <=? v_sp t2) eqn:Z2.
    { apply N.leb_le in Z2. exfalso.
      assert (D : v_sp t2 <= v_sp t1) by (eapply dec_iter; [intros; apply dec_restore|exact E2]).
      pose proof (pop_frame_bound _ _ _ E1). apply pop_frame_sp in E1. lia. }
    apply N.leb_gt in Z2. apply okr_push_back, Z2.
  - unfold vbind at 2. unfold vret at 1. unfold vbind at 1. specialize (K t).
    destruct (viter restore_local _ t); auto.
Qed.

Lemma keeps_pop_local f x : keeps (if has_locals x then pop_local_variables f x else vret tt).
Proof. destruct (has_locals x); [|apply keeps_ret]. intros s. apply okr_pop_local. Qed.

(** Returning from the frame [c]. *)
Definition left_frame (c : call) (r : list call) (s s' : vm) : Prop :=
  Framed s' /\ v_calls s' = r /\ floor s' = c_floor c /\ forall i, i < c_floor c -> v_slots s' i = v_slots s i.
Definition leave (c : call) (s : vm) : vm := set_calls (tl (v_calls s)) (set_inst (c_ctx c) (set_pc (c_pc c) s)).
Lemma leave_mono c s : mono s (leave c s).
Proof.
  constructor; auto.
  - constructor; auto.
  - intros [T1 T2 T3 T4] _. constructor; auto. intros d Hd. apply T4. cbn in Hd. destruct (v_calls s); [destruct Hd|right; exact Hd].
Qed.

Lemma pop_call_spec s c r : v_calls s = c :: r ->
  match pop_call s with
  | VRet _ s' => mono s s' /\ (clean s' -> Framed s -> left_frame c r s s')
  | VExc _ s' => mono s s' /\ (clean s' -> Framed s ->
      Framed s' /\ c_floor c <= floor s' /\ (forall i, i < c_floor c -> v_slots s' i = v_slots s i) /\
      exists extra, v_calls s' = extra ++ c :: r)
  | VUndef k s' => Ru k s s'
  | VFuel => True
  end.
Proof.
  intros HC. unfold pop_call. rewrite HC. unfold vbind at 1, the_sym.
  destruct (nth_N (v_syms s) (c_fun c)) as [x|] eqn:X; [|split; [apply mono_refl|split; discriminate]].
  rewrite vbind_mod. set (t := lower_floor c s).
  assert (HIn : In c (v_calls s)) by (rewrite HC; left; reflexivity).
  assert (M0 : mono s t) by apply lower_mono.
  assert (F0 : clean t -> Framed s -> Framed t) by (apply lower_framed, HIn).
  assert (FL : floor t = c_floor c) by reflexivity.
  assert (CT : v_calls t = c :: r) by exact HC.
  assert (K1 : okr t (reset_stack c x t)).
  { apply okr_reset; auto; [exists (c_fun c); exact X|]. intros H. unfold under. cbn. apply N.ltb_lt in H.
    change (v_sp t) with (v_sp s) in H. rewrite H. apply orb_true_r. }
  assert (K : okr t ((reset_stack c x ;! (if has_locals x then pop_local_variables (c_fun c) x else vret tt)) t)).
  { apply okr_bind; auto. intros. apply keeps_pop_local. }
  assert (B0 : forall i, v_slots t i = v_slots s i) by reflexivity.
  clearbody t. clear K1.
  assert (E : forall k, (reset_stack c x ;! (if has_locals x then pop_local_variables (c_fun c) x else vret tt) ;! k) t =
              ((reset_stack c x ;! (if has_locals x then pop_local_variables (c_fun c) x else vret tt)) ;! (k : V unit)) t).
  { intros k. rewrite vbind_assoc. reflexivity. }
  rewrite E. clear E. set (m := reset_stack c x ;! (if has_locals x then pop_local_variables (c_fun c) x else vret tt)) in *. unfold vbind, vmod.
  destruct (m t) as [u t1|e t1|k t1|]; auto.
  - change (set_calls (tl (v_calls t1)) (set_inst (c_ctx c) (set_pc (c_pc c) t1))) with (leave c t1).
    cbn in K. split; [eapply mono_trans; [exact M0|eapply mono_trans; [apply K|apply leave_mono]]|].
    intros C F. assert (C1 : clean t1) by exact C.
    destruct (proj2 K C1 (F0 (mono_clean _ _ (proj1 K) C1) F)) as ([[T1 T2 T3 T4] G2 G3] & A2 & A3 & A4).
    split; [|split; [|split]].
    + constructor.
      * constructor; auto. intros d Hd. apply T4. cbn in Hd. rewrite A2, CT in *. right. exact Hd.
      * exact G2.
      * intros d Hd. apply G3. cbn in Hd. rewrite A2, CT in *. right. exact Hd.
    + cbn. rewrite A2, CT. reflexivity.
    + unfold floor in *. cbn. rewrite A3. exact FL.
    + intros i Hi. cbn. rewrite A4 by (rewrite FL; exact Hi). apply B0.
  - cbn in K. split; [eapply mono_trans; [exact M0|apply K]|].
    intros C F. destruct (proj2 K C (F0 (mono_clean _ _ (proj1 K) C) F)) as (G & A2 & A3 & ex & A4 & A5).
    rewrite FL in A2. split; [exact G|split; [exact A2|split]].
    + intros i Hi. rewrite A3 by (rewrite FL; exact Hi). apply B0.
    + exists ex. rewrite A4, CT. reflexivity.
  - eapply Ru_mono; eauto.
Qed.

(** A call, whatever the callee does. *)
Lemma keeps_bracket f (m : V unit) : keeps m -> keeps (push_call f ;! m ;! pop_call).
Proof.
  intros K s. pose proof (push_call_Rx f s) as P. unfold vbind.
  destruct (push_call f s) as [u s1|e s1|k s1|] eqn:E1; auto. destruct P as [P P'].
  specialize (K s1). destruct (m s1) as [v s2|e s2|k s2|] eqn:E2.
  2:{ cbn in *. eapply Rx_trans; eauto. }
  2:{ cbn in *. eapply Ru_mono; [apply P|exact K]. }
  2:{ exact I. }
  cbn in K. assert (M : mono s s2) by (eapply mono_trans; [apply P|apply K]).
  destruct (v_calls s2) as [|c r] eqn:HC.
  { unfold pop_call. rewrite HC. split; [exact M|]. split; discriminate. }
  pose proof (pop_call_spec s2 c r HC) as Q.
  assert (FF : clean s2 -> Framed s ->
            Framed s2 /\ r = v_calls s /\ c_floor c = floor s /\ (forall i, i < floor s -> v_slots s2 i = v_slots s i)).
  { intros C F. assert (C1 : clean s1) by (eapply mono_clean; [apply K|exact C]).
    destruct (P' C1 F) as (c' & D1 & D2 & D3). destruct (proj2 P C1 F) as (A1 & A2 & A3 & _).
    destruct (proj2 K C A1) as (B1 & B2 & B3 & B4). rewrite D1, HC in B2. injection B2 as -> ->.
    split; [exact B1|split; [reflexivity|split; [exact D2|]]]. intros i Hi. rewrite B4 by lia. auto. }
  destruct (pop_call s2) as [w s3|e s3|k s3|]; auto.
  - destruct Q as [Q1 Q2]. split; [eauto using mono_trans|]. intros C F.
    destruct (FF (mono_clean _ _ Q1 C) F) as (G1 & G2 & G3 & G4). destruct (Q2 C G1) as (H1 & H2 & H3 & H4).
    split; [exact H1|split; [congruence|split; [congruence|]]]. intros i Hi. rewrite H4 by lia. auto.
  - destruct Q as [Q1 Q2]. split; [eauto using mono_trans|]. intros C F.
    destruct (FF (mono_clean _ _ Q1 C) F) as (G1 & G2 & G3 & G4). destruct (Q2 C G1) as (H1 & H2 & H3 & ex & H4).
    split; [exact H1|split; [lia|split]].
    + intros i Hi. rewrite H3 by lia. auto.
    + exists (ex ++ [c]). rewrite H4, <- app_assoc, G2. split; [reflexivity|]. intros E. apply app_eq_nil in E as [_ E]. discriminate.
  - eapply Ru_mono; eauto.
Qed.
Lemma keeps_call_with f m : keeps m -> keeps (call_with m f).
Proof.
  intros K s. unfold call_with.
  assert (E : (push_call f ;! (let! x := the_sym f in jump (s_addr x) ;! m ;! pop_call)) s =
              (push_call f ;! (let! x := the_sym f in jump (s_addr x) ;! m) ;! pop_call) s).
  { unfold vbind. destruct (push_call f s); auto. destruct (the_sym f s0); auto. destruct (jump _ s1); auto. }
  rewrite E. apply keeps_bracket. apply keeps_bind; [apply calm_keeps, calm_sym|]. intros x.
  apply keeps_bind; [apply calm_keeps, calm_jump|]. intros _. exact K.
Qed.
