(** The theorems of the script machine in the vocabulary of the specification. *)

From Coq Require Import ZArith Lia.
From Verif Require Import MBase LBase MStream MVfs MDaedalus MVm SVm SVmOps SVmConst SVmString SVmLocals SVmProps SSym SDaedalus
  LDaedalus LSym LOpaque LScript LVm LVmCall LVmRun LVmExact LVmApi LVmOps LVmProps LVmConst LVmString LVmLocals.
Local Open Scope N_scope.
Local Open Scope v_scope.
Ltac Zify.zify_post_hook ::= idtac.

Lemma sound_framed s : sound s <-> Framed s.
Proof.
  split.
  - intros (A & B & C & D & E & F). constructor; auto. constructor; auto.
  - intros [[A B C D] E F]. split; [exact A|]. auto.
Qed.

Lemma reachable_sound s : reachable s -> disciplined s -> sound s.
Proof. intros R D. apply sound_framed, reachable_framed; auto. Qed.

(** ** C59 *)
Lemma push_full f s : v_sp s = stack_size -> push_frame f s = VExc VmException s.
Proof. intros E. unfold push_frame. rewrite E, N.eqb_refl. reflexivity. Qed.
Lemma push_room f s : v_sp s < stack_size -> exists s', push_frame f s = VRet tt s' /\ v_sp s' = v_sp s + 1 /\ v_slots s' (v_sp s) = Some f /\
  only_stack s s' /\ v_pc s' = v_pc s /\ forall i, i <> v_sp s -> v_slots s' i = v_slots s i.
Proof.
  intros L. unfold push_frame. replace (v_sp s =? stack_size) with false by (symmetry; apply N.eqb_neq; lia).
  replace (stack_size <=? v_sp s) with false by (symmetry; apply N.leb_gt; lia). eexists. split; [reflexivity|]. cbn. unfold stack_size in L.
  rewrite u16_small by lia. split; [reflexivity|]. unfold upd. rewrite N.eqb_refl. split; [reflexivity|]. split; [unfold only_stack; auto 12|]. split; [reflexivity|].
  intros i H. apply N.eqb_neq in H. rewrite H. reflexivity.
Qed.

(** ** C61 *)
Lemma calls_return n h f x s s' : api_host h -> sound s -> nth_N (v_syms s) f = Some x -> f <> v_tmp s ->
  unsafe_call n h f s = VRet tt s' -> disciplined s' ->
  back_in_caller x (v_pc s) s s' /\
  exists s1 s2, run n h s1 = VRet tt s2 /\ v_pc s1 = s_addr x /\ v_inst s1 = v_inst s /\
    (has_return x = true -> exists fr, v_slots s' (v_sp s' - 1) = Some fr /\ result_value x (v_sp s1 - s_count x) s2 fr).
Proof.
  intros H S X T E D. apply sound_framed in S. unfold unsafe_call in E.
  destruct (call_exact _ _ _ _ _ (keeps_run h n (api_kind h H)) X T S E D) as (A1 & A2 & A3 & A4 & A5 & A6 & (s1 & s2 & B1 & B2 & B3 & _ & B5)).
  split; [unfold back_in_caller; auto 10|]. exists s1, s2. auto.
Qed.
Lemma nested_call_returns n h i f x s b s' : api_host h -> sound s -> i_op i = op_BL -> h_over h (i_addr i) = None ->
  find_by_address (v_addrs s) (i_addr i) = Some f -> nth_N (v_syms s) f = Some x -> f <> v_tmp s ->
  step h (unsafe_call n h) i s = VRet b s' -> disciplined s' ->
  b = true /\ back_in_caller x (u32 (v_pc s + i_size i)) s s'.
Proof.
  intros H S O HO FA X T E D. unfold step in E. apply vbind_ret in E as (nx & s1 & E1 & E).
  unfold instruct in E1. rewrite O in E1. cbn [N.eqb Pos.eqb op_BL op_NOP op_RSR] in E1.
  rewrite vbind_get, HO, FA in E1. apply vbind_ret in E1 as ([] & s2 & E1 & E2). injection E2 as <- <-.
  rewrite vbind_mod in E. injection E as <- <-. split; [reflexivity|].
  assert (D2 : disciplined s2) by exact D.
  destruct (calls_return n h f x s s2 H S X T E1 D2) as ((A1 & A2 & A3 & A4 & A5 & A6) & _).
  unfold back_in_caller. cbn. rewrite A2. auto 10.
Qed.

(** ** C65 *)
Lemma loose_reads s i x idx : loose s 0 i x idx -> exists s', only_stack s s' /\ v_sp s' = v_sp s - 1 /\
  pop_int s = (if flag_on s ALLOW_NULL then VRet 0%Z s' else VExc NoContext s') /\
  pop_float s = (if flag_on s ALLOW_NULL then VRet 0 s' else VExc NoContext s') /\
  pop_string s = (if flag_on s ALLOW_NULL then VRet [] s' else VExc NoContext s').
Proof.
  intros L. exists (popped s). split; [apply popped_only_stack|]. split; [apply (popped_sp _ _ (proj1 L))|].
  split; [exact (pop_int_loose _ _ _ _ L)|]. split; [exact (pop_float_loose _ _ _ _ L)|exact (pop_string_loose _ _ _ _ L)].
Qed.

(** ** C63 *)
Lemma strings_history os sc flags l rs : ideal_run stack_size 243 os [] = Some (l, rs) ->
  exists s, operate_all os (boot sc flags) = VRet rs s.
Proof. intros E. destruct (stack_history os _ _ _ _ (boot_holds sc flags) E) as (s & P & _). eauto. Qed.

(** ** C64 *)
Lemma recursion_keeps n h f x s s' : api_host h -> sound s -> nth_N (v_syms s) f = Some x -> f <> v_tmp s ->
  has_locals x = true -> (exists c, In c (v_calls s) /\ c_fun c = f) ->
  unsafe_call n h f s = VRet tt s' -> disciplined s' ->
  forall i, In i (locals_of (v_syms s) f x) -> exists a b, nth_N (v_syms s) i = Some a /\ nth_N (v_syms s') i = Some b /\ same_numbers a b.
Proof.
  intros H S X T HL (c & HC & CF) E D. apply sound_framed in S.
  assert (R : recursions s f <> 0).
  { unfold recursions. intros Z. assert (I : In c (filter (fun c => c_fun c =? f) (v_calls s))) by (apply filter_In; split; [exact HC|apply N.eqb_eq, CF]).
    destruct (filter _ _); [destruct I|]. rewrite len_cons in Z. lia. }
  exact (call_locals _ _ _ _ _ (keeps_run h n (api_kind h H)) X T S HL R E D).
Qed.

(** ** C67 *)
Lemma branch_in_code h call ins s f v : i_op ins = op_BZ -> from_top s 0 f -> int_operand s f v ->
  exists s1, only_stack s s1 /\ v_sp s1 = v_sp s - 1 /\
    ((v <> 0%Z /\ step h call ins s = VRet true (set_pc (u32 (v_pc s + i_size ins)) s1)) \/
     (v = 0%Z /\ i_addr ins < text_size (v_text s) /\ step h call ins s = VRet true (set_pc (i_addr ins) s1)) \/
     (v = 0%Z /\ text_size (v_text s) <= i_addr ins /\ step h call ins s = VExc VmException s1)).
Proof.
  intros O F I. exists (popped s). split; [apply popped_only_stack|]. split; [apply (popped_sp _ _ F)|exact (step_branch h call ins s f v O F I)].
Qed.

(** ** C57 *)
Lemma last_write U k i idx c x ws s r s' n : layout_ok U s ->
  Forall (fun w => U (w_sym w) /\ value_ok (w_val w)) ws -> U i ->
  nth_N (v_syms s) i = Some x -> (k = KFlt -> is_member x = true -> idx < 256) -> the_ctx c s = VRet n s ->
  replay k i idx c (is_member x) ws (read_el k i idx c s) s = Some (r, s') -> read_el k i idx c s' = r.
Proof.
  intros L F UI X K C. apply (replay_spec U k i idx c x ws s r s' L F UI); [rewrite X; reflexivity|exact K|].
  unfold the_ctx in C. unfold the_ctx_of. destruct c as [c|]; [|discriminate]. destruct (nth_N (v_heap s) c); [discriminate|discriminate C].
Qed.

(** ** C77 *)
Definition hk {A} (m : V A) : Prop := forall s a s', m s = VRet a s' -> v_heap s' = v_heap s.
Lemma hk_ret {A} (a : A) : hk (vret a). Proof. intros s b s' E. injection E as _ <-. reflexivity. Qed.
Lemma hk_throw {A} e : hk (@vthrow A e). Proof. intros s b s' E. discriminate. Qed.
Lemma hk_lift {A} (o : outcome A) : hk (vlift o). Proof. intros s b s' E. unfold vlift in E. destruct o; try discriminate. injection E as _ <-. reflexivity. Qed.
Lemma hk_bind {A B} (m : V A) (k : A -> V B) : hk m -> (forall a, hk (k a)) -> hk (vbind m k).
Proof. intros H K s b s' E. apply vbind_ret in E as (a & s1 & E1 & E2). rewrite (K _ _ _ _ E2). exact (H _ _ _ E1). Qed.
Lemma hk_get : hk vget. Proof. intros s b s' E. injection E as _ <-. reflexivity. Qed.
Lemma hk_empty : hk is_empty. Proof. intros s b s' E. injection E as _ <-. reflexivity. Qed.
Lemma hk_mod f : (forall s, v_heap (f s) = v_heap s) -> hk (vmod f). Proof. intros H s b s' E. unfold vmod in E. assert (Q : s' = f s) by congruence. rewrite Q. apply H. Qed.
Lemma hk_sym i : hk (the_sym i). Proof. intros s b s' E. unfold the_sym in E. destruct (nth_N _ _); [|discriminate]. injection E as _ <-. reflexivity. Qed.
Lemma hk_ctx i : hk (the_ctx i). Proof. intros s b s' E. unfold the_ctx in E. destruct i; [destruct (nth_N _ _); [|discriminate]|]; injection E as _ <-; reflexivity. Qed.
Lemma hk_slot i : hk (slot i). Proof. intros s b s' E. unfold slot in E. destruct (_ <=? _); [discriminate|]. destruct (v_slots s i); [|discriminate]. injection E as _ <-. reflexivity. Qed.
Lemma hk_as_sym f : hk (as_sym f). Proof. intros s b s' E. unfold as_sym in E. destruct (f_val f); try discriminate. injection E as _ <-. reflexivity. Qed.
Create HintDb hk.
#[local] Hint Resolve hk_ret hk_throw hk_lift hk_get hk_empty hk_sym hk_ctx hk_slot hk_as_sym : hk.
Lemma hk_pop : hk pop_frame.
Proof.
  unfold pop_frame, note_pop. apply hk_bind; [apply hk_mod; reflexivity|intros _]. apply hk_bind; [auto with hk|intros s].
  apply hk_bind; [auto with hk|intros f]. apply hk_bind; [apply hk_mod; reflexivity|intros _; auto with hk].
Qed.
Ltac hkt := repeat match goal with
  | |- hk (vbind _ _) => apply hk_bind; [|intros ?]
  | |- hk pop_frame => apply hk_pop
  | |- hk (if ?b then _ else _) => destruct b
  | |- hk (match ?b with _ => _ end) => destruct b
  | |- _ => solve [auto with hk]
  end.
Lemma hk_pop_int : hk pop_int. Proof. unfold pop_int, vm_get_int, rd_int. hkt. Qed.
Lemma hk_pop_float : hk pop_float. Proof. unfold pop_float, vm_get_float, rd_float. hkt. Qed.
Lemma hk_pop_inst : hk pop_instance. Proof. unfold pop_instance, rd_inst. hkt. Qed.
Lemma hk_pop_ref : hk pop_reference. Proof. unfold pop_reference, mark_free_string. hkt. apply hk_mod. reflexivity. Qed.
Lemma hk_pop_string : hk pop_string. Proof. unfold pop_string, rd_string. apply hk_bind; [apply hk_pop_ref|intros [[i idx] c]]. hkt. Qed.

Lemma take_int s z l : Holds s (IInt z :: l) -> exists s', pop_int s = VRet z s' /\ Holds s' l.
Proof.
  intros H. destruct (operate_ok s (IInt z :: l) TakeInt l (Some (IInt z)) H eq_refl) as (s2 & E2 & H2). unfold operate in E2.
  apply vbind_ret in E2 as (z' & s3 & E2 & E3). injection E3 as -> ->. eauto.
Qed.
Lemma take_float s z l : Holds s (IFloat z :: l) -> exists s', pop_float s = VRet z s' /\ Holds s' l.
Proof.
  intros H. destruct (operate_ok s (IFloat z :: l) TakeFloat l (Some (IFloat z)) H eq_refl) as (s2 & E2 & H2). unfold operate in E2.
  apply vbind_ret in E2 as (z' & s3 & E2 & E3). injection E3 as -> ->. eauto.
Qed.
Lemma take_inst s z l : Holds s (IInst z :: l) -> exists s', pop_instance s = VRet z s' /\ Holds s' l.
Proof.
  intros H. destruct (operate_ok s (IInst z :: l) TakeInst l (Some (IInst z)) H eq_refl) as (s2 & E2 & H2). unfold operate in E2.
  apply vbind_ret in E2 as (z' & s3 & E2 & E3). injection E3 as -> ->. eauto.
Qed.
Lemma check_fits t i s p : (p = PInst t \/ p = PRaw t) -> inst_fits (v_heap s) p (IInst i) -> check_inst_type t i s = VRet tt s.
Proof.
  intros P F. unfold check_inst_type, vbind, the_ctx. destruct i as [n|]; [|destruct t; reflexivity].
  assert (G : exists o, nth_N (v_heap s) n = Some o /\ match t with Some t => n_type o = Some t | None => True end) by (destruct P; subst p; exact F).
  destruct G as (o & -> & T). destruct t as [t|]; [|reflexivity]. rewrite T, N.eqb_refl. reflexivity.
Qed.
Lemma pop_value_ok p i v s l : delivered p i v -> inst_fits (v_heap s) p i -> Holds s (i :: l) ->
  exists s', pop_value p s = VRet v s' /\ Holds s' l /\ v_heap s' = v_heap s.
Proof.
  intros D F H. inversion D; subst; cbn [pop_value]; unfold vbind.
  - destruct (take_int _ _ _ H) as (s' & E & H'). rewrite E. exists s'. split; [reflexivity|]. split; [exact H'|exact (hk_pop_int _ _ _ E)].
  - destruct (take_int _ _ _ H) as (s' & E & H'). rewrite E. exists s'. split; [reflexivity|]. split; [exact H'|exact (hk_pop_int _ _ _ E)].
  - destruct (take_float _ _ _ H) as (s' & E & H'). rewrite E. exists s'. split; [reflexivity|]. split; [exact H'|exact (hk_pop_float _ _ _ E)].
  - destruct (take_string _ _ _ H) as (s' & E & H'). rewrite E. exists s'. split; [reflexivity|]. split; [exact H'|exact (hk_pop_string _ _ _ E)].
  - destruct (take_inst _ _ _ H) as (s' & E & H'). rewrite E. rewrite <- (hk_pop_inst _ _ _ E) in F. rewrite (check_fits _ _ _ _ (or_introl eq_refl) F).
    exists s'. split; [reflexivity|]. split; [exact H'|exact (hk_pop_inst _ _ _ E)].
  - destruct (take_inst _ _ _ H) as (s' & E & H'). rewrite E. rewrite <- (hk_pop_inst _ _ _ E) in F. rewrite (check_fits _ _ _ _ (or_intror eq_refl) F).
    exists s'. split; [reflexivity|]. split; [exact H'|exact (hk_pop_inst _ _ _ E)].
Qed.
Lemma pop_values_ok ps : forall is vs s l, all_delivered ps is vs -> Forall2 (inst_fits (v_heap s)) ps is -> Holds s (rev is ++ l) ->
  exists s', pop_values ps s = VRet vs s' /\ Holds s' l /\ v_heap s' = v_heap s.
Proof.
  induction ps as [|p ps IH]; intros is vs s l A F Hs; inversion A; subst.
  - exists s. split; [reflexivity|]. split; [exact Hs|reflexivity].
  - cbn [rev] in Hs. rewrite <- app_assoc in Hs. cbn [app] in Hs. inversion F; subst.
    match goal with Q : all_delivered ps ?is0 _, F' : Forall2 _ ps ?is0 |- _ => destruct (IH _ _ _ _ Q F' Hs) as (s1 & E1 & K1 & G1) end.
    cbn [pop_values]. unfold vbind at 1. rewrite E1. unfold vbind.
    match goal with D : delivered _ _ _, F' : inst_fits _ _ _ |- _ => rewrite <- G1 in F'; destruct (pop_value_ok _ _ _ _ _ D F' K1) as (s2 & E2 & K2 & G2) end.
    rewrite E2. exists s2. split; [reflexivity|]. split; [exact K2|congruence].
Qed.
Lemma native_arguments ps is vs r cb s l : all_delivered ps is vs -> Forall2 (inst_fits (v_heap s)) ps is -> Holds s (rev is ++ l) ->
  exists s1, Holds s1 l /\ v_heap s1 = v_heap s /\
    wrap_external ps r cb s = (let! v := cb vs in match r with RVoid => vret tt | _ => push_value v end) s1.
Proof.
  intros A F H. destruct (pop_values_ok _ _ _ _ _ A F H) as (s1 & E & H1 & G1). exists s1. split; [exact H1|]. split; [exact G1|].
  unfold wrap_external, vbind. rewrite E. reflexivity.
Qed.
(** What is pushed for a call is what is on the stack. *)
Lemma put_item s l v : Holds s l -> len l < stack_size -> strings l < 243 ->
  exists s', operate (Put v) s = VRet None s' /\ Holds s' (v :: l).
Proof.
  intros H L S. apply (operate_ok s l (Put v) (v :: l) None H). cbn [ideal].
  replace (len (v :: l) <=? stack_size) with true by (symmetry; apply N.leb_le; rewrite len_cons; lia).
  replace (strings (v :: l) <=? 243) with true; [reflexivity|]. symmetry. apply N.leb_le. unfold strings in *. cbn [filter]. destruct v; rewrite ?len_cons; lia.
Qed.

(** ** C66 *)
Lemma check_return_ok x r s s' : check_return x r s = VRet tt s' -> return_matches r (declared_return x) /\ s' = s.
Proof.
  unfold check_return, declared_return, bad_external. destruct r, (has_return x); cbn [negb return_matches];
  repeat match goal with |- context[?a =? ?b] => destruct (N.eqb_spec a b) end; try destruct (8 <=? s_rtype x);
  intros E; try discriminate; injection E as <-; auto.
Qed.
Lemma check_params_ok ps : forall first s s', check_params first ps s = VRet tt s' -> s' = s /\
  exists ts, len ts = len ps /\ (forall k t, nth_N ts k = Some t -> exists y, nth_N (v_syms s) (first + k) = Some y /\ s_type y = t) /\ Forall2 param_matches ps ts.
Proof.
  induction ps as [|p ps IH]; intros first s s' E.
  - injection E as <-. split; [reflexivity|]. exists []. split; [reflexivity|]. split; [intros k t E; rewrite nth_N_at_nil in E; discriminate|constructor].
  - cbn [check_params] in E. rewrite vbind_get in E. destruct (nth_N (v_syms s) first) as [y|] eqn:Y; [|discriminate].
    destruct (ptype_ok p (s_type y)) eqn:P; [|unfold bad_external in E; destruct (8 <=? _); discriminate].
    destruct (IH _ _ _ E) as (-> & ts & L & Q & F). split; [reflexivity|]. exists (s_type y :: ts). split; [rewrite !len_cons; lia|]. split.
    + intros k t K. destruct (N.eq_dec k 0) as [->|K0].
      * cbn in K. injection K as <-. rewrite N.add_0_r. eauto.
      * replace k with (k - 1 + 1) in K by lia. rewrite nth_N_S in K. destruct (Q _ _ K) as (z & Z1 & Z2). exists z. split; [|exact Z2]. rewrite <- Z1. f_equal. lia.
    + constructor; [apply ptype_ok_spec, P|exact F].
Qed.
Lemma check_native_ok i x ps r s s' : check_native i x ps r s = VRet tt s' -> signature_ok s i x ps r /\ s' = s.
Proof.
  intros E. unfold check_native in E. apply vbind_ret in E as ([] & s1 & E1 & E). apply check_return_ok in E1 as [R ->].
  destruct (N.eqb_spec (s_count x) (len ps)) as [C|C]; [|discriminate]. cbn [negb] in E. apply check_params_ok in E as (-> & ts & L & Q & F).
  split; [|reflexivity]. split; [exact R|]. exists ts. split; [split; [lia|exact Q]|exact F].
Qed.
Lemma register_external_ok h name ps r cb s h' s' : register_external h name ps r cb s = VRet h' s' ->
  s' = s /\ ((find_by_name (v_names s) name = None /\ h' = h) \/
  exists i x, find_by_name (v_names s) name = Some i /\ nth_N (v_syms s) i = Some x /\ is_external x = true /\ signature_ok s i x ps r /\
    h' = add_ext h i (wrap_external ps r cb)).
Proof.
  intros E. unfold register_external in E. rewrite vbind_get in E. destruct (find_by_name _ _) as [i|] eqn:FN.
  - apply vbind_ret in E as (x & s1 & E1 & E). unfold the_sym in E1. destruct (nth_N (v_syms s) i) eqn:X; [|discriminate]. injection E1 as <- <-.
    destruct (is_external s0) eqn:XE; [|discriminate]. cbn [negb] in E. apply vbind_ret in E as ([] & s1 & E1 & E).
    apply check_native_ok in E1 as [S ->]. injection E as <- <-. split; [reflexivity|]. right. exists i, s0. auto.
  - injection E as <- <-. auto.
Qed.
Lemma override_function_ok h name ps r cb s h' s' : override_function h name ps r cb s = VRet h' s' ->
  s' = s /\ exists i x, find_by_name (v_names s) name = Some i /\ nth_N (v_syms s) i = Some x /\ is_external x = false /\ signature_ok s i x ps r /\
    h' = add_over h (s_addr x) (push_call i ;! wrap_external ps r cb ;! pop_call).
Proof.
  intros E. unfold override_function in E. rewrite vbind_get in E. destruct (find_by_name _ _) as [i|] eqn:FN; [|discriminate].
  apply vbind_ret in E as (x & s1 & E1 & E). unfold the_sym in E1. destruct (nth_N (v_syms s) i) eqn:X; [|discriminate]. injection E1 as <- <-.
  destruct (is_external s0) eqn:XE; [discriminate|]. apply vbind_ret in E as ([] & s1 & E1 & E).
  apply check_native_ok in E1 as [S ->]. injection E as <- <-. split; [reflexivity|]. exists i, s0. auto.
Qed.

(** ** C72 *)
Lemma arguments_delivered f x s s1 : nth_N (v_syms s) f = Some x -> sound s -> push_call f s = VRet tt s1 -> wrapped s1 = false ->
  (has_locals x = true -> (exists c, In c (v_calls s) /\ c_fun c = f) -> locals_size s f x = 0 \/ s_count x <= locals_size s f x) ->
  forall k, k < s_count x -> v_slots s1 (v_sp s1 - s_count x + k) = v_slots s (v_sp s - s_count x + k).
Proof.
  intros X S E W H. apply sound_framed in S. apply (call_arguments f x s tt s1 X S E W). intros HL R. apply H; [exact HL|].
  unfold recursions in R. destruct (filter (fun c => c_fun c =? f) (v_calls s)) as [|c r] eqn:F; [destruct (R eq_refl)|].
  assert (I : In c (filter (fun c => c_fun c =? f) (v_calls s))) by (rewrite F; left; reflexivity). apply filter_In in I as [I1 I2].
  exists c. split; [exact I1|apply N.eqb_eq, I2].
Qed.
