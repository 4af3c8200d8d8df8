(** Lemmas for functions the host did not register. *)

From Coq Require Import Lia ZifyN ZifyBool ZifyNat.
From Verif Require Import MBase MStream MDaedalus MVm SVm SVmProps SInst LBase LVm LVmCall LVmRun LVmExact.
Local Open Scope N_scope.
Local Open Scope v_scope.

(** A pop that succeeds on a stack that is not empty. *)
Definition pops {A} (m : V A) : Prop := forall s a s', m s = VRet a s' -> 0 < v_sp s ->
  v_sp s' = v_sp s - 1 /\ (forall j, j < v_sp s - 1 -> v_slots s' j = v_slots s j) /\
  v_syms s' = v_syms s /\ v_tmp s' = v_tmp s /\ v_pc s' = v_pc s /\ v_inst s' = v_inst s /\ v_calls s' = v_calls s.

Lemma frame_more s f s' : pop_frame s = VRet f s' -> v_pc s' = v_pc s /\ v_inst s' = v_inst s.
Proof.
  unfold pop_frame, vbind, note_pop, vmod, vget, slot. cbn. destruct (_ <=? _); [discriminate|].
  destruct (v_slots s _); [|discriminate]. intros [= <- <-]. auto.
Qed.
(** Computations that look at symbols and instances only. *)
Definition looks {A} (m : V A) : Prop := forall s a s', m s = VRet a s' ->
  v_sp s' = v_sp s /\ v_slots s' = v_slots s /\ v_syms s' = v_syms s /\ v_tmp s' = v_tmp s /\ v_pc s' = v_pc s /\ v_inst s' = v_inst s /\ v_calls s' = v_calls s.
Lemma looks_ret {A} (a : A) : looks (vret a). Proof. intros s b s' [= <- <-]. repeat split. Qed.
Lemma looks_throw {A} e : looks (@vthrow A e). Proof. intros s b s' E. discriminate. Qed.
Lemma looks_get : looks vget. Proof. intros s b s' [= <- <-]. repeat split. Qed.
Lemma looks_lift {A} (o : outcome A) : looks (vlift o).
Proof. intros s b s'. unfold vlift. destruct o; try discriminate. intros [= <- <-]. repeat split. Qed.
Lemma looks_bind {A B} (m : V A) (k : A -> V B) : looks m -> (forall a, looks (k a)) -> looks (vbind m k).
Proof.
  intros H1 H2 s b s' E. apply vbind_ret in E as (a & s1 & E1 & E2). destruct (H1 _ _ _ E1) as (<- & <- & <- & <- & <- & <- & <-). eapply H2; eauto.
Qed.
Lemma looks_sym i : looks (the_sym i).
Proof. intros s b s'. unfold the_sym. destruct (nth_N _ _); [|discriminate]. intros [= <- <-]. repeat split. Qed.
Lemma looks_ctx c : looks (the_ctx c).
Proof. intros s b s'. unfold the_ctx. destruct c; [destruct (nth_N _ _); [|discriminate]|]; intros [= <- <-]; repeat split. Qed.
Lemma looks_as f : looks (as_sym f). Proof. unfold as_sym. destruct (f_val f); try apply looks_throw. apply looks_ret. Qed.
Lemma looks_free i : looks (mark_free_string i).
Proof. intros s b s' [= <- <-]. repeat split. Qed.
Ltac lookss := repeat first
  [ apply looks_ret | apply looks_throw | apply looks_get | apply looks_lift | apply looks_sym | apply looks_ctx | apply looks_as | apply looks_free
  | (apply looks_bind; [|intros]) | match goal with |- looks (match ?x with _ => _ end) => destruct x end ].

Lemma pops_frame {A} (d : V A) (k : frame -> V A) : (forall f, looks (k f)) -> pops (let! e := is_empty in if e then d else vbind pop_frame k).
Proof.
  intros K s a s' E Hs. unfold vbind at 1 in E. unfold is_empty in E. replace (v_sp s =? 0) with false in E by lia.
  apply vbind_ret in E as (f & s1 & E1 & E2). destruct (K f _ _ _ E2) as (-> & -> & -> & -> & -> & -> & ->).
  pose proof (frame_more _ _ _ E1) as [-> ->]. apply pop_frame_eq in E1 as (F & -> & -> & -> & -> & _ & ->). repeat split.
  intros j Hj. unfold upd. replace (j =? v_sp s - 1) with false by lia. reflexivity.
Qed.
Lemma pops_int : pops pop_int. Proof. apply pops_frame. intros f. unfold vm_get_int, rd_int. lookss. Qed.
Lemma pops_float : pops pop_float. Proof. apply pops_frame. intros f. unfold vm_get_float, rd_float. lookss. Qed.
Lemma pops_reference : pops pop_reference. Proof. apply pops_frame. intros f. lookss. Qed.
Lemma pops_then {A B} (m : V A) (b : B) : pops m -> pops (m ;! vret b).
Proof. intros H s a s' E Hs. apply vbind_ret in E as (c & s1 & E1 & [= _ <-]). eapply H; eauto. Qed.

(** Dropping the arguments. *)
Definition drop_one (i k : N) : V unit :=
  let! s := vget in
  match nth_N (v_syms s) (i + 1 + k) with
  | None => vundef TableOob
  | Some p =>
      if s_type p =? T_INT then pop_int ;! vret tt
      else if s_type p =? T_FLOAT then pop_float ;! vret tt
      else if (s_type p =? T_INSTANCE) || (s_type p =? T_STRING) then pop_reference ;! vret tt
      else vret tt
  end.
Lemma drops_one i k s s' : (exists p, nth_N (v_syms s) (i + 1 + k) = Some p /\ plain_type (s_type p)) -> drop_one i k s = VRet tt s' -> 0 < v_sp s ->
  v_sp s' = v_sp s - 1 /\ (forall j, j < v_sp s - 1 -> v_slots s' j = v_slots s j) /\
  v_syms s' = v_syms s /\ v_tmp s' = v_tmp s /\ v_pc s' = v_pc s /\ v_inst s' = v_inst s /\ v_calls s' = v_calls s.
Proof.
  intros (p & P & T). unfold drop_one. unfold vbind at 1. unfold vget. rewrite P.
  destruct T as [-> | [-> | [-> | ->]]].
  - intros E Hs. exact (pops_then _ tt pops_int _ _ _ E Hs).
  - intros E Hs. exact (pops_then _ tt pops_float _ _ _ E Hs).
  - intros E Hs. exact (pops_then _ tt pops_reference _ _ _ E Hs).
  - intros E Hs. exact (pops_then _ tt pops_reference _ _ _ E Hs).
Qed.
Lemma drops_all i l : forall s s', (forall k, In k l -> exists p, nth_N (v_syms s) (i + 1 + k) = Some p /\ plain_type (s_type p)) ->
  viter (drop_one i) l s = VRet tt s' -> len l <= v_sp s ->
  v_sp s' = v_sp s - len l /\ (forall j, j < v_sp s - len l -> v_slots s' j = v_slots s j) /\
  v_syms s' = v_syms s /\ v_tmp s' = v_tmp s /\ v_pc s' = v_pc s /\ v_inst s' = v_inst s /\ v_calls s' = v_calls s.
Proof.
  induction l as [|k l IH]; intros s s' H E Hl.
  - injection E as <-. change (len (@nil N)) with 0. rewrite N.sub_0_r. repeat split.
  - cbn [viter] in E. apply vbind_ret in E as ([] & s1 & E1 & E2). rewrite len_cons in *.
    destruct (drops_one i k s s1 (H k (or_introl eq_refl)) E1 ltac:(lia)) as (P1 & P2 & P3 & P4 & P5 & P6 & P7).
    destruct (IH s1 s') as (Q1 & Q2 & Q3 & Q4 & Q5 & Q6 & Q7); [intros j Hj; rewrite P3; apply H; right; exact Hj|exact E2|lia|].
    split; [lia|]. split; [intros j Hj; rewrite Q2 by lia; apply P2; lia|]. repeat split; congruence.
Qed.
Lemma in_upto k n : In k (rev (upto n)) -> k < n.
Proof. rewrite <- in_rev. unfold upto. rewrite in_map_iff. intros (m & <- & H). apply in_seq in H. lia. Qed.
Lemma len_upto n : len (rev (upto n)) = n.
Proof. unfold len, upto. rewrite rev_length, map_length, seq_length. lia. Qed.

(** Pushing the result. *)
Definition push_default (ty : N) : V unit :=
  if ty =? T_FLOAT then push_float 0
  else if ty =? T_INT then push_int 0
  else if ty =? T_STRING then push_string []
  else if ty =? T_INSTANCE then push_instance None
  else vret tt.
Lemma pushed fr s s' : push_frame fr s = VRet tt s' -> v_sp s' = v_sp s + 1 /\ (forall j, j < v_sp s -> v_slots s' j = v_slots s j) /\ v_slots s' (v_sp s) = Some fr /\
  v_tmp s' = v_tmp s /\ v_pc s' = v_pc s /\ v_inst s' = v_inst s /\ v_calls s' = v_calls s.
Proof.
  intros E. apply push_frame_eq in E as [_ ->]. cbn. unfold upd. rewrite N.eqb_refl. repeat split. intros j Hj. replace (j =? v_sp s) with false by lia. reflexivity.
Qed.
Lemma default_pushed ty s s' : plain_type ty -> push_default ty s = VRet tt s' ->
  v_sp s' = v_sp s + 1 /\ (forall j, j < v_sp s -> v_slots s' j = v_slots s j) /\
  (exists fr, v_slots s' (v_sp s) = Some fr /\ default_value ty (v_tmp s) fr) /\
  v_pc s' = v_pc s /\ v_inst s' = v_inst s /\ v_calls s' = v_calls s.
Proof.
  intros T. unfold push_default, default_value. destruct T as [-> | [-> | [-> | ->]]]; cbn [N.eqb T_FLOAT T_INT T_STRING T_INSTANCE T_FUNCTION Pos.eqb orb]; intros E.
  - destruct (pushed _ _ _ E) as (A1 & A2 & A3 & A4 & A5 & A6 & A7). repeat split; try assumption. eexists. split; [exact A3|reflexivity].
  - destruct (pushed _ _ _ E) as (A1 & A2 & A3 & A4 & A5 & A6 & A7). repeat split; try assumption. eexists. split; [exact A3|reflexivity].
  - destruct (still_push_string [] _ _ _ E) as (S1 & S2 & S3).
    unfold push_string in E. apply vbind_ret in E as (k & s1 & E1 & E). unfold vbind at 1 in E. unfold vget in E.
    apply vbind_ret in E as ([] & s2 & E2 & E). unfold push_reference in E. unfold vbind at 1 in E. unfold vget in E.
    destruct (pushed _ _ _ E) as (A1 & A2 & A3 & A4 & A5 & A6 & A7).
    pose proof (calm_get_free s) as Q1. rewrite E1 in Q1. pose proof (calm_wr_string (v_tmp s1) [] (u16 k) None s1) as Q2. rewrite E2 in Q2.
    assert (SP : v_sp s2 = v_sp s) by (rewrite (q_sp _ _ Q2); exact (q_sp _ _ Q1)).
    assert (SL : v_slots s2 = v_slots s) by (rewrite (q_slots _ _ Q2); exact (q_slots _ _ Q1)).
    rewrite SP in A1, A2, A3. rewrite SL in A2. repeat split; try assumption.
    eexists. split; [exact A3|]. split; [reflexivity|]. cbn [f_val]. f_equal. exact (st_tmpi _ _ (q_static _ _ Q1)).
  - destruct (pushed _ _ _ E) as (A1 & A2 & A3 & A4 & A5 & A6 & A7). repeat split; try assumption. eexists. split; [exact A3|reflexivity].
Qed.

Lemma default_balanced cb i x s s' : nth_N (v_syms s) i = Some x ->
  (forall k, k < s_count x -> exists p, nth_N (v_syms s) (i + 1 + k) = Some p /\ plain_type (s_type p)) ->
  (has_return x = true -> plain_type (s_rtype x)) -> s_count x <= v_sp s -> default_external cb i s = VRet tt s' ->
  exists s1, cb i s1 = VRet tt s' /\ v_sp s1 = v_sp s - s_count x + returns x /\
    (forall j, j < v_sp s - s_count x -> v_slots s1 j = v_slots s j) /\
    (has_return x = true -> exists fr, v_slots s1 (v_sp s - s_count x) = Some fr /\ default_value (s_rtype x) (v_tmp s) fr) /\
    v_pc s1 = v_pc s /\ v_inst s1 = v_inst s /\ v_calls s1 = v_calls s.
Proof.
  intros X P R Hc E. unfold default_external in E. unfold vbind at 1 in E. unfold the_sym in E. rewrite X in E.
  apply vbind_ret in E as ([] & s1 & E1 & E).
  destruct (drops_all i (rev (upto (s_count x))) s s1) as (Q1 & Q2 & Q3 & Q4 & Q5 & Q6 & Q7); [intros k Hk; apply P, in_upto, Hk|exact E1|rewrite len_upto; exact Hc|].
  rewrite len_upto in Q1, Q2. apply vbind_ret in E as ([] & s2 & E2 & E). exists s2. split; [exact E|]. unfold returns.
  destruct (has_return x) eqn:Hr.
  - destruct (default_pushed (s_rtype x) s1 s2 (R eq_refl) E2) as (D1 & D2 & D3 & D4 & D5 & D6).
    split; [lia|]. split; [intros j Hj; rewrite D2 by lia; apply Q2; exact Hj|]. split; [intros _; rewrite <- Q1, <- Q4; exact D3|].
    repeat split; congruence.
  - injection E2 as <-. split; [lia|]. split; [exact Q2|]. split; [discriminate|]. repeat split; congruence.
Qed.

(** What goes wrong. *)
Lemma function_kept cb i x p s : nth_N (v_syms s) i = Some x -> s_count x = 1 -> has_return x = false ->
  nth_N (v_syms s) (i + 1) = Some p -> s_type p = T_FUNCTION -> default_external cb i s = cb i s.
Proof.
  intros X C R P T. unfold default_external. unfold vbind at 1. unfold the_sym. rewrite X, C, R.
  change (rev (upto 1)) with [0]. cbn [viter]. unfold vbind, vget. replace (i + 1 + 0) with (i + 1) by lia. rewrite P, T. reflexivity.
Qed.
Lemma function_missing cb i x s : nth_N (v_syms s) i = Some x -> s_count x = 0 -> has_return x = true -> s_rtype x = T_FUNCTION ->
  default_external cb i s = cb i s.
Proof.
  intros X C R T. unfold default_external. unfold vbind at 1. unfold the_sym. rewrite X, C, R, T. reflexivity.
Qed.
Lemma reference_refused s fr : 0 < v_sp s <= stack_size -> v_slots s (v_sp s - 1) = Some fr -> f_ref fr = false ->
  exists s', pop_reference s = VExc VmException s' /\ v_sp s' = v_sp s - 1.
Proof.
  intros Hs F R. unfold pop_reference. unfold vbind at 1. unfold is_empty. replace (v_sp s =? 0) with false by lia.
  assert (P : exists s', pop_frame s = VRet fr s' /\ v_sp s' = v_sp s - 1).
  { unfold pop_frame, vbind, note_pop, vmod, vget, slot. cbn. replace (stack_size <=? v_sp s - 1) with false by lia. rewrite F. eexists. split; [reflexivity|]. reflexivity. }
  destruct P as (s' & P & Q). unfold vbind at 1. rewrite P. rewrite R. exists s'. split; [reflexivity|exact Q].
Qed.
Lemma by_value cb i x p s fr : nth_N (v_syms s) i = Some x -> s_count x = 1 ->
  nth_N (v_syms s) (i + 1) = Some p -> s_type p = T_INSTANCE -> 0 < v_sp s <= stack_size -> v_slots s (v_sp s - 1) = Some fr -> f_ref fr = false ->
  exists s', default_external cb i s = VExc VmException s' /\ v_sp s' = v_sp s - 1.
Proof.
  intros X C P T Hs F R. unfold default_external. unfold vbind at 1. unfold the_sym. rewrite X, C.
  change (rev (upto 1)) with [0]. cbn [viter]. destruct (reference_refused s fr Hs F R) as (s' & E & Q). exists s'. split; [|exact Q].
  unfold vbind, vget. replace (i + 1 + 0) with (i + 1) by lia. rewrite P, T.
  cbn [N.eqb T_FLOAT T_INT T_STRING T_INSTANCE T_FUNCTION Pos.eqb orb]. rewrite E. reflexivity.
Qed.
