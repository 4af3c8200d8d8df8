(** Strings on the stack. *)

From Coq Require Import ZArith Lia Permutation.
From Verif Require Import MBase LBase MStream MDaedalus MVm LVm LVmCall LVmExact LDaedalus SVm SVmOps SVmString LVmOps LVmProps.
Local Open Scope N_scope.
Local Open Scope v_scope.
Ltac Zify.zify_post_hook ::= idtac.

Lemma upto_app n m : upto (n + m) = upto n ++ map (fun k => n + k) (upto m).
Proof.
  unfold upto. rewrite N2Nat.inj_add, seq_app, map_app. f_equal. rewrite map_map. cbn [Nat.add].
  replace (N.to_nat n) with (0 + N.to_nat n)%nat at 1 by lia.
  generalize 0%nat as a. induction (N.to_nat m) as [|k IH]; intros a; [reflexivity|]. cbn [seq map]. f_equal; [lia|]. apply (IH (Datatypes.S a)).
Qed.
Lemma nth_set_same {A} (l : list A) n x : n < len l -> nth_N (set_N l n x) n = Some x.
Proof. intros H. rewrite nth_set_N, N.eqb_refl. apply N.ltb_lt in H. rewrite H. reflexivity. Qed.
Lemma stored_same s s' strs strs' l : forall ks, v_tmp s' = v_tmp s -> v_heap s' = v_heap s -> (forall i, i < len l -> v_slots s' i = v_slots s i) ->
  (forall k, In k ks -> nth_N strs' k = nth_N strs k) -> in_slots s strs l ks -> in_slots s' strs' l ks.
Proof.
  induction l as [|v l IH]; intros ks T HP A B; [auto|].
  assert (A1 : forall i, i < len l -> v_slots s' i = v_slots s i) by (intros i H; apply A; rewrite len_cons; lia).
  assert (A2 : v_slots s' (len l) = v_slots s (len l)) by (apply A; rewrite len_cons; lia).
  destruct v; cbn [in_slots]; rewrite A2; try (intros [H1 H2]; split; [exact H1|apply IH; auto]).
  rewrite T. intros (k & ks' & c & -> & H1 & HC & H2 & H3). exists k, ks', c. split; [reflexivity|]. split; [exact H1|]. split; [unfold there in *; rewrite HP; exact HC|]. split.
  - rewrite B by (left; reflexivity). exact H2.
  - apply IH; auto. intros j J. apply B. right. exact J.
Qed.
Lemma stored_count s strs l : forall ks, in_slots s strs l ks -> strings l = len ks.
Proof.
  induction l as [|v l IH]; intros ks H; [cbn in H; subst; reflexivity|].
  destruct v; cbn [in_slots] in H; unfold strings in *; cbn [filter].
  1,2,4: destruct H as [_ H]; apply IH, H.
  destruct H as (k & ks' & c & -> & _ & _ & _ & H). rewrite !len_cons, (IH ks' H). reflexivity.
Qed.
Lemma stored_small s strs l : forall ks, in_slots s strs l ks -> forall k, In k ks -> k < len strs.
Proof.
  induction l as [|v l IH]; intros ks H; [cbn in H; subst; intros k []|].
  destruct v; cbn [in_slots] in H.
  1,2,4: destruct H as [_ H]; apply IH, H.
  destruct H as (k & ks' & c & -> & _ & _ & N & H). intros j [<-|J]; [exact (nth_N_lt _ _ _ N)|]. apply (IH _ H), J.
Qed.

Lemma len_upto n : len (upto n) = n.
Proof. unfold upto. rewrite len_map. unfold len. rewrite seq_length. lia. Qed.
Lemma NoDup_upto n : NoDup (upto n).
Proof. unfold upto. apply FinFun.Injective_map_NoDup; [intros a b; lia|apply seq_NoDup]. Qed.

Lemma put_plain s l f v : Holds s l -> len l < stack_size ->
  (match v with IInt z => f = mkFrame None false (FInt z) 0 | IFloat b => f = mkFrame None false (FFloat b) 0
   | IInst i => f = mkFrame None false (FInst i) 0 | IStr _ => False end) ->
  exists s', push_frame f s = VRet tt s' /\ Holds s' (v :: l).
Proof.
  intros [H1 H2 HC (T & strs & ks & D1 & D2 & D3 & D4 & D5 & D6 & D7 & D8)] L F.
  exists (set_stack (upd (v_slots s) (v_sp s) (Some f)) (u16 (v_sp s + 1)) s). unfold push_frame.
  replace (v_sp s =? stack_size) with false by (symmetry; apply N.eqb_neq; lia).
  replace (stack_size <=? v_sp s) with false by (symmetry; apply N.leb_gt; lia). split; [reflexivity|]. unfold stack_size in *. constructor.
  - cbn. rewrite u16_small by lia. rewrite len_cons. lia.
  - rewrite len_cons. unfold stack_size. lia.
  - exact HC.
  - exists T, strs, ks. cbn [v_syms v_tmp v_free set_stack]. do 7 (split; [assumption|]).
    assert (S : in_slots (set_stack (upd (v_slots s) (v_sp s) (Some f)) (u16 (v_sp s + 1)) s) strs l ks).
    { apply (stored_same s _ strs strs); auto. intros i I. cbn. unfold upd. replace (i =? v_sp s) with false by (symmetry; apply N.eqb_neq; lia). reflexivity. }
    destruct v; cbn [in_slots]; try (split; [|exact S]; cbn [v_slots set_stack]; unfold upd; rewrite H1, N.eqb_refl, F; reflexivity). destruct F.
Qed.

Lemma take_slot s v l f : Holds s (v :: l) -> v_slots s (len l) = Some f -> from_top s 0 f.
Proof.
  intros [H1 H2 _ _] F. rewrite len_cons in *. unfold from_top. split; [lia|]. split; [lia|]. replace (v_sp s - 1 - 0) with (len l) by lia. exact F.
Qed.
Lemma take_plain s v l : Holds s (v :: l) -> (match v with IStr _ => False | _ => True end) -> Holds (popped s) l.
Proof.
  intros H NS. destruct H as [H1 H2 HC (T & strs & ks & D1 & D2 & D3 & D4 & D5 & D6 & D7 & D8)] eqn:HH. clear HH.
  assert (E : exists f, v_slots s (len l) = Some f) by (destruct v; cbn [in_slots] in D8; try (destruct D8 as [D8 _]; eauto); destruct NS).
  destruct E as [f E]. pose proof (take_slot s v l f H E) as FT. rewrite (popped_eq s f FT). rewrite len_cons in *. constructor.
  - cbn. lia.
  - lia.
  - exact HC.
  - exists T, strs, ks. cbn [v_syms v_tmp v_free set_stack note_under set_ghost]. do 7 (split; [assumption|]).
    assert (S : in_slots s strs l ks) by (destruct v; cbn [in_slots] in D8; try (destruct D8 as [_ D8]; exact D8); destruct NS).
    apply (stored_same s _ strs strs); auto. intros i I. cbn. unfold upd. replace (i =? v_sp s - 1) with false by (symmetry; apply N.eqb_neq; lia). reflexivity.
Qed.

Lemma take_string s b l : Holds s (IStr b :: l) -> exists s', pop_string s = VRet b s' /\ Holds s' l.
Proof.
  intros H. destruct H as [H1 H2 HC (T & strs & ks & D1 & D2 & D3 & D4 & D5 & D6 & D7 & D8)] eqn:HH. clear HH.
  cbn [in_slots] in D8. destruct D8 as (k & ks' & c & -> & S1 & SC & S2 & S3).
  pose proof (take_slot s _ l _ H S1) as FT. pose proof (nth_N_lt _ _ _ S2) as KL.
  assert (K : k < 256) by (cbn [In] in D6; lia).
  set (s1 := set_free (k :: v_free s) (popped s)). exists s1.
  assert (F1 : v_free (popped s) = v_free s) by (apply popped_only_stack).
  assert (PR : pop_reference s = VRet (v_tmp s, k, c) s1).
  { unfold pop_reference. unfold vbind at 1, is_empty. rewrite (not_empty _ _ _ FT). unfold vbind at 1. rewrite (pop_frame_at _ _ FT).
    cbn [f_ref negb as_sym f_val f_ctx f_idx]. unfold vbind at 1, vret at 1. rewrite vbind_get. rewrite popped_tmp, N.eqb_refl.
    unfold vbind, mark_free_string, vmod, vret. rewrite F1, u8_small by exact K. reflexivity. }
  split.
  - unfold pop_string, vbind at 1. rewrite PR. unfold vbind at 1, the_sym. cbn [v_syms s1 set_free]. unfold s1 at 1. cbn [v_syms set_free].
    rewrite popped_syms, D1, vbind_get, D3. cbn [andb]. unfold rd_string, vbind, the_sym. unfold s1 at 1. cbn [v_syms set_free]. rewrite popped_syms, D1.
    assert (X : exists n, the_ctx c s1 = VRet n s1).
    { unfold the_ctx. destruct c as [c|]; [|eauto]. cbn in SC. destruct (nth_N_Some (v_heap s) c SC) as [n N].
      exists (Some n). unfold s1. cbn [v_heap set_free]. rewrite popped_heap, N. reflexivity. }
    destruct X as [n X]. fold s1 in X |- *. rewrite X.
    unfold vlift, sym_get_string. rewrite D2, D3, D5, D4, S2. cbn [N.eqb Pos.eqb T_STRING negb].
    replace (len strs <=? k) with false by (symmetry; apply N.leb_gt; exact KL). reflexivity.
  - rewrite len_cons in *. constructor.
    + unfold s1. cbn. rewrite (popped_sp _ _ FT). lia.
    + lia.
    + unfold s1. cbn [v_inst set_free]. rewrite (popped_eq _ _ FT). exact HC.
    + exists T, strs, ks'. unfold s1. cbn [v_syms v_tmp v_free set_free]. rewrite popped_syms, popped_tmp. do 6 (split; [assumption|]). split.
      * eapply Permutation_trans; [|exact D7]. cbn [app]. symmetry. apply Permutation_middle.
      * apply (stored_same s _ strs strs); auto; [cbn; apply popped_tmp|cbn; apply popped_heap|]. intros i I. rewrite (popped_eq _ _ FT). cbn. unfold upd.
        replace (i =? v_sp s - 1) with false by (symmetry; apply N.eqb_neq; lia). reflexivity.
Qed.


(** The state in which a cell is free: the cells are tripled when none is. *)
Definition room : V unit := fun s =>
  match v_free s with
  | [] => (let! t := the_sym (v_tmp s) in
       let prev := s_count t in
       let! t' := vlift (sym_grow t (u32 (prev * 2))) in
       put_sym (v_tmp s) t' ;!
       vmod (fun s => set_free (rev (map (fun k => prev + N.of_nat k) (seq 0 (N.to_nat (s_count t' - prev)))) ++ v_free s) s)) s
  | _ => VRet tt s
  end.
Lemma room_ok s l : Holds s l -> strings l < 243 -> exists s', room s = VRet tt s' /\ Holds s' l /\ v_free s' <> [].
Proof.
  intros H L. unfold room. destruct (v_free s) as [|k fr] eqn:F; [|exists s; split; [reflexivity|]; split; [exact H|rewrite F; discriminate]].
  destruct H as [H1 H2 HC (T & strs & ks & D1 & D2 & D3 & D4 & D5 & D6 & D7 & D8)].
  rewrite F, app_nil_r in D7. pose proof (stored_count _ _ _ _ D8) as CK.
  assert (CL : len ks = len strs).
  { unfold len at 1. rewrite (Permutation_length D7). fold (len (upto (len strs))). apply len_upto. }
  set (n := len strs) in *. assert (NB : 1 <= n <= 81) by (cbn [In] in D6; lia).
  set (strs' := strs ++ repeat [] (N.to_nat (3 * n - n))). set (T' := with_grown T (SStrs strs') (3 * n)).
  assert (G : sym_grow T (u32 (s_count T * 2)) = Ret T').
  { unfold sym_grow. rewrite D5, D4. fold n. rewrite (u32_small (n * 2)) by lia. rewrite u32_small by lia. rewrite N.eqb_refl.
    replace (n + n * 2) with (3 * n) by lia. replace (n <=? 3 * n) with true by (symmetry; apply N.leb_le; lia). reflexivity. }
  assert (LS : len strs' = 3 * n) by (unfold strs'; rewrite len_app; fold n; unfold len at 1; rewrite repeat_length; lia).
  set (nw := rev (map (fun k => n + N.of_nat k) (seq 0 (N.to_nat (3 * n - n))))).
  exists (set_free (nw ++ v_free s) (set_syms (set_N (v_syms s) (v_tmp s) T') s)). split.
  - unfold vbind, the_sym. rewrite D1. unfold vlift. rewrite G. unfold put_sym, vmod. rewrite D5. reflexivity.
  - pose proof (nth_N_lt _ _ _ D1) as TL. rewrite F, app_nil_r. split.
    + constructor; cbn [v_sp v_inst set_free set_syms]; auto. exists T', strs', ks. cbn [v_syms v_tmp v_free set_free set_syms].
      split; [rewrite (nth_set_same _ _ _ TL); reflexivity|].
      do 2 (split; [assumption|]). split; [reflexivity|]. split; [unfold T'; cbn; lia|]. split; [rewrite LS; cbn [In] in *; lia|]. split.
      * rewrite LS. replace (3 * n) with (n + 2 * n) by lia. rewrite upto_app. apply Permutation_app; [exact D7|].
        unfold nw. symmetry. replace (3 * n - n) with (2 * n) by lia.
        eapply Permutation_trans; [|apply Permutation_rev]. unfold upto. rewrite map_map. reflexivity.
      * apply (stored_same s _ strs strs'); auto. intros k K. pose proof (stored_small _ _ _ _ D8 k K). unfold strs'. apply nth_N_app_l. fold n. assumption.
    + cbn [v_free set_free]. unfold nw. intros E. apply (f_equal (@length N)) in E. rewrite rev_length, map_length, seq_length in E. cbn in E. lia.
Qed.
Lemma get_free_room s : get_free_string s = (room ;! (let! s := vget in match v_free s with i :: r => vmod (set_free r) ;! vret i | [] => vundef ValueUB end)) s.
Proof.
  unfold get_free_string. rewrite vbind_get.
  destruct (v_free s) as [|k fr] eqn:E.
  - unfold vbind at 1. symmetry. unfold vbind at 1. unfold room. rewrite E. reflexivity.
  - unfold vbind at 1. symmetry. unfold vbind at 1. unfold room. rewrite E. reflexivity.
Qed.

Lemma put_string s l b : Holds s l -> len l < stack_size -> strings l < 243 -> exists s', push_string b s = VRet tt s' /\ Holds s' (IStr b :: l).
Proof.
  intros H0 L SL. destruct (room_ok s l H0 SL) as (s1 & R & H & NE). clear H0.
  destruct (v_free s1) as [|k fr] eqn:F; [congruence|]. clear NE.
  assert (GF : get_free_string s = VRet k (set_free fr s1)).
  { rewrite get_free_room. unfold vbind at 1. rewrite R, vbind_get, F. reflexivity. }
  unfold push_string. unfold vbind at 1. rewrite GF. clear GF R s. rename s1 into s.
  destruct H as [H1 H2 HC (T & strs & ks & D1 & D2 & D3 & D4 & D5 & D6 & D7 & D8)]. rewrite F in D7.
  assert (KL : k < len strs).
  { assert (I : In k (upto (len strs))) by (eapply Permutation_in; [exact D7|]; apply in_or_app; right; left; reflexivity).
    apply in_upto in I. exact I. }
  assert (K : k < 256) by (cbn [In] in D6; lia).
  set (T' := with_val T (SStrs (set_N strs k b))).
  assert (W : wr_string (v_tmp s) b (u16 k) None (set_free fr s) = VRet tt (set_syms (set_N (v_syms s) (v_tmp s) T') (set_free fr s))).
  { unfold wr_string, wr_sym, vbind, the_sym. cbn [v_syms set_free]. rewrite D1. unfold the_ctx, vlift, sym_set_string.
    rewrite D2, D3, D5, D4, u16_small by lia. cbn [N.eqb Pos.eqb T_STRING negb].
    replace (len strs <=? k) with false by (symmetry; apply N.leb_gt; exact KL). unfold upd_cell.
    replace (k <? len strs) with true by (symmetry; apply N.ltb_lt; exact KL). reflexivity. }
  rewrite vbind_get. cbn [v_tmp set_free]. unfold vbind at 1. rewrite W.
  unfold push_reference. rewrite vbind_get. unfold push_frame. cbn [v_sp v_inst v_slots set_syms set_free].
  replace (v_sp s =? stack_size) with false by (symmetry; apply N.eqb_neq; lia).
  replace (stack_size <=? v_sp s) with false by (symmetry; apply N.leb_gt; lia). eexists. split; [reflexivity|].
  pose proof (nth_N_lt _ _ _ D1) as TL. rewrite u8_small by exact K.
  assert (NI : ~ In k ks).
  { intros I. assert (ND : NoDup (ks ++ k :: fr)) by (eapply Permutation_NoDup; [symmetry; exact D7|apply NoDup_upto]).
    apply NoDup_remove in ND. destruct ND as [_ ND]. apply ND, in_or_app. left. exact I. }
  unfold stack_size in *. constructor.
  - cbn. rewrite u16_small by lia. rewrite len_cons. lia.
  - rewrite len_cons. unfold stack_size. lia.
  - exact HC.
  - exists T', (set_N strs k b), (k :: ks). cbn [v_syms v_tmp v_free set_stack set_syms set_free]. rewrite !set_N_len.
    split; [rewrite (nth_set_same _ _ _ TL); reflexivity|].
    do 2 (split; [assumption|]). split; [reflexivity|]. do 2 (split; [assumption|]). split.
    + eapply Permutation_trans; [|exact D7]. cbn [app]. apply Permutation_middle.
    + cbn [in_slots]. exists k, ks, (v_inst s). cbn [v_slots v_tmp set_stack set_syms set_free]. split; [reflexivity|]. split.
      * unfold upd. rewrite H1, N.eqb_refl. reflexivity.
      * split; [exact HC|]. split; [rewrite (nth_set_same _ _ _ KL); reflexivity|].
        apply (stored_same s _ strs (set_N strs k b)); auto.
        -- intros i I. cbn. unfold upd. replace (i =? v_sp s) with false by (symmetry; apply N.eqb_neq; lia). reflexivity.
        -- intros j J. rewrite nth_set_N. destruct (N.eqb_spec j k) as [->|]; [contradiction|reflexivity].
Qed.

Lemma operate_ok s l o l' r : Holds s l -> ideal stack_size 243 o l = Some (l', r) -> exists s', operate o s = VRet r s' /\ Holds s' l'.
Proof.
  intros H E. destruct o as [v| | | |]; cbn [ideal] in E.
  - destruct (len (v :: l) <=? stack_size) eqn:E1; [|discriminate]. destruct (strings (v :: l) <=? 243) eqn:E2; [|discriminate].
    cbn [andb] in E. injection E as <- <-. apply N.leb_le in E1, E2. rewrite len_cons in E1. assert (LL : len l < stack_size) by lia.
    destruct v; cbn [operate]; unfold vbind at 1.
    + destruct (put_plain s l (mkFrame None false (FInt z) 0) (IInt z) H LL eq_refl) as (s' & P & Q). exists s'. unfold push_int. rewrite P. auto.
    + destruct (put_plain s l (mkFrame None false (FFloat b) 0) (IFloat b) H LL eq_refl) as (s' & P & Q). exists s'. unfold push_float. rewrite P. auto.
    + assert (SL : strings l < 243) by (unfold strings in E2; cbn [filter] in E2; rewrite len_cons in E2; unfold strings; lia).
      destruct (put_string s l s0 H LL SL) as (s' & P & Q). exists s'. rewrite P. auto.
    + destruct (put_plain s l (mkFrame None false (FInst i) 0) (IInst i) H LL eq_refl) as (s' & P & Q). exists s'. unfold push_instance. rewrite P. auto.
  - destruct l as [|[z|b|b|i] l]; try discriminate. injection E as <- <-. exists (popped s). split; [|apply (take_plain s (IInt z)); auto; exact I].
    destruct (ho_data _ _ H) as (T & strs & ks & _ & _ & _ & _ & _ & _ & _ & D). cbn [in_slots] in D. destruct D as [D _].
    pose proof (take_slot s _ l _ H D) as FT. cbn [operate]. unfold vbind. unfold pop_int. unfold vbind, is_empty. rewrite (not_empty _ _ _ FT), (pop_frame_at _ _ FT). reflexivity.
  - destruct l as [|[z|b|b|i] l]; try discriminate. injection E as <- <-. exists (popped s). split; [|apply (take_plain s (IFloat b)); auto; exact I].
    destruct (ho_data _ _ H) as (T & strs & ks & _ & _ & _ & _ & _ & _ & _ & D). cbn [in_slots] in D. destruct D as [D _].
    pose proof (take_slot s _ l _ H D) as FT. cbn [operate]. unfold vbind. unfold pop_float. unfold vbind, is_empty. rewrite (not_empty _ _ _ FT), (pop_frame_at _ _ FT). reflexivity.
  - destruct l as [|[z|b|b|i] l]; try discriminate. injection E as <- <-. destruct (take_string s b l H) as (s' & P & Q).
    exists s'. cbn [operate]. unfold vbind. rewrite P. auto.
  - destruct l as [|[z|b|b|i] l]; try discriminate. injection E as <- <-. exists (popped s). split; [|apply (take_plain s (IInst i)); auto; exact I].
    destruct (ho_data _ _ H) as (T & strs & ks & _ & _ & _ & _ & _ & _ & _ & D). cbn [in_slots] in D. destruct D as [D _].
    pose proof (take_slot s _ l _ H D) as FT. cbn [operate]. unfold vbind. unfold pop_instance. unfold vbind, is_empty. rewrite (not_empty _ _ _ FT), (pop_frame_at _ _ FT). reflexivity.
Qed.
Theorem stack_history os : forall s l l' rs, Holds s l -> ideal_run stack_size 243 os l = Some (l', rs) ->
  exists s', operate_all os s = VRet rs s' /\ Holds s' l'.
Proof.
  induction os as [|o os IH]; intros s l l' rs H E; cbn [ideal_run] in E.
  - injection E as <- <-. exists s. split; [reflexivity|exact H].
  - destruct (ideal stack_size 243 o l) as [[l1 r]|] eqn:E1; [|discriminate].
    destruct (ideal_run stack_size 243 os l1) as [[l2 rs']|] eqn:E2; [|discriminate]. injection E as <- <-.
    destruct (operate_ok s l o l1 r H E1) as (s1 & P & H1). destruct (IH s1 l1 l2 rs' H1 E2) as (s2 & P2 & H2).
    exists s2. split; [|exact H2]. cbn [operate_all]. unfold vbind at 1. rewrite P. unfold vbind. rewrite P2. reflexivity.
Qed.
Lemma boot_holds sc flags : Holds (boot sc flags) [].
Proof.
  constructor; cbn [v_sp boot v_inst there]; auto; [apply N.le_0_l|]. exists temp_symbol, [[]], []. cbn [v_syms v_tmp v_free boot].
  split.
  { rewrite nth_N_app_r by lia. rewrite N.sub_diag. reflexivity. }
  do 4 (split; [reflexivity|]). split; [left; reflexivity|]. split; [reflexivity|]. reflexivity.
Qed.
