(** Lemmas: what the loaded triggers, way nets and cutscene libraries are like. *)

From Coq Require Import String Lia.
From Verif Require Import MBase MStream LBase LStream MText MClasses MArchive SArchive LDaedalus MVob MVobs MCutscene MWorld SVob MLib SLoaded LVobF LLoaded.
Local Open Scope N_scope.

Lemma can_bind {R A B} Q (p : prog R A) (k : A -> prog R B) b :
  can_return Q (pbind p k) b -> exists a, can_return Q p a /\ can_return Q (k a) b.
Proof.
  induction p as [x|e| | |kd c IH|c IH|c IH|c IH|s p IH]; cbn [pbind can_return]; try contradiction.
  - eauto.
  - intros [v H]. destruct (IH v H) as [a [H1 H2]]. eauto.
  - intros [v [Hq H]]. destruct (IH v H) as [a [H1 H2]]. eauto.
  - intros [v H]. destruct (IH v H) as [a [H1 H2]]. eauto.
  - intros [v H]. destruct (IH v H) as [a [H1 H2]]. eauto.
  - exact IH.
Qed.
Lemma can_map {A B} Q (g : A -> B) (p : prog oid A) b : can_return Q (p_map g p) b -> exists a, can_return Q p a /\ b = g a.
Proof. intro H. apply can_bind in H. destruct H as [a [H E]]. cbn in E. eauto. Qed.
Lemma can_rep {R A} Q (I : A -> Prop) (p : prog R A) : (forall a, can_return Q p a -> I a) ->
  forall n l, can_return Q (p_rep n p) l -> Forall I l.
Proof.
  intros Hp n. induction n as [|n IH]; intros l H; cbn [p_rep] in H; [cbn in H; subst; constructor|].
  apply can_bind in H. destruct H as [a [Ha H]]. apply can_bind in H. destruct H as [l' [Hl H]]. cbn in H. subst l.
  constructor; auto.
Qed.
Lemma can_lift {R A} Q (o : outcome A) (a : A) : can_return (R:=R) Q (p_lift o) a -> o = Ret a.
Proof. destruct o; cbn; [intros ->; reflexivity | contradiction..]. Qed.
Ltac can H :=
  lazymatch type of H with
  | can_return _ (pbind _ _) _ => let a := fresh "v" in let H1 := fresh "C" in apply can_bind in H; destruct H as [a [H1 H]]; can H
  | _ => idtac
  end.

(** The type of a loaded object is the one it was loaded for. *)
Lemma loaded_type c Q t p x : object_load c t = Some p -> can_return Q p x -> object_type x = t.
Proof.
  destruct t; cbn [object_load]; intros E H; try discriminate E; injection E as <-;
    try (cbn in H; subst x; reflexivity);
    apply can_map in H; destruct H as [a [_ ->]]; reflexivity.
Qed.

Lemma ubyte_bound d n s' : read_ubyte (mkR d 0) = Ret (n, s') -> n < 256.
Proof.
  intro E. unfold read_ubyte in E. apply bind_inv in E. destruct E as [b [s1 [E1 E2]]]. injection E2 as <- <-.
  apply bind_inv in E1. destruct E1 as [a [s2 [E3 E4]]]. injection E4 as <- <-.
  assert (len a <= 1).
  { unfold rd_read in E3. cbn [rdata rpos] in E3. change (u64 (0 + 1)) with 1 in E3.
    destruct (N.ltb_spec (len d) 1) as [L|L].
    - replace (len d) with 0 in E3 by lia. change (u64 (2 ^ 64 + 0 - 0)) with 0 in E3. change (0 <? 0 + 0) with false in E3.
      cbv iota in E3. assert (a = take 0 (drop 0 d)) as -> by congruence. rewrite len_take. lia.
    - destruct (len d <? 0 + 1); [discriminate|]. assert (a = take 1 (drop 0 d)) as -> by congruence. rewrite len_take. lia. }
  eapply N.lt_le_trans; [apply le_dec_bound|]. unfold pad_to. rewrite len_app, len_zeros.
  replace (len a + (1 - len a)) with 1 by lia. vm_compute. discriminate.
Qed.
Lemma can_flag Q n : can_return Q p_flag n -> n < 256.
Proof.
  intro H. unfold p_flag, p_raw in H. apply can_bind in H. destruct H as [b [_ H]]. apply can_lift in H.
  unfold from_raw in H. destruct (read_ubyte _) as [[v s]| | |] eqn:E; [|discriminate..]. injection H as <-.
  exact (ubyte_bound _ _ _ E).
Qed.

(** ** Triggers *)
Lemma can_trigger c Q x : can_return Q (load_trigger c) x -> flags_agree x.
Proof.
  intro H. unfold load_trigger in H. can H. destruct v8 as [[[a b] k] d]. cbn [can_return] in H. subst x.
  apply can_flag in C1, C2. unfold flags_agree. cbn. repeat (split; [first [assumption | reflexivity]|]). reflexivity.
Qed.
Ltac base H := match type of H with can_return _ ?p _ => let h := eval cbv delta [load_mover load_tlist load_tscript load_tlevel] in p in
  change p with h in H end; cbv beta in H; can H.
Lemma loaded_triggers c Q t p o x : object_load c t = Some p -> can_return Q p o -> trigger_of o = Some x -> flags_agree x.
Proof.
  intros L H T. pose proof (loaded_type c Q t p o L H) as Ht.
  destruct o; try discriminate T; cbn [trigger_of] in T; injection T as <-; cbn [object_type] in Ht; subst t; cbn [object_load] in L.
  - rename t0 into t. destruct t; try discriminate L; injection L as <-; try (cbn in H; discriminate H);
      apply can_map in H; destruct H as [a [H E]]; try discriminate E;
      injection E as ->; exact (can_trigger _ _ _ H).
  - injection L as <-. apply can_map in H. destruct H as [a [H E]]. injection E as ->.
    unfold load_mover in H. apply can_bind in H. destruct H as [b [B H]]. can H.
    all: repeat match goal with v : (_ * _)%type |- _ => destruct v end; can H; cbn [can_return] in H; subst; exact (can_trigger _ _ _ B).
  - injection L as <-. apply can_map in H. destruct H as [a [H E]]. injection E as ->.
    unfold load_tlist in H. apply can_bind in H. destruct H as [b [B H]]. can H.
    all: repeat match goal with v : (_ * _)%type |- _ => destruct v end; can H; cbn [can_return] in H; subst; exact (can_trigger _ _ _ B).
  - injection L as <-. apply can_map in H. destruct H as [a [H E]]. injection E as ->.
    unfold load_tscript in H. apply can_bind in H. destruct H as [b [B H]]. can H. cbn [can_return] in H. subst. exact (can_trigger _ _ _ B).
  - injection L as <-. apply can_map in H. destruct H as [a [H E]]. injection E as ->.
    unfold load_tlevel in H. apply can_bind in H. destruct H as [b [B H]]. can H. cbn [can_return] in H. subst. exact (can_trigger _ _ _ B).
Qed.
Lemma triggers_loaded : forall c fuel b head root h r e o x,
  load_archive (c_load (library c)) (c_flags (library c)) fuel b = Ret (head, root, h) ->
  nth_N h r = Some e -> ho_val e = Some o -> trigger_of o = Some x -> flags_agree x.
Proof.
  intros c fuel b head root h r e o x E N V T. apply loaded_made in E. destruct E as [E _].
  destruct (E r e N) as [o' [p [V' [L H]]]]. rewrite V in V'. injection V' as <-. exact (loaded_triggers c _ _ p o x L H T).
Qed.

(** ** Way nets *)
Lemma NoDup_app_snoc {A} (l : list A) x : NoDup l -> ~ In x l -> NoDup (l ++ [x]).
Proof. intros H N. apply NoDup_rev in H. rewrite <- (rev_involutive (l ++ [x])), rev_app_distr. apply NoDup_rev. cbn. constructor; [rewrite <- in_rev; exact N | exact H]. Qed.
Lemma somes_app a b : somes (a ++ b) = somes a ++ somes b.
Proof. unfold somes. apply flat_map_app. Qed.
Lemma listed_app a b : listed (a ++ b) = listed a ++ listed b.
Proof. unfold listed. rewrite map_app. apply somes_app. Qed.
Lemma in_listed r l : In r (listed l) <-> exists b, In (Some r, b) l.
Proof.
  unfold listed, somes. rewrite in_flat_map. split.
  - intros [[x|] [H I]]; [|contradiction]. destruct I as [->|[]]. apply in_map_iff in H. destruct H as [[y b] [E H]]. cbn in E. subst y. eauto.
  - intros [b H]. exists (Some r). split; [|left; reflexivity]. apply in_map_iff. exists (Some r, b). auto.
Qed.
Definition ends (es : list (option oid * option oid)) (r : oid) : Prop := exists e, In e es /\ (fst e = Some r \/ snd e = Some r).
Lemma opt_eqb_some r o : opt_eqb (Some r) o = true <-> o = Some r.
Proof. destruct o as [x|]; cbn; [rewrite N.eqb_eq; split; [intros ->; reflexivity | intro E; injection E as ->; reflexivity] | split; discriminate]. Qed.
Lemma held_spec r pts es : held (Some r) pts es = true <-> In r (listed pts) \/ ends es r.
Proof.
  unfold held. rewrite Bool.orb_true_iff, !existsb_exists. split.
  - intros [[[x b] [H E]] | [e [H E]]].
    + left. apply in_listed. apply opt_eqb_some in E. cbn in E. subst x. eauto.
    + right. exists e. split; [exact H|]. apply Bool.orb_true_iff in E. rewrite !opt_eqb_some in E. exact E.
  - intros [H | [e [H E]]].
    + apply in_listed in H. destruct H as [b H]. left. exists (Some r, b). split; [exact H|]. apply opt_eqb_some. reflexivity.
    + right. exists e. split; [exact H|]. apply Bool.orb_true_iff. rewrite !opt_eqb_some. exact E.
Qed.
Definition fine (free : list oid) (pts : list (option oid * bool)) (es : list (option oid * option oid)) : Prop :=
  (forall r, ends es r -> In r (listed pts)) /\ (NoDup free -> NoDup (listed pts)) /\ listed (filter snd pts) = free.
Lemma add_one free pts es p other : fine free pts es -> (forall r, p = Some r -> other <> Some r) ->
  let pts1 := if few_users p other pts es then pts ++ [(p, false)] else pts in
  fine free pts1 es /\ (forall r, p = Some r -> In r (listed pts1)).
Proof.
  intros [A [B F]] O. cbv zeta. destruct p as [r|].
  2:{ cbn [few_users]. split; [|discriminate]. split; [|split].
      - intros r H. rewrite listed_app. apply in_or_app. left. exact (A r H).
      - rewrite listed_app. cbn. rewrite app_nil_r. exact B.
      - rewrite filter_app, listed_app. cbn. rewrite app_nil_r. exact F. }
  cbn [few_users].
  replace (opt_eqb (Some r) other) with false by (symmetry; destruct (opt_eqb (Some r) other) eqn:E; [|reflexivity]; apply opt_eqb_some in E; destruct (O r eq_refl E)).
  destruct (held (Some r) pts es) eqn:E; cbn [negb andb].
  - split; [split; [|split]; assumption|]. intros q Eq. injection Eq as <-. apply held_spec in E. destruct E; auto.
  - assert (~ In r (listed pts)) as NI by (intro I; assert (held (Some r) pts es = true) by (apply held_spec; auto); congruence).
    split; [split; [|split]|].
    + intros q H. rewrite listed_app. apply in_or_app. left. exact (A q H).
    + intro N. rewrite listed_app. cbn. apply NoDup_app_snoc; auto.
    + rewrite filter_app, listed_app. cbn. rewrite app_nil_r. exact F.
    + intros q Eq. injection Eq as <-. rewrite listed_app. apply in_or_app. right. left. reflexivity.
Qed.
Lemma add_edges_fine free l : Forall (fun e : option oid * option oid => fst e = snd e -> fst e = None) l ->
  forall pts es, fine free pts es -> fine free (fst (fold_left add_edge l (pts, es))) (snd (fold_left add_edge l (pts, es))) /\
    snd (fold_left add_edge l (pts, es)) = es ++ l.
Proof.
  intro Hl. induction Hl as [|[a b] l He Hl IH]; intros pts es F; [cbn; rewrite app_nil_r; auto|].
  cbn [fold_left]. cbn [add_edge]. cbn [fst snd] in He.
  assert (forall r, a = Some r -> b <> Some r) as O by (intros r -> ->; specialize (He eq_refl); discriminate).
  assert (forall r, b = Some r -> a <> Some r) as O' by (intros r -> ->; specialize (He eq_refl); discriminate).
  destruct (add_one free pts es a b F O) as [F1 I1]. set (p1 := if few_users a b pts es then pts ++ [(a, false)] else pts) in *.
  destruct (add_one free p1 es b a F1 O') as [F2 I2]. set (p2 := if few_users b a p1 es then p1 ++ [(b, false)] else p1) in *.
  assert (forall r, In r (listed p1) -> In r (listed p2)) as M.
  { intros r I. unfold p2. destruct (few_users b a p1 es); [|exact I]. rewrite listed_app. apply in_or_app. auto. }
  destruct (IH p2 (es ++ [(a, b)])) as [X Y].
  - destruct F2 as [A [B C]]. split; [|split; assumption]. intros r [e [I E]]. apply in_app_or in I. destruct I as [I|[<-|[]]].
    + apply A. exists e. auto.
    + cbn in E. destruct E; [apply M; apply I1 | apply I2]; assumption.
  - split; [exact X|]. rewrite Y, <- app_assoc. reflexivity.
Qed.
Lemma can_waynet c Q w : can_return Q (load_waynet c) w -> Forall (fun e => fst e = snd e -> fst e = None) (waynet_edges w) ->
  fine (listed (filter snd (waynet_points w))) (waynet_points w) (waynet_edges w).
Proof.
  intros H S. unfold load_waynet in H. can H.
  destruct (fold_left add_edge v3 (v1, [])) as [pts es] eqn:E. cbn [can_return] in H. subst w. cbn [waynet_points waynet_edges] in *.
  assert (es = v3).
  { assert (forall l p q, snd (fold_left add_edge l (p, q)) = q ++ l) as K.
    { induction l as [|[a b] l IH]; intros p q; [cbn; rewrite app_nil_r; reflexivity|]. cbn [fold_left add_edge]. rewrite IH, <- app_assoc. reflexivity. }
    specialize (K v3 v1 []). rewrite E in K. exact K. }
  subst es. destruct (add_edges_fine (listed v1) v3 S v1 []) as [F _].
  { split; [|split; [auto|]].
    - intros r [e [[] _]].
    - f_equal. assert (Forall (fun q : option oid * bool => snd q = true) v1) as T.
      { apply (can_rep Q _ p_point) with (n := v0); [|exact C1]. intros q Hq. unfold p_point in Hq. can Hq. destruct v4; cbn in Hq; [subst; reflexivity | contradiction]. }
      clear -T. induction T as [|q l Hq T IH]; [reflexivity|]. cbn. rewrite Hq, IH. reflexivity. }
  rewrite E in F. cbn [fst snd] in F. destruct F as [F1 [F2 F3]]. split; [exact F1|]. split; [|reflexivity]. rewrite F3. exact F2.
Qed.
Lemma way_nets_loaded : forall c fuel b head root h r e w,
  load_archive (c_load (library c)) (c_flags (library c)) fuel b = Ret (head, root, h) ->
  nth_N h r = Some e -> ho_val e = Some (Owaynet w) ->
  (forall x, In x (waynet_edges w) -> fst x = snd x -> fst x = None) ->
  (forall x p, In x (waynet_edges w) -> fst x = Some p \/ snd x = Some p -> In p (listed (waynet_points w))) /\
  (NoDup (listed (filter snd (waynet_points w))) -> NoDup (listed (waynet_points w))).
Proof.
  intros c fuel b head root h r e w E N V S. apply loaded_made in E. destruct E as [E _].
  destruct (E r e N) as [o' [p [V' [L H]]]]. rewrite V in V'. injection V' as <-.
  pose proof (loaded_type c _ _ p _ L H) as Ht. cbn [object_type] in Ht. cbn [library c_load] in L. rewrite <- Ht in L. cbn [object_load] in L. injection L as <-.
  apply can_map in H. destruct H as [w' [H Eq]]. injection Eq as ->.
  destruct (can_waynet c _ w' H) as [A [B _]]; [apply Forall_forall; exact S|].
  split; [|exact B]. intros x q I F. apply A. exists x. auto.
Qed.

(** ** Cutscene libraries *)
Lemma bytes_le_antisym a : forall b, bytes_ltb a b = false -> bytes_ltb b a = false -> a = b.
Proof.
  induction a as [|x a IH]; intros [|y b] H K; cbn [bytes_ltb] in *; try discriminate; [reflexivity|].
  apply Bool.orb_false_iff in H. destruct H as [H1 H2]. apply Bool.orb_false_iff in K. destruct K as [K1 K2].
  apply N.ltb_ge in H1, K1. assert (E : b2n x = b2n y) by lia. rewrite E, N.eqb_refl in H2, K2. cbn [andb] in *.
  rewrite (IH b H2 K2). f_equal. apply b2n_inj. exact E.
Qed.
Lemma in_order_nth l : in_order l -> forall i j a b, (i <= j)%nat -> nth_error l i = Some a -> nth_error l j = Some b -> bytes_ltb b a = false.
Proof.
  induction l as [|c l IH]; intros O i j a b L A B; [destruct i; discriminate|].
  destruct i as [|i]; cbn in A.
  - injection A as <-. destruct j as [|j]; cbn in B.
    + injection B as <-. clear. induction c as [|x c IH]; [reflexivity|]. cbn. rewrite N.ltb_irrefl, IH, Bool.andb_false_r. reflexivity.
    + pose proof (in_order_all l c O) as F. rewrite Forall_forall in F. apply F. exact (nth_error_In _ _ B).
  - destruct j as [|j]; [lia|]. cbn in B. exact (IH (in_order_tail _ _ O) i j a b ltac:(lia) A B).
Qed.
Section Search.
  Context {A : Type} (l : list (bytes * A)) (name : bytes).
  Hypothesis Od : in_order (map fst l).
  Notation less p := (bytes_ltb (fst p) name).
  Lemma less_before i j x y : (i <= j)%nat -> nth_error l i = Some x -> nth_error l j = Some y -> less y = true -> less x = true.
  Proof.
    intros L X Y H. destruct (less x) eqn:E; [reflexivity|].
    assert (bytes_ltb (fst y) (fst x) = false) as K.
    { apply (in_order_nth (map fst l) Od i j); [exact L | rewrite nth_error_map, X; reflexivity | rewrite nth_error_map, Y; reflexivity]. }
    rewrite (bytes_ltb_trans name (fst x) (fst y) E K) in H. discriminate.
  Qed.
  Lemma lower_bound_spec fuel : forall i n, (n <= fuel)%nat -> (i + n <= length l)%nat ->
    (forall j x, (j < i)%nat -> nth_error l j = Some x -> less x = true) ->
    (forall j x, (i + n <= j)%nat -> nth_error l j = Some x -> less x = false) ->
    let k := lower_bound fuel l name i n in
    (forall j x, (j < k)%nat -> nth_error l j = Some x -> less x = true) /\
    (forall j x, (k <= j)%nat -> nth_error l j = Some x -> less x = false).
  Proof.
    induction fuel as [|fuel IH]; intros i n F L B C; cbn [lower_bound].
    - replace n with O in C by lia. rewrite Nat.add_0_r in C. auto.
    - destruct n as [|n]; [rewrite Nat.add_0_r in C; auto|]. cbv zeta.
      set (h := Nat.div2 (S n)). assert (h < S n)%nat as Hh by (apply Nat.lt_div2; lia).
      destruct (nth_error l (i + h)) as [x|] eqn:E.
      2:{ apply nth_error_None in E. lia. }
      destruct (less x) eqn:X.
      + apply IH; [lia | lia | |].
        * intros j y J Y. apply (less_before j (i + h) y x); [lia | exact Y | exact E | exact X].
        * intros j y J Y. apply (C j y); [lia | exact Y].
      + apply IH; [lia | lia | exact B|]. intros j y J Y. destruct (less y) eqn:Z; [|reflexivity].
        rewrite (less_before (i + h) j x y ltac:(lia) E Y Z) in X. discriminate.
  Qed.
  Lemma first_not k : (forall j x, (j < k)%nat -> nth_error l j = Some x -> less x = true) ->
    (forall j x, (k <= j)%nat -> nth_error l j = Some x -> less x = false) ->
    nth_error l k = find (fun p => negb (less p)) l.
  Proof.
    clear Od. revert k. induction l as [|x m IH]; intros k B C; [destruct k; reflexivity|].
    cbn [find]. destruct k as [|k].
    - rewrite (C O x) by (auto; lia). reflexivity.
    - rewrite (B O x) by (auto; lia). cbn [negb nth_error]. apply IH.
      + intros j y J Y. apply (B (S j) y); [lia | exact Y].
      + intros j y J Y. apply (C (S j) y); [lia | exact Y].
  Qed.
  Lemma search_exact : block_by_name l name = option_map snd (find (fun p => negb (less p)) l).
  Proof.
    unfold block_by_name. f_equal. apply first_not; apply (lower_bound_spec (length l) O (length l)); try lia.
    - intros j x J X. assert (nth_error l j <> None) as Y by congruence. apply nth_error_Some in Y. lia.
    - intros j x J X. assert (nth_error l j <> None) as Y by congruence. apply nth_error_Some in Y. lia.
  Qed.
  Lemma search_finds : In name (map fst l) -> exists a, block_by_name l name = Some a /\ In (name, a) l.
  Proof.
    intro I. rewrite search_exact. apply in_map_iff in I. destruct I as [[n a] [E I]]. cbn in E. subst n.
    destruct (find (fun p => negb (less p)) l) as [[n b]|] eqn:F.
    2:{ pose proof (find_none _ _ F _ I) as X. cbn [fst] in X.
        assert (forall c, bytes_ltb c c = false) as R.
        { clear. induction c as [|x c IH]; [reflexivity|]. cbn. rewrite N.ltb_irrefl, IH, Bool.andb_false_r. reflexivity. }
        rewrite R in X. discriminate. }
    exists b. split; [reflexivity|].
    assert (n = name); [|subst n; exact (proj1 (find_some _ _ F))].
    destruct (find_some _ _ F) as [J Z]. cbn [fst] in Z. apply Bool.negb_true_iff in Z.
    apply bytes_le_antisym; [exact Z|].
    (* the one found is the first *)
    apply In_nth_error in I. destruct I as [i I].
    assert (K : exists j, (j <= i)%nat /\ nth_error l j = Some (n, b)).
    { clear -I F. revert i I F. induction l as [|y m IH]; intros i I F; [discriminate|]. cbn [find] in F.
      destruct (negb (less y)) eqn:Y; [injection F as ->; exists O; split; [lia | reflexivity]|].
      destruct i as [|i].
      - cbn in I. injection I as ->. cbn [fst] in Y.
        assert (forall c, bytes_ltb c c = false) as R.
        { clear. induction c as [|x c IH]; [reflexivity|]. cbn. rewrite N.ltb_irrefl, IH, Bool.andb_false_r. reflexivity. }
        rewrite R in Y. discriminate.
      - destruct (IH i I F) as [j [L J]]. exists (S j). split; [lia | exact J]. }
    destruct K as [j [L J']]. apply (in_order_nth (map fst l) Od j i n name L); rewrite nth_error_map; [rewrite J' | rewrite I]; reflexivity.
  Qed.
End Search.

Lemma insert_order {A} (x : bytes * A) l : in_order (map fst l) -> in_order (map fst (insert_block x l)).
Proof.
  induction l as [|y l IH]; intro O; [exact I|]. cbn [insert_block].
  destruct (bytes_ltb (fst x) (fst y)) eqn:E.
  - cbn [map in_order]. split; [|exact O]. clear -E. 
    revert E. generalize (fst x) (fst y). intro a. induction a as [|c a IH]; intros [|d b]; cbn; try discriminate; [reflexivity|].
    intro H. apply Bool.orb_true_iff in H. apply Bool.orb_false_iff. destruct H as [H|H].
    + apply N.ltb_lt in H. split; [apply N.ltb_ge; lia|]. replace (b2n d =? b2n c) with false by (symmetry; apply N.eqb_neq; lia). reflexivity.
    + apply Bool.andb_true_iff in H. destruct H as [H K]. apply N.eqb_eq in H. rewrite H. split; [apply N.ltb_irrefl|]. rewrite N.eqb_refl. exact (IH b K).
  - cbn [map]. specialize (IH (in_order_tail _ _ O)). destruct l as [|z l].
    + cbn. split; [exact E | exact I].
    + cbn [insert_block] in *. destruct (bytes_ltb (fst x) (fst z)).
      * cbn [map in_order] in *. split; [exact E | exact IH].
      * cbn [map in_order] in *. split; [exact (proj1 O) | exact IH].
Qed.
Lemma sort_order {A} (l : list (bytes * A)) : in_order (map fst (sort_blocks l)).
Proof.
  unfold sort_blocks. assert (forall m, in_order (map fst m) -> in_order (map fst (fold_left (fun l x => insert_block x l) l m))) as K.
  { induction l as [|x l IH]; intros m O; [exact O|]. cbn [fold_left]. apply IH. apply insert_order. exact O. }
  apply K. exact I.
Qed.
Lemma insert_in {A} (x : bytes * A) l y : In y (insert_block x l) -> y = x \/ In y l.
Proof.
  induction l as [|z l IH]; cbn [insert_block]; [intros [<-|[]]; auto|].
  destruct (bytes_ltb (fst x) (fst z)); intros [<-|H]; auto; [|].
  - right. left. reflexivity.
  - destruct (IH H); auto. right. right. assumption.
Qed.
Lemma sort_in {A} (l : list (bytes * A)) y : In y (sort_blocks l) -> In y l.
Proof.
  unfold sort_blocks. assert (forall m, In y (fold_left (fun l x => insert_block x l) l m) -> In y l \/ In y m) as K.
  { induction l as [|x l IH]; intros m H; [auto|]. cbn [fold_left] in H. destruct (IH _ H) as [J|J]; [left; right; exact J|].
    apply insert_in in J. destruct J as [->|J]; [left; left; reflexivity | auto]. }
  intro H. destruct (K [] H) as [J|[]]. exact J.
Qed.

Lemma libraries_loaded : forall c fuel b head h e w,
  load_archive (c_load (library c)) (c_flags (library c)) fuel b = Ret (head, Some 0, h) ->
  nth_N h 0 = Some e -> ho_val e = Some (Ocslib w) ->
  in_order (map fst (named_blocks h w)) /\
  forall name,
    block_by_name (named_blocks h w) name = option_map snd (find (fun p => negb (bytes_ltb (fst p) name)) (named_blocks h w)) /\
    (In name (map fst (named_blocks h w)) ->
     exists r, block_by_name (named_blocks h w) name = Some r /\ In (Some r) (cslib_blocks w) /\ block_name h r = name).
Proof.
  intros c fuel b head h e w E N V. apply loaded_made in E. destruct E as [E _].
  change (c_ob (library c)) with object in *.
  destruct (E 0 e N) as [o' [p [V' [L H]]]]. rewrite V in V'. injection V' as <-.
  pose proof (loaded_type c _ _ p _ L H) as Ht. cbn [object_type] in Ht. cbn [library c_load] in L. rewrite <- Ht in L. cbn [object_load] in L. injection L as <-.
  apply can_map in H. destruct H as [w' [H Eq]]. injection Eq as ->.
  assert (Or : in_order (map fst (named_blocks h w'))).
  { unfold load_cslib in H. can H. cbn [can_return] in H. subst w'. unfold named_blocks. cbn [cslib_blocks].
    apply can_bind in C. destruct C as [n [_ C]]. apply can_bind in C. destruct C as [l [C D]]. apply can_lift in D.
    assert (F : Forall (fun a => match a with None => True | Some (z, r) => uncode z = block_name h r end) l).
    { refine (can_rep _ _ _ _ n l C). intros a Ha. unfold p_blk in Ha. cbn [can_return] in Ha. destruct Ha as [o [Q Ha]].
      destruct o as [[[r t] z]|]; [|cbn in Ha; subst a; exact I].
      destruct (otype_eqb t zCCSBlock) eqn:Et; [|contradiction].
      assert (t = zCCSBlock) as -> by (destruct t; try discriminate Et; reflexivity). cbn in Ha. subst a.
      destruct Q as [Lr [Tr Fr]]. assert (r <> 0).
      { intros ->. unfold heap_type in Tr. rewrite N, <- Ht in Tr. discriminate. }
      rewrite (Fr ltac:(lia)). unfold heap_flags, block_name. unfold heap_type in Tr.
      destruct (nth_N_Some h r Lr) as [e1 N1]. rewrite N1 in *. destruct (E r e1 N1) as [o1 [p1 [V1 [L1 H1]]]]. rewrite V1.
      pose proof (loaded_type c _ _ p1 _ L1 H1) as T1. rewrite <- Tr in *. cbn [library c_load object_load] in L1. injection L1 as <-.
      apply can_map in H1. destruct H1 as [k [_ ->]]. cbn [library c_flags object_flags]. apply uncode_code. }
    unfold sorted_lib in D. destruct (named l) as [m|] eqn:M.
    - injection D as <-.
      assert (G : Forall (fun q => fst q = block_name h (snd q)) m).
      { clear -F M. revert m M. induction F as [|a l Ha F IH]; intros m M; cbn [named] in M; [injection M as <-; constructor|].
        destruct a as [[z r]|]; [|discriminate]. destruct (named l) as [m'|]; [|discriminate]. injection M as <-.
        constructor; [exact Ha | exact (IH m' eq_refl)]. }
      assert (map fst (map (fun r => (block_name h r, r)) (somes (map (fun q : bytes * oid => Some (snd q)) (sort_blocks m)))) = map fst (sort_blocks m)) as ->.
      { assert (G' : Forall (fun q => fst q = block_name h (snd q)) (sort_blocks m)).
        { apply Forall_forall. intros q Iq. apply sort_in in Iq. rewrite Forall_forall in G. exact (G q Iq). }
        clear -G'. induction G' as [|q k Hq G IH]; [reflexivity|].
        cbn [map somes flat_map app fst]. f_equal; [symmetry; exact Hq | exact IH]. }
      apply sort_order.
    - destruct l as [|[a|] [|]]; try discriminate D. injection D as <-. exact I. }
  split; [exact Or|]. intro name. split; [apply search_exact; exact Or|].
  intro In1. destruct (search_finds (named_blocks h w') name Or In1) as [r [B1 B2]]. exists r. split; [exact B1|].
  unfold named_blocks in B2. apply in_map_iff in B2. destruct B2 as [r' [Eq Ir]]. injection Eq as <- <-. split; [|reflexivity].
  unfold somes in Ir. apply in_flat_map in Ir. destruct Ir as [[q|] [I1 I2]]; [destruct I2 as [->|[]]; exact I1 | contradiction].
Qed.
