(** Lemmas: objects of unsupported classes are skipped with everything below them. *)

From Coq Require Import String Lia.
From Verif Require Import MBase MStream LBase MText MClasses MArchive SArchive LArchR MVob MVobs MNpc MCutscene MMaterial MWorld MLib SForeign LLoaded.
Local Open Scope N_scope.

(** Programs that only read entries and objects. *)
Fixpoint plain {R A} (p : prog R A) : Prop :=
  match p with
  | PRead k c => forall v, plain (c v)
  | PObj c => forall o, plain (c o)
  | PSkip cur p => cur = false /\ plain p
  | PBegin _ | PEnd _ => False
  | _ => True
  end.
Lemma plain_bind {R A B} (p : prog R A) (k : A -> prog R B) : plain p -> (forall a, plain (k a)) -> plain (pbind p k).
Proof.
  intros Hp Hk. induction p as [x|e| | |kd c IH|c IH|c IH|c IH|s p IH]; cbn [pbind plain] in *; try contradiction; auto.
  destruct Hp as [Hc Hp]. auto.
Qed.
Lemma plain_rep {R A} n (p : prog R A) : plain p -> plain (p_rep n p).
Proof.
  intro H. induction n as [|n IH]; cbn [p_rep]; [exact I|]. apply plain_bind; [exact H|]. intro a.
  apply plain_bind; [exact IH|]. intro l. exact I.
Qed.
Lemma plain_lift {R A} (o : outcome A) : plain (R:=R) (p_lift o).
Proof. destruct o; exact I. Qed.

Section Local.
  Variable f : fmt.
  Context {Ob : Type}.
  Variable load : otype -> option (prog oid Ob).
  Variable flags_of : Ob -> Z.
  Hypothesis loads_plain : forall t p, load t = Some p -> t <> oCWorld -> plain p.
  Notation rg := (@rg nstack Ob).
  Notation nw := (forallb (no_world f)).

  (* Exactly the first nodes are used. *)
  Definition uses {A} (m : M rg A) (nds : list node) (ca : list (N * oid)) (he : heap Ob) (a : A) (ca' : list (N * oid)) (he' : heap Ob) : Prop :=
    forall l st, m (mkRg ((nds ++ l) :: st) ca he) = Ret (a, mkRg (l :: st) ca' he').
  Definition local {A} (m : M rg A) (one : bool) : Prop :=
    forall cs st ca he a g', (if one then match cs with [] => True | n :: _ => no_world f n = true end else nw cs = true) ->
      m (mkRg (cs :: st) ca he) = Ret (a, g') ->
      exists nds l, cs = nds ++ l /\ (one = true -> length nds = 1%nat) /\ rg_s g' = l :: st /\ uses m nds ca he a (rg_cache g') (rg_heap g').

  Lemma run_local {A} rec (p : prog oid A) : local rec true -> plain p -> local (runp (nprims f) flags_of rec p) false.
  Proof.
    intro Hr. induction p as [x|e| | |kd c IH|c IH|c IH|c IH|s p IH]; intros Hp cs st ca he a g' W E; cbn [plain] in Hp; cbn [runp] in E; try contradiction.
    - injection E as <- <-. exists [], cs. repeat split; auto; discriminate.
    - discriminate E.
    - discriminate E.
    - discriminate E.
    - apply bind_inv in E. destruct E as [v [g1 [E1 E2]]]. unfold rgl in E1. cbn [rg_s nprims p_read] in E1.
      unfold n_read in E1. destruct cs as [|[nm k e|h k|b] cs]; try discriminate E1. destruct (kmatch kd e) as [w|] eqn:K; [|discriminate E1].
      injection E1 as <- <-. cbn [rg_cache rg_heap] in E2. cbn [forallb no_world andb] in W.
      destruct (IH w (Hp w) cs st ca he a g' W E2) as [nds [l [-> [_ [S U]]]]].
      exists (NEntry nm k e :: nds), l. split; [reflexivity|]. split; [discriminate|]. split; [exact S|].
      intros l2 st2. cbn [runp app]. unfold bind, rgl. cbn [rg_s nprims p_read]. unfold n_read. rewrite K. cbn [rg_cache rg_heap]. apply U.
    - apply bind_inv in E. destruct E as [o [[s1 ca1 he1] [E1 E2]]].
      destruct (Hr cs st ca he o _ ltac:(destruct cs; [exact I | cbn [forallb] in W; apply andb_prop in W; exact (proj1 W)]) E1) as [n1 [l1 [-> [_ [S1 U1]]]]]. cbn [rg_s rg_cache rg_heap] in *. subst s1.
      rewrite forallb_app in W. apply andb_prop in W. destruct W as [_ W].
      destruct (IH _ (Hp _) l1 st ca1 he1 a g' W E2) as [n2 [l2 [-> [_ [S2 U2]]]]].
      exists (n1 ++ n2), l2. split; [apply app_assoc|]. split; [discriminate|]. split; [exact S2|].
      intros l3 st3. cbn [runp]. unfold bind. rewrite <- app_assoc, (U1 (n2 ++ l3) st3). cbn [rg_heap]. apply U2.
    - destruct Hp as [-> Hp]. apply bind_inv in E. destruct E as [[] [g1 [E1 E2]]]. unfold rgl in E1. cbn [rg_s nprims p_skip] in E1.
      unfold n_skip in E1. destruct cs as [|[nm k e|h k|b] cs]; try discriminate E1. destruct (forallb (skip_ok f) k) eqn:K; [|discriminate E1].
      injection E1 as <-. cbn [rg_cache rg_heap] in E2. cbn [forallb] in W. apply andb_prop in W. destruct W as [_ W].
      destruct (IH Hp cs st ca he a g' W E2) as [nds [l [-> [_ [S U]]]]].
      exists (NObj h k :: nds), l. split; [reflexivity|]. split; [discriminate|]. split; [exact S|].
      intros l2 st2. cbn [runp app]. unfold bind, rgl. cbn [rg_s nprims p_skip]. unfold n_skip. rewrite K. cbn [rg_cache rg_heap]. apply U.
  Qed.

  Lemma end_ok (cs l : list node) (st : nstack) ca he (x : option oid) g' :
    bind (rgl (p_end (nprims f))) (fun e => bind (if e then ret tt else rgl (p_skip (nprims f) true)) (fun _ => ret x))
      (mkRg (cs :: l :: st) ca he) = Ret (x, g') -> g' = mkRg (l :: st) ca (he : heap Ob) /\ forallb (skip_ok f) cs = true.
  Proof.
    unfold bind, rgl. cbn [rg_s nprims p_end p_skip]. destruct cs as [|n cs]; cbn [n_end].
    - intro E. injection E as <-. auto.
    - cbn [rg_s]. unfold n_skip. destruct (forallb (skip_ok f) (n :: cs)) eqn:K; [|discriminate]. intro E. injection E as <-. auto.
  Qed.
  Lemma end_runs (cs l : list node) (st : nstack) ca he (x : option oid) : forallb (skip_ok f) cs = true ->
    bind (rgl (p_end (nprims f))) (fun e => bind (if e then ret tt else rgl (p_skip (nprims f) true)) (fun _ => ret x))
      (mkRg (cs :: l :: st) ca he) = Ret (x, mkRg (l :: st) ca (he : heap Ob)).
  Proof.
    intro K. unfold bind, rgl. cbn [rg_s nprims p_end p_skip]. destruct cs as [|n cs]; cbn [n_end]; [reflexivity|].
    cbn [rg_s]. unfold n_skip. rewrite K. reflexivity.
  Qed.

  Lemma otype_eqb_eq a b : otype_eqb a b = true -> a = b.
  Proof. intro H. destruct a, b; try reflexivity; vm_compute in H; discriminate H. Qed.
  Lemma read_local fuel : local (read_obj (nprims f) load flags_of fuel) true.
  Proof.
    induction fuel as [|n IH]; intros cs st ca he o g' W E; [discriminate E|]. cbn [read_obj] in E.
    apply bind_inv in E. destruct E as [h [g1 [E1 E]]]. unfold rgl in E1. cbn [rg_s nprims p_begin] in E1. unfold n_begin in E1.
    destruct cs as [|[nm k e|h0 ks|b] cs]; try discriminate E1. injection E1 as <- <-. cbn [rg_cache rg_heap oh_class oh_idx] in E.
    cbn [no_world] in W. apply andb_prop in W. destruct W as [Wt Wk].
    exists [NObj h0 ks], cs. split; [reflexivity|]. split; [reflexivity|].
    cut (rg_s g' = cs :: st /\ forall l2 st2,
       read_obj (nprims f) load flags_of (S n) (mkRg ((NObj h0 ks :: l2) :: st2) ca he) = Ret (o, mkRg (l2 :: st2) (rg_cache g') (rg_heap g'))); [intro X; exact X|].
    set (k := shown_class f (oh_class h0)) in *.
    assert (Hb : forall l2 st2, rgl (p_begin (nprims f)) (mkRg ((NObj h0 ks :: l2) :: st2) ca he) =
       Ret (Some (mkH (oh_name h0) k (oh_ver h0) (oh_idx h0)), mkRg (ks :: l2 :: st2) ca he)) by reflexivity.
    cbn [read_obj]. 
    destruct (bytes_eqb k [xa7]) eqn:K1.
    { apply bind_inv in E. destruct E as [e [g2 [E2 E]]]. apply bind_inv in E. destruct E as [[] [g3 [E3 E]]]. injection E as <- <-.
      assert (g3 = mkRg (cs :: st) ca he /\ forallb (skip_ok f) ks = true) as [-> Sk].
      { unfold rgl in E2. cbn [rg_s nprims p_end] in E2. destruct ks as [|q ks]; cbn [n_end rg_cache rg_heap] in E2; injection E2 as <- <-.
        - injection E3 as <-. auto.
        - unfold rgl in E3. cbn [rg_s nprims p_skip] in E3. unfold n_skip in E3. destruct (forallb (skip_ok f) (q :: ks)); [|discriminate E3]. injection E3 as <-. auto. }
      split; [reflexivity|]. intros l2 st2. unfold bind at 1. rewrite Hb. cbn [oh_class oh_idx]. rewrite K1.
      pose proof (end_runs ks l2 st2 ca he None Sk) as ER. unfold bind in ER |- *.
      destruct (rgl (p_end (nprims f)) (mkRg (ks :: l2 :: st2) ca he)) as [[e' g4]| | |]; try discriminate ER.
      destruct ((if e' then ret tt else rgl (p_skip (nprims f) true)) g4) as [[[] g5]| | |]; try discriminate ER. injection ER as ->. reflexivity. }
    destruct (bytes_eqb k (lit "%")) eqn:K2.
    { apply bind_inv in E. destruct E as [[] [g2 [E2 E]]]. injection E as <- <-. unfold rgl in E2. cbn [rg_s nprims p_skip] in E2. unfold n_skip in E2.
      destruct (forallb (skip_ok f) ks) eqn:Sk; [|discriminate E2]. injection E2 as <-. split; [reflexivity|].
      intros l2 st2. unfold bind at 1. rewrite Hb. cbn [oh_class]. rewrite K1, K2. unfold bind, rgl. cbn [rg_s nprims p_skip]. unfold n_skip. rewrite Sk. reflexivity. }
    apply bind_inv in E. destruct E as [made [g2 [E2 E]]].
    destruct (load (type_of_class k)) as [p|] eqn:L.
    - apply bind_inv in E2. destruct E2 as [v [g3 [E3 E2]]]. injection E2 as <- <-.
      assert (Pp : plain p).
      { apply (loads_plain _ p L). intro Eq. rewrite Eq in Wt. discriminate Wt. }
      destruct (run_local _ p IH Pp ks (cs :: st) _ _ v g3 Wk E3) as [nds [rest [-> [_ [S U]]]]].
      destruct g3 as [s3 ca3 he3]. cbn [rg_s rg_cache rg_heap] in *. subst s3.
      destruct (end_inv _ _ _ _ _ E) as [-> _]. destruct (end_ok _ _ _ _ _ _ _ E) as [-> Sk]. split; [reflexivity|].
      intros l2 st2. unfold bind at 1. rewrite Hb. cbn [oh_class oh_idx]. rewrite K1, K2, L. cbn [rg_s rg_cache rg_heap].
      unfold bind. cbn [rg_s rg_cache rg_heap].
      lazymatch goal with |- context [runp ?a ?b ?c p ?g] =>
        replace (runp a b c p g) with (Ret (v, mkRg (rest :: l2 :: st2) ca3 he3)) by (symmetry; exact (U rest (l2 :: st2))) end.
      cbn [rg_s rg_cache rg_heap].
      exact (end_runs rest l2 st2 ca3 _ (Some (len he)) Sk).
    - injection E2 as <- <-. destruct (end_inv _ _ _ _ _ E) as [-> _]. destruct (end_ok _ _ _ _ _ _ _ E) as [-> Sk]. split; [reflexivity|].
      intros l2 st2. unfold bind at 1. rewrite Hb. cbn [oh_class oh_idx]. rewrite K1, K2, L. exact (end_runs ks l2 st2 ca he None Sk).
  Qed.
  Lemma read_dropped n h ks l st ca he : dropped f load h = true -> forallb (skip_ok f) ks = true ->
    read_obj (nprims f) load flags_of (S n) (mkRg ((NObj h ks :: l) :: st) ca he) = Ret (None, mkRg (l :: st) ca he).
  Proof.
    intros Dr Sk. cbn [read_obj]. unfold bind at 1. unfold rgl at 1. cbn [rg_s nprims p_begin n_begin rg_cache rg_heap oh_class oh_idx].
    unfold dropped in Dr. apply andb_prop in Dr. destruct Dr as [D1 D2]. apply Bool.negb_true_iff in D1. rewrite D1.
    apply Bool.orb_true_iff in D2. destruct (bytes_eqb (shown_class f (oh_class h)) (lit "%")) eqn:K.
    - unfold bind, rgl. cbn [rg_s nprims p_skip]. unfold n_skip. rewrite Sk. reflexivity.
    - destruct D2 as [D2|D2]; [discriminate|]. destruct (load (type_of_class (shown_class f (oh_class h)))); [discriminate|].
      exact (end_runs ks l st ca he None Sk).
  Qed.

  Variable fuel : nat.
  Notation run p := (runp (nprims f) flags_of (read_obj (nprims f) load flags_of (S fuel)) p).
  Lemma run_bind {A B} (p : prog oid A) (k : A -> prog oid B) g :
    run (pbind p k) g = bind (run p) (fun a => run (k a)) g.
  Proof.
    revert g. induction p as [x|e| | |kd c IH|c IH|c IH|c IH|s p IH]; intro g; cbn [pbind runp]; try reflexivity; unfold bind at 1 2 3.
    - destruct (rgl _ g) as [[v g1]| | |]; try reflexivity. apply IH.
    - destruct (read_obj _ _ _ _ g) as [[v g1]| | |]; try reflexivity. apply IH.
    - destruct (rgl _ g) as [[v g1]| | |]; try reflexivity. apply IH.
    - destruct (rgl _ g) as [[v g1]| | |]; try reflexivity. apply IH.
    - destruct (rgl _ g) as [[v g1]| | |]; try reflexivity. apply IH.
  Qed.
  Lemma run_count nm k z l st ca he :
    run (p_rd KInt) (mkRg ((NEntry nm k (EInt z) :: l) :: st) ca he) = Ret (z, mkRg (l :: st) ca he).
  Proof. reflexivity. Qed.
  Lemma len_to_nat {A} (l : list A) : Z.to_nat (Z.of_N (len l)) = length l.
  Proof. unfold len. lia. Qed.
  Lemma skip_trees_eq d t ts h cs nm k ch : t = CTree h cs nm k ch ->
    p_skip_trees (S d) (length (t :: ts)) =
    PSkip false (pbind (p_rd KInt) (fun k => if (k <? 0)%Z then pbind (p_skip_trees d d) (fun _ => PFuel) else pbind (p_skip_trees d (Z.to_nat k)) (fun _ => p_skip_trees (S d) (length ts)))).
  Proof. reflexivity. Qed.
  Lemma skips d : forall ts l st ca he, forallb (skippable f d) ts = true ->
    run (p_skip_trees (S d) (length ts)) (mkRg ((flat_map tree_nodes ts ++ l) :: st) ca he) = Ret (tt, mkRg (l :: st) ca he).
  Proof.
    induction d as [|d IHd]; intros ts l st ca he K; [destruct ts; [reflexivity | discriminate K]|].
    induction ts as [|t ts IH]; [reflexivity|].
    cbn [forallb] in K. apply andb_prop in K. destruct K as [Kt K]. destruct t as [h cs nm k ch]. cbn [skippable] in Kt.
    apply andb_prop in Kt. destruct Kt as [Kc Kl].
    rewrite (skip_trees_eq (S d) _ ts h cs nm k ch eq_refl). cbn [runp flat_map tree_nodes app]. unfold bind at 1. unfold rgl. cbn [rg_s nprims p_skip]. unfold n_skip.
    rewrite Kc. cbn [rg_cache rg_heap]. rewrite run_bind. unfold bind. rewrite run_count.
    replace (Z.of_N (len ch) <? 0)%Z with false by (symmetry; apply Z.ltb_ge; lia).
    rewrite run_bind. unfold bind. rewrite len_to_nat, <- app_assoc. rewrite IHd by exact Kl. apply IH. exact K.
  Qed.
  Lemma pruned_skippable d t : skippable f d t = true -> forallb (skippable f d) (prune f load t) = true.
  Proof.
    revert t. induction d as [|d IH]; intros [h cs nm k ch] K; [discriminate K|]. cbn [skippable] in K. apply andb_prop in K. destruct K as [Kc Kl].
    cbn [prune]. destruct (dropped f load h); [reflexivity|]. cbn [forallb skippable]. rewrite Kc. cbn [andb]. rewrite Bool.andb_true_r.
    induction ch as [|c ch IHc]; [reflexivity|]. cbn [forallb flat_map] in *. apply andb_prop in Kl. destruct Kl as [K1 K2].
    rewrite forallb_app, (IH c K1), (IHc K2). reflexivity.
  Qed.
  Lemma pruned_all d ts : forallb (skippable f d) ts = true -> forallb (skippable f d) (flat_map (prune f load) ts) = true.
  Proof.
    intro K. induction ts as [|t ts IH]; [reflexivity|]. cbn [forallb flat_map] in *. apply andb_prop in K. destruct K as [K1 K2].
    rewrite forallb_app, (pruned_skippable d t K1), (IH K2). reflexivity.
  Qed.
  Lemma no_world_nodes_cons h cs nm k ch : nw (tree_nodes (CTree h cs nm k ch)) = true ->
    no_world f (NObj h cs) = true /\ nw (flat_map tree_nodes ch) = true.
  Proof. cbn [tree_nodes forallb]. intro H. apply andb_prop in H. destruct H as [H1 H2]. cbn [forallb andb] in H2. auto. Qed.
  Definition kept (l : list (option vtree)) : list vtree := flat_map (fun o => match o with Some t => [t] | None => [] end) l.

  Lemma count_nonneg {A} (l : list A) : (Z.of_N (len l) <? 0)%Z = false.
  Proof. apply Z.ltb_ge. lia. Qed.
  Lemma tree_pruned d : forall t, skippable f d t = true -> nw (tree_nodes t) = true ->
    match prune f load t with
    | [] => forall ca he, uses (run (p_tree (S d))) (tree_nodes t) ca he None ca he
    | t' :: r => r = [] /\ forall l st ca he v g', run (p_tree (S d)) (mkRg ((tree_nodes t' ++ l) :: st) ca he) = Ret (v, g') ->
        rg_s g' = l :: st /\ uses (run (p_tree (S d))) (tree_nodes t) ca he v (rg_cache g') (rg_heap g')
    end.
  Proof.
    induction d as [|d IHd]; intros [h cs nm k ch] K W; [discriminate K|]. cbn [skippable] in K. apply andb_prop in K. destruct K as [Kc Kl].
    apply no_world_nodes_cons in W. destruct W as [Wh Wc].
    (* the children *)
    assert (loop : forall l st ca he lp g',
      run (p_rep (length (flat_map (prune f load) ch)) (p_tree (S d))) (mkRg ((flat_map tree_nodes (flat_map (prune f load) ch) ++ l) :: st) ca he) = Ret (lp, g') ->
      rg_s g' = l :: st /\ exists lf, uses (run (p_rep (length ch) (p_tree (S d)))) (flat_map tree_nodes ch) ca he lf (rg_cache g') (rg_heap g') /\ kept lf = kept lp).
    { clear -IHd Kl Wc. induction ch as [|c ch IH]; intros l st ca he lp g' E.
      - cbn in E. injection E as <- <-. split; [reflexivity|]. exists []. split; [intros l2 st2; reflexivity | reflexivity].
      - cbn [forallb] in Kl. apply andb_prop in Kl. destruct Kl as [K1 K2]. cbn [flat_map] in Wc. rewrite forallb_app in Wc. apply andb_prop in Wc. destruct Wc as [W1 W2].
        specialize (IH K2 W2). specialize (IHd c K1 W1). cbn [flat_map] in E.
        destruct (prune f load c) as [|c' r].
        + cbn [app] in E. destruct (IH l st ca he lp g' E) as [S [lf [R Eq]]]. split; [exact S|].
          exists (None :: lf). split; [|exact Eq]. intros l2 st2. cbn [flat_map length p_rep]. rewrite run_bind. unfold bind at 1.
          rewrite <- app_assoc, IHd. rewrite run_bind. unfold bind. rewrite R. reflexivity.
        + destruct IHd as [-> H1]. cbn [app flat_map length p_rep] in E. rewrite run_bind in E. apply bind_inv in E. destruct E as [v [g1 [E1 E2]]].
          rewrite <- app_assoc in E1. rewrite run_bind in E2. apply bind_inv in E2. destruct E2 as [lp' [g2 [E2 E3]]]. injection E3 as <- <-.
          destruct (H1 _ _ _ _ v g1 E1) as [S1 R1]. destruct g1 as [s1 ca1 he1]. cbn [rg_s] in S1. subst s1. cbn [rg_cache rg_heap] in R1.
          destruct (IH l st ca1 he1 lp' g2 E2) as [S2 [lf [R2 Eq]]]. split; [exact S2|]. exists (v :: lf).
          split; [|unfold kept in *; cbn [flat_map]; rewrite Eq; reflexivity].
          intros l2 st2. cbn [flat_map length p_rep]. rewrite run_bind. unfold bind at 1. rewrite <- app_assoc, R1.
          rewrite run_bind. unfold bind. rewrite R2. reflexivity. }
    cbn [prune]. destruct (dropped f load h) eqn:Dr.
    - intros ca he l st. cbn [p_tree tree_nodes]. rewrite <- !app_comm_cons. remember (S d) as d1. cbn [runp]. unfold bind at 1.
      rewrite (read_dropped fuel h cs _ st ca he Dr Kc). rewrite run_bind. unfold bind at 1. rewrite run_count, count_nonneg, run_bind. unfold bind.
      rewrite len_to_nat. subst d1. rewrite (skips d ch l st ca he Kl). reflexivity.
    - split; [reflexivity|]. intros l st ca he v g' E.
      change (p_tree (S (S d))) with (PObj (fun o =>
        pbind (p_rd KInt) (fun n => match o with
        | Some (r, t, _) =>
            if is_vobject t then
              if (n <? 0)%Z then PThrow OtherExn
              else pbind (p_rep (Z.to_nat n) (p_tree (S d))) (fun l => PRet (Some (Tree r (kept l))))
            else if (n <? 0)%Z then pbind (p_skip_trees (S d) (S d)) (fun _ => PFuel) else pbind (p_skip_trees (S d) (Z.to_nat n)) (fun _ => PRet None)
        | None => if (n <? 0)%Z then pbind (p_skip_trees (S d) (S d)) (fun _ => PFuel) else pbind (p_skip_trees (S d) (Z.to_nat n)) (fun _ => PRet None)
        end))) in *.
      cbn [runp tree_nodes] in E. rewrite <- !app_comm_cons in E. apply bind_inv in E. destruct E as [o [g1 [E1 E2]]].
      assert (E1' := E1).
      destruct (read_local (S fuel) (NObj h cs :: _) st ca he o _ Wh E1') as [nds [l1 [Eq [Ln [S1 U1]]]]].
      specialize (Ln eq_refl). destruct nds as [|n0 [|]]; try discriminate Ln. injection Eq as <- <-. clear Ln.
      destruct g1 as [s1 ca1 he1]. cbn [rg_s rg_cache rg_heap] in *. subst s1.
      set (oo := match o with Some r => Some (r, heap_type he1 r, heap_flags flags_of he1 r) | None => None end) in *.
      rewrite run_bind in E2. unfold bind in E2. rewrite run_count in E2.
      assert (R : forall l2 st2 B (kk : option (oid * otype * Z) -> Z -> prog oid B),
         run (PObj (fun o => pbind (p_rd KInt) (kk o))) (mkRg ((tree_nodes (CTree h cs nm k ch) ++ l2) :: st2) ca he) =
         run (kk oo (Z.of_N (len ch))) (mkRg ((flat_map tree_nodes ch ++ l2) :: st2) ca1 he1)).
      { intros l2 st2 B kk. cbn [runp tree_nodes]. unfold bind at 1. specialize (U1 (NEntry nm k (EInt (Z.of_N (len ch))) :: flat_map tree_nodes ch ++ l2) st2).
        cbn [app] in U1 |- *. rewrite U1. cbn [rg_heap]. rewrite run_bind. unfold bind. rewrite run_count. reflexivity. }
      assert (skipping : run (pbind (p_skip_trees (S d) (Z.to_nat (Z.of_N (len (flat_map (prune f load) ch))))) (fun _ => PRet None))
                (mkRg ((flat_map tree_nodes (flat_map (prune f load) ch) ++ l) :: st) ca1 he1) = Ret (v, g') ->
              rg_s g' = l :: st /\ forall l2 st2, run (pbind (p_skip_trees (S d) (Z.to_nat (Z.of_N (len ch)))) (fun _ => PRet None))
                (mkRg ((flat_map tree_nodes ch ++ l2) :: st2) ca1 he1) = Ret (v, mkRg (l2 :: st2) (rg_cache g') (rg_heap g'))).
      { rewrite run_bind. unfold bind. rewrite len_to_nat, (skips d _ l st ca1 he1 (pruned_all d ch Kl)). intro X. injection X as <- <-.
        split; [reflexivity|]. intros l2 st2. rewrite run_bind. unfold bind. rewrite len_to_nat, (skips d ch l2 st2 ca1 he1 Kl). reflexivity. }
      unfold uses. rewrite !count_nonneg in E2.
      destruct oo as [[[r t] z]|] eqn:Eo.
      + destruct (is_vobject t) eqn:Ev.
        * rewrite run_bind in E2. apply bind_inv in E2. destruct E2 as [lp [g2 [E2 E3]]]. injection E3 as <- <-. rewrite len_to_nat in E2.
          destruct (loop l st ca1 he1 lp g2 E2) as [S2 [lf [R2 Kf]]]. split; [exact S2|]. intros l2 st2. rewrite R. rewrite Ev, count_nonneg, run_bind. unfold bind.
          rewrite len_to_nat, R2, Kf. reflexivity.
        * destruct (skipping E2) as [S2 R2]. split; [exact S2|]. intros l2 st2. rewrite R. rewrite Ev, count_nonneg. apply R2.
      + destruct (skipping E2) as [S2 R2]. split; [exact S2|]. intros l2 st2. rewrite R. rewrite count_nonneg. apply R2.
  Qed.
End Local.

(** The load functions of the library except that of worlds. *)
Ltac head_of t := match t with ?h _ => head_of h | _ => t end.
Ltac plains := repeat first
  [ exact I
  | apply plain_bind; [|intro]
  | apply plain_rep | apply plain_lift
  | progress (intros)
  | match goal with |- plain (match ?x with _ => _ end) => destruct x end
  | match goal with |- plain (if ?x then _ else _) => destruct x end
  | match goal with |- plain (PRead _ _) => cbn [plain] | |- plain (PObj _) => cbn [plain] end
  | match goal with |- plain (p_rd _) => unfold p_rd | |- plain ?p => let h := head_of p in unfold h end ].

Lemma plain_vob c : plain (load_vob c).
Proof. plains. Qed.
Lemma plain_trigger c : plain (load_trigger c).
Proof. unfold load_trigger. apply plain_bind; [apply plain_vob|]. plains. Qed.
Lemma plain_skips n : plain (p_skips n).
Proof. induction n as [|n IH]; [exact I | split; [reflexivity | exact IH]]. Qed.
Lemma library_plain c t p : object_load c t = Some p -> t <> oCWorld -> plain p.
Proof.
  intros E N. destruct t; cbn [object_load] in E; try discriminate E; try congruence; injection E as <-; try exact I;
    unfold p_map; (apply plain_bind; [|intro; exact I]);
    repeat first [ apply plain_skips | apply plain_vob | apply plain_trigger | apply plain_rep | apply plain_lift | apply plain_bind; [|intro]
                 | exact I
                 | match goal with |- plain (match ?x with _ => _ end) => destruct x end
                 | match goal with |- plain (if ?x then _ else _) => destruct x end
                 | match goal with |- plain (PRead _ _) => cbn [plain]; intro | |- plain (PObj _) => cbn [plain]; intro end
                 | match goal with |- plain ?p => let h := head_of p in unfold h end ].
Qed.

Lemma foreign_objects : forall c f D X fuel d t rest ca he,
  len D < 2 ^ 31 -> after_ok f X ->
  suf D (strip f (encodes f 0 (tree_nodes t ++ rest) ++ X)) ->
  forallb (node_ok f) (tree_nodes t ++ rest) = true ->
  skippable f d t = true -> forallb (no_world f) (tree_nodes t) = true ->
  let loaded := runp (fmt_prims f) (c_flags (library c)) (read_obj (fmt_prims f) (c_load (library c)) (c_flags (library c)) (S fuel))
                  (p_tree (S d)) (mkRg (rat f D (encodes f 0 (tree_nodes t ++ rest) ++ X) []) ca he) in
  match prune f (c_load (library c)) t with
  | [] => loaded = Ret (None, mkRg (rat f D (encodes f 0 rest ++ X) []) ca he)
  | t' :: _ => forall v s ca' he',
      runp (nprims f) (c_flags (library c)) (read_obj (nprims f) (c_load (library c)) (c_flags (library c)) (S fuel))
        (p_tree (S d)) (mkRg [tree_nodes t' ++ rest] ca he) = Ret (v, mkRg s ca' he') ->
      loaded = Ret (v, mkRg (rat f D (encodes f 0 rest ++ X) []) ca' he')
  end.
Proof.
  intros c f D X fuel d t rest ca he HD HX Hs Ha K W. cbv zeta.
  pose proof (tree_pruned f (c_load (library c)) (c_flags (library c)) (library_plain c) fuel d t K W) as T.
  pose proof (agrees_runp f D X HD HX (c_flags (library c)) _ _ (p_tree (S d))
                (agrees_read_obj f D X HD HX (c_load (library c)) (c_flags (library c)) (S fuel))) as A.
  assert (Up : forall l ca he, up f D X (mkRg [l] ca he) = mkRg (rat f D (encodes f 0 l ++ X) []) ca (he : heap (c_ob (library c)))).
  { intros l ca0 he0. unfold up, rst. cbn [rg_s rg_cache rg_heap senc length]. rewrite app_nil_r. destruct f; reflexivity. }
  assert (G : good f D X [tree_nodes t ++ rest]).
  { split; [discriminate|]. split; [constructor; [exact Ha | constructor]|]. cbn [senc length]. rewrite app_nil_r. exact Hs. }
  specialize (A (mkRg [tree_nodes t ++ rest] ca he) G).
  destruct (prune f (c_load (library c)) t) as [|t' r].
  - specialize (T ca he rest []). rewrite T in A. destruct A as [A _]. rewrite !Up in A. exact A.
  - destruct T as [_ T]. intros v s ca' he' E. destruct (T rest [] ca he v _ E) as [_ U]. specialize (U rest []).
    cbn [rg_cache rg_heap] in U. rewrite U in A. destruct A as [A _]. rewrite !Up in A. exact A.
Qed.
