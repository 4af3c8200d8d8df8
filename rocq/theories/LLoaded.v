(** Lemmas: what every loaded object is like. *)

From Coq Require Import String Lia.
From Verif Require Import MBase MStream LBase MText MClasses MArchive SArchive LDaedalus SLoaded.
Local Open Scope N_scope.

Section Loaded.
  Context {St Ob : Type} (P : prims St).
  Variable load : otype -> option (prog oid Ob).
  Variable flags_of : Ob -> Z.
  Notation rg := (@rg St Ob).

  Definition cached (g : rg) : Prop := Forall (fun e => snd e < len (rg_heap g)) (rg_cache g).
  (* Objects from [lo] on are complete. *)
  Definition done (h : heap Ob) (lo : N) : Prop :=
    forall r e, lo <= r -> nth_N h r = Some e ->
      exists x p, ho_val e = Some x /\ load (ho_type e) = Some p /\ can_return (answers flags_of h r) p x.
  (* The answers while the object is being loaded. *)
  Definition now (h : heap Ob) (o : option (oid * otype * Z)) : Prop :=
    match o with
    | None => True
    | Some (r', t, z) => r' < len h /\ t = heap_type h r' /\ z = heap_flags flags_of h r'
    end.

  Lemma can_return_mono {R A} (Q Q' : option (R * otype * Z) -> Prop) (p : prog R A) a :
    (forall o, Q o -> Q' o) -> can_return Q p a -> can_return Q' p a.
  Proof.
    intro M. induction p as [b|e| | |k c IH|c IH|c IH|c IH|b p IH]; cbn [can_return]; try exact (fun H => H).
    - intros [v H]. exists v. auto.
    - intros [v [Hq H]]. exists v. auto.
    - intros [v H]. exists v. auto.
    - intros [v H]. exists v. auto.
    - exact IH.
  Qed.
  Lemma heap_type_app (h n : heap Ob) r : r < len h -> heap_type (h ++ n) r = heap_type h r.
  Proof. intro H. unfold heap_type. rewrite nth_N_app_l by exact H. reflexivity. Qed.
  Lemma heap_flags_app (h n : heap Ob) r : r < len h -> heap_flags flags_of (h ++ n) r = heap_flags flags_of h r.
  Proof. intro H. unfold heap_flags. rewrite nth_N_app_l by exact H. reflexivity. Qed.
  Lemma now_app h n o : now h o -> now (h ++ n) o.
  Proof.
    destruct o as [[[r t] z]|]; [|exact (fun H => H)]. intros [A [B C]].
    split; [rewrite len_app; lia|]. rewrite heap_type_app, heap_flags_app by exact A. auto.
  Qed.
  Lemma answers_app h n r o : answers flags_of h r o -> answers flags_of (h ++ n) r o.
  Proof.
    destruct o as [[[r' t] z]|]; [|exact (fun H => H)]. intros [A [B C]].
    split; [rewrite len_app; lia|]. rewrite heap_type_app, heap_flags_app by exact A. auto.
  Qed.
  Lemma done_app h n lo : done h lo -> done (h ++ n) (len h) -> done (h ++ n) lo.
  Proof.
    intros A B r e L E. destruct (N.lt_ge_cases r (len h)) as [H|H]; [|exact (B r e H E)].
    rewrite nth_N_app_l in E by exact H. destruct (A r e L E) as [x [p [X [Y Z]]]].
    exists x, p. split; [exact X|]. split; [exact Y|]. revert Z. apply can_return_mono. intros o. apply answers_app.
  Qed.

  (* What [read_object] does to the objects. *)
  Definition keeps (m : M rg (option oid)) : Prop :=
    forall g o g', m g = Ret (o, g') -> cached g ->
      cached g' /\ (forall r, o = Some r -> r < len (rg_heap g')) /\
      exists n, rg_heap g' = rg_heap g ++ n /\ done (rg_heap g') (len (rg_heap g)).
  Lemma done_end h : done h (len h).
  Proof. intros r e L E. apply nth_N_lt in E. lia. Qed.
  Lemma rgl_inv {A} (m : M St A) (g g' : rg) a : rgl m g = Ret (a, g') ->
    rg_cache g' = rg_cache g /\ rg_heap g' = rg_heap g.
  Proof. unfold rgl. destruct (m (rg_s g)) as [[x s]| | |]; [|discriminate..]. intro E. injection E as <- <-. auto. Qed.
  Lemma cached_same (g g' : rg) : rg_cache g' = rg_cache g -> rg_heap g' = rg_heap g -> cached g -> cached g'.
  Proof. unfold cached. intros -> ->. auto. Qed.
  Lemma bind_inv {S A B} (m : M S A) (k : A -> M S B) s b s' : bind m k s = Ret (b, s') ->
    exists a s1, m s = Ret (a, s1) /\ k a s1 = Ret (b, s').
  Proof. unfold bind. destruct (m s) as [[a s1]| | |]; [|discriminate..]. eauto. Qed.

  Lemma run_keeps {A} rec : keeps rec -> forall (p : prog oid A) g a g', runp P flags_of rec p g = Ret (a, g') -> cached g ->
    cached g' /\ (exists n, rg_heap g' = rg_heap g ++ n /\ done (rg_heap g') (len (rg_heap g))) /\
    can_return (now (rg_heap g')) p a.
  Proof.
    intro Hrec.
    assert (step : forall B (m : M St B) (k : B -> prog oid A), (forall v g a g', runp P flags_of rec (k v) g = Ret (a, g') -> cached g ->
       cached g' /\ (exists n, rg_heap g' = rg_heap g ++ n /\ done (rg_heap g') (len (rg_heap g))) /\ can_return (now (rg_heap g')) (k v) a) ->
       forall g a g', bind (rgl m) (fun v => runp P flags_of rec (k v)) g = Ret (a, g') -> cached g ->
       cached g' /\ (exists n, rg_heap g' = rg_heap g ++ n /\ done (rg_heap g') (len (rg_heap g))) /\
       exists v, can_return (now (rg_heap g')) (k v) a).
    { intros B m k IH g a g' E Hc. apply bind_inv in E. destruct E as [v [g1 [E1 E2]]].
      destruct (rgl_inv _ _ _ _ E1) as [C1 H1].
      destruct (IH v g1 a g' E2 (cached_same _ _ C1 H1 Hc)) as [C2 [H2 R2]]. rewrite H1 in H2.
      split; [exact C2|]. split; [exact H2|]. exists v. exact R2. }
    induction p as [b|e| | |k c IH|c IH|c IH|c IH|b p IH]; intros g a g' E Hc; cbn [runp] in E; cbn [can_return].
    - injection E as <- <-. split; [exact Hc|]. split; [|reflexivity]. exists []. rewrite app_nil_r. split; [reflexivity | apply done_end].
    - discriminate E.
    - discriminate E.
    - discriminate E.
    - exact (step _ _ c IH g a g' E Hc).
    - apply bind_inv in E. destruct E as [o [g1 [E1 E2]]].
      destruct (Hrec g o g1 E1 Hc) as [C1 [O1 [n1 [H1 D1]]]].
      destruct (IH _ g1 a g' E2 C1) as [C2 [[n2 [H2 D2]] R2]].
      split; [exact C2|]. split.
      + exists (n1 ++ n2). rewrite H2, H1, app_assoc. split; [reflexivity|]. rewrite <- H1.
        apply done_app; [exact D1|]. rewrite <- H2. exact D2.
      + eexists. split; [|exact R2]. destruct o as [r|]; [|exact I]. specialize (O1 r eq_refl).
        rewrite H2. apply (now_app _ n2 (Some (r, _, _))). split; [exact O1|]. split; reflexivity.
    - exact (step _ _ c IH g a g' E Hc).
    - exact (step _ _ c IH g a g' E Hc).
    - destruct (step _ (p_skip P b) (fun _ => p) (fun _ => IH) g a g' E Hc) as [C [H [v R]]]. auto.
  Qed.

  Lemma heap_set_at (a b : heap Ob) e v : heap_set (a ++ e :: b) (len a) v = a ++ mkHobj (ho_type e) (ho_index e) (Some v) :: b.
  Proof.
    unfold heap_set. rewrite nth_N_app_r by lia. rewrite N.sub_diag. rewrite nth_N_0.
    rewrite take_app_exact by reflexivity. f_equal. f_equal.
    replace (a ++ e :: b) with ((a ++ [e]) ++ b) by (rewrite <- app_assoc; reflexivity).
    apply drop_app_exact. rewrite len_app. reflexivity.
  Qed.
  Lemma heap_type_set (a b : heap Ob) t i v w r : heap_type (a ++ mkHobj t i v :: b) r = heap_type (a ++ mkHobj t i w :: b) r.
  Proof.
    unfold heap_type. destruct (N.lt_ge_cases r (len a)) as [H|H]; [rewrite !nth_N_app_l by exact H; reflexivity|].
    rewrite !nth_N_app_r by exact H. destruct (N.eq_dec r (len a)) as [->|N].
    - rewrite N.sub_diag, !nth_N_0. reflexivity.
    - replace (r - len a) with ((r - len a - 1) + 1) by lia. rewrite !nth_N_S. reflexivity.
  Qed.
  Lemma nth_N_set (a b : heap Ob) e e' r : r <> len a -> nth_N (a ++ e :: b) r = nth_N (a ++ e' :: b) r.
  Proof.
    intro N. destruct (N.lt_ge_cases r (len a)) as [H|H]; [rewrite !nth_N_app_l by exact H; reflexivity|].
    rewrite !nth_N_app_r by exact H. replace (r - len a) with ((r - len a - 1) + 1) by lia. rewrite !nth_N_S. reflexivity.
  Qed.
  Lemma len_mid {A} (a b : list A) e : len (a ++ e :: b) = len a + 1 + len b.
  Proof. rewrite len_app. unfold len. cbn [length]. lia. Qed.

  Lemma len_one {A} (x : A) : len [x] = 1.
  Proof. reflexivity. Qed.

  Lemma end_inv (g g' : rg) (x : option oid) y :
    bind (rgl (p_end P)) (fun e => bind (if e then ret tt else rgl (p_skip P true)) (fun _ => ret x)) g = Ret (y, g') ->
    y = x /\ rg_cache g' = rg_cache g /\ rg_heap g' = rg_heap g.
  Proof.
    intro E. apply bind_inv in E. destruct E as [e [g1 [E1 E2]]]. apply bind_inv in E2. destruct E2 as [[] [g2 [E2 E3]]].
    injection E3 as <- <-. destruct (rgl_inv _ _ _ _ E1) as [A B]. split; [reflexivity|].
    destruct e; [injection E2 as <-; auto|]. destruct (rgl_inv _ _ _ _ E2) as [C D]. rewrite C, D. auto.
  Qed.

  Lemma read_obj_keeps fuel : keeps (read_obj P load flags_of fuel).
  Proof.
    induction fuel as [|n IH]; intros g o g' E Hc; [discriminate E|]. cbn [read_obj] in E.
    assert (same : forall (g2 : rg) (y : option oid), rg_cache g2 = rg_cache g -> rg_heap g2 = rg_heap g ->
      (forall r, y = Some r -> r < len (rg_heap g)) ->
      cached g2 /\ (forall r, y = Some r -> r < len (rg_heap g2)) /\ exists n, rg_heap g2 = rg_heap g ++ n /\ done (rg_heap g2) (len (rg_heap g))).
    { intros g2 y C H Y. split; [exact (cached_same g g2 C H Hc)|]. rewrite H. split; [exact Y|]. exists []. rewrite app_nil_r. split; [reflexivity | apply done_end]. }
    apply bind_inv in E. destruct E as [h [g1 [E1 E]]]. destruct (rgl_inv _ _ _ _ E1) as [C1 H1].
    destruct h as [h|]; [|injection E as <- <-; apply same; [assumption..|discriminate]].
    destruct (bytes_eqb (oh_class h) [xa7]).
    { apply bind_inv in E. destruct E as [e [g2 [E2 E]]]. apply bind_inv in E. destruct E as [[] [g3 [E3 E]]].
      injection E as <- <-. destruct (rgl_inv _ _ _ _ E2) as [C2 H2].
      assert (rg_cache g3 = rg_cache g2 /\ rg_heap g3 = rg_heap g2) as [C3 H3] by
        (destruct e; [injection E3 as <-; auto | exact (rgl_inv _ _ _ _ E3)]).
      apply same; [congruence..|]. intros r F. rewrite C3, C2, C1 in F. unfold cache_find in F.
      destruct (find _ _) as [x|] eqn:X; [|discriminate]. injection F as <-. apply find_some in X. destruct X as [X _].
      unfold cached in Hc. rewrite Forall_forall in Hc. exact (Hc x X). }
    destruct (bytes_eqb (oh_class h) (lit "%")).
    { apply bind_inv in E. destruct E as [[] [g2 [E2 E]]]. injection E as <- <-. destruct (rgl_inv _ _ _ _ E2).
      apply same; [congruence..|discriminate]. }
    apply bind_inv in E. destruct E as [made [g2 [E2 E]]]. destruct (end_inv _ _ _ _ E) as [-> [C3 H3]].
    destruct (load (type_of_class (oh_class h))) as [p|] eqn:L.
    2:{ injection E2 as <- <-. apply same; [congruence..|discriminate]. }
    apply bind_inv in E2. destruct E2 as [v [g4 [E4 E2]]]. injection E2 as <- <-. cbn [rg_heap rg_cache] in C3, H3.
    set (h0 := rg_heap g1) in *. set (t := type_of_class (oh_class h)) in *.
    assert (Hc1 : cached (mkRg (rg_s g1) ((oh_idx h, len h0) :: rg_cache g1) (h0 ++ [mkHobj t (oh_idx h) None]))).
    { unfold cached. cbn [rg_heap rg_cache]. rewrite len_app, len_one. constructor; [cbn [snd]; lia|].
      rewrite C1. unfold cached in Hc. rewrite <- H1 in Hc. apply Forall_impl with (2 := Hc). intros q Hq. cbn beta in *. lia. }
    destruct (run_keeps _ IH p _ v g4 E4 Hc1) as [C5 [[nw [H5 D5]] R5]]. cbn [rg_heap] in H5, D5.
    rewrite <- app_assoc in H5. cbn [app] in H5.
    rewrite H5, heap_set_at in H3. cbn [ho_type ho_index] in H3.
    assert (HL : len (rg_heap g') = len (rg_heap g4)) by (rewrite H3, H5, !len_mid; reflexivity).
    assert (HR : forall r, r <> len h0 -> nth_N (rg_heap g') r = nth_N (rg_heap g4) r).
    { intros r N. rewrite H3, H5. apply nth_N_set. exact N. }
    assert (HT : forall r, heap_type (rg_heap g') r = heap_type (rg_heap g4) r).
    { intro r. rewrite H3, H5. apply heap_type_set. }
    assert (HF : forall r, r <> len h0 -> heap_flags flags_of (rg_heap g') r = heap_flags flags_of (rg_heap g4) r).
    { intros r N. unfold heap_flags. rewrite (HR r N). reflexivity. }
    split; [|split].
    - unfold cached in *. rewrite C3, HL. exact C5.
    - intros r F. injection F as <-. rewrite HL, H5, len_mid. lia.
    - exists (mkHobj t (oh_idx h) (Some v) :: nw). split; [rewrite H3, H1; reflexivity|].
      intros r e Lr En. rewrite <- H1 in Lr. fold h0 in Lr. destruct (N.eq_dec r (len h0)) as [->|N].
      + rewrite H3 in En. rewrite nth_N_app_r, N.sub_diag, nth_N_0 in En by lia. injection En as <-.
        exists v, p. cbn [ho_val ho_type]. split; [reflexivity|]. split; [exact L|].
        revert R5. apply can_return_mono. intros [[[r' t'] z]|]; [|exact (fun H => H)].
        intros [A [B C]]. split; [lia|]. split; [rewrite HT; exact B|]. intro Lt. rewrite HF by lia. exact C.
      + rewrite (HR r N) in En. destruct (D5 r e) as [x [q [X [Y Z]]]]; [|exact En|].
        { rewrite len_app, len_one. lia. }
        exists x, q. split; [exact X|]. split; [exact Y|]. revert Z. apply can_return_mono.
        intros [[[r' t'] z]|]; [|exact (fun H => H)].
        intros [A [B C]]. split; [lia|]. split; [rewrite HT; exact B|]. intro Lt. rewrite HF by lia. apply C. exact Lt.
  Qed.
End Loaded.

Lemma loaded_made {Ob} load (flags_of : Ob -> Z) fuel b head root h :
  load_archive load flags_of fuel b = Ret (head, root, h) ->
  made_by load flags_of h /\ (forall r, root = Some r -> r < len h).
Proof.
  intro E. unfold load_archive in E. destruct (ar_open _) as [[a r]| | |]; [|discriminate..].
  destruct (read_obj _ _ _ _ _) as [[o g]| | |] eqn:F; [|discriminate..]. injection E as <- <- <-.
  destruct (read_obj_keeps _ _ _ _ _ _ _ F) as [_ [A [n [B C]]]]; [constructor|].
  split; [|exact A]. intros r0 e H. apply (C r0 e); [apply N.le_0_l | exact H].
Qed.
