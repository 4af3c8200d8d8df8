(** Lemmas: meshes. *)

From Coq Require Import Lia ZifyN ZifyBool ZifyNat Sorted Permutation String.
From Verif Require Import MBase MStream SStream MBoxes SBoxes MTexture STexture MText MClasses MArchive SArchive MVob
  MMaterial MMesh SMesh SFormat LBase LStream LStreamHist LBoxes LFormat LModel LTexture LBsp LText LArchW LArchR LArchH.
Local Open Scope N_scope.
Local Open Scope m_scope.

(* ------------------------------------------------------------------ *)
(** * Triangulation *)

Lemma nth_N_some {A} (l : list A) i d : i < len l -> nth_N l i = Some (nth (N.to_nat i) l d).
Proof.
  intros H. rewrite nth_N_error. apply nth_error_nth'. unfold len in H. lia.
Qed.

Lemma lower_bound_ok l x : Sorted N.le l -> forall fuel i n, i + n <= len l -> n < N.of_nat fuel ->
  (forall j y, j < i -> nth_N l j = Some y -> y < x) ->
  (forall j y, i + n <= j -> nth_N l j = Some y -> x <= y) ->
  let r := lower_bound_N fuel l x i n in
  (forall j y, j < r -> nth_N l j = Some y -> y < x) /\ (forall j y, r <= j -> nth_N l j = Some y -> x <= y).
Proof.
  intros Hs. assert (Hle : forall i j a b, i <= j -> nth_N l i = Some a -> nth_N l j = Some b -> a <= b).
  { apply Sorted_StronglySorted in Hs; [|intros ? ? ? ? ?; eapply N.le_trans; eassumption].
    intros i j a b. rewrite !nth_N_error. revert i j a b. clear x. induction Hs as [|z l Hs IH Hf]; intros i j a b Hij Ha Hb.
    - destruct (N.to_nat i); discriminate.
    - rewrite Forall_forall in Hf.
      destruct (N.to_nat i) as [|i'] eqn:Ei; destruct (N.to_nat j) as [|j'] eqn:Ej; cbn [nth_error] in *; try lia.
      + assert (a = b) by congruence. lia.
      + injection Ha as <-. apply Hf. eapply nth_error_In. exact Hb.
      + apply (IH (N.of_nat i') (N.of_nat j')); rewrite ?Nat2N.id; try assumption. lia. }
  induction fuel as [|fuel IH]; intros i n Hi Hn H1 H2; [lia|]. cbn [lower_bound_N].
  destruct (N.eqb_spec n 0) as [->|Hn0].
  - rewrite N.add_0_r in H2. split; assumption.
  - assert (Hh : n / 2 < n) by (apply N.div_lt; lia).
    rewrite (nth_N_some l (i + n / 2) 0) by lia. set (y := nth _ l 0).
    assert (Hy : nth_N l (i + n / 2) = Some y) by (apply nth_N_some; lia).
    destruct (N.ltb_spec y x) as [Hx|Hx].
    + apply IH; [lia | lia | |].
      * intros j z Hj Hz. destruct (N.lt_ge_cases j i) as [Hji|Hji]; [eapply H1; eassumption|].
        assert (z <= y) by (eapply Hle; [|exact Hz|exact Hy]; lia). lia.
      * intros j z Hj Hz. apply (H2 j z); [lia | exact Hz].
    + apply IH; [lia | lia | exact H1|].
      intros j z Hj Hz. assert (y <= z) by (eapply Hle; [|exact Hy|exact Hz]; lia). lia.
Qed.
Lemma binary_search_in l x : Sorted N.le l -> binary_search l x = true <-> In x l.
Proof.
  intros Hs. unfold binary_search.
  destruct (lower_bound_ok l x Hs (S (length l)) 0 (len l)) as [H1 H2]; [lia | unfold len; lia | lia | |].
  { intros j y Hj Hy. rewrite nth_N_error in Hy. assert (N.to_nat j < length l)%nat by (apply nth_error_Some; congruence). unfold len in Hj. lia. }
  set (r := lower_bound_N _ l x 0 (len l)) in *. split.
  - destruct (nth_N l r) as [y|] eqn:E; [|discriminate]. intros H. apply negb_true_iff, N.ltb_ge in H.
    assert (x <= y) by (eapply H2; [|exact E]; lia). assert (x = y) by lia. subst. rewrite nth_N_error in E. eapply nth_error_In, E.
  - intros H. apply In_nth_error in H as [k Hk].
    assert (Ek : nth_N l (N.of_nat k) = Some x) by (rewrite nth_N_error, Nat2N.id; exact Hk).
    assert (Hr : r <= N.of_nat k).
    { destruct (N.le_gt_cases r (N.of_nat k)) as [|Hlt]; [assumption|]. specialize (H1 _ _ Hlt Ek). lia. }
    assert (Hkl : (k < length l)%nat) by (apply nth_error_Some; congruence).
    rewrite (nth_N_some l r 0) by (unfold len; lia). set (y := nth _ l 0).
    assert (Ey : nth_N l r = Some y) by (apply nth_N_some; unfold len; lia).
    apply negb_true_iff, N.ltb_ge.
    destruct (N.eq_dec r (N.of_nat k)) as [Er|Er]; [rewrite Er in Ey; rewrite Ey in Ek; injection Ek as ->; lia|].
    (* y at r < k, sorted: y <= x *)
    apply Sorted_StronglySorted in Hs; [|intros ? ? ? ? ?; eapply N.le_trans; eassumption].
    clearbody y. clear - Hs Ey Ek Hr Er. rewrite nth_N_error in Ey, Ek. rewrite Nat2N.id in Ek.
    assert (Hlt : (N.to_nat r < k)%nat) by lia. clear Hr Er. revert k Hlt Ek. revert Ey. generalize (N.to_nat r). intros i.
    revert i. induction Hs as [|z l Hs IH Hf]; intros i Ey k Hlt Ek; [destruct i; discriminate|].
    rewrite Forall_forall in Hf. destruct k as [|k]; [lia|]. destruct i as [|i]; cbn [nth_error] in *.
    + injection Ey as ->. apply Hf. eapply nth_error_In, Ek.
    + eapply IH; [exact Ey| |exact Ek]. lia.
Qed.

Definition tris_app (a b : tris) : tris :=
  mkTris (tr_materials a ++ tr_materials b) (tr_lightmaps a ++ tr_lightmaps b) (tr_features a ++ tr_features b)
         (tr_vertices a ++ tr_vertices b) (tr_flags a ++ tr_flags b).
Lemma tris_app_nil a : tris_app a (listed_triangles []) = a.
Proof. destruct a. unfold tris_app, listed_triangles. cbn. rewrite !app_nil_r. reflexivity. Qed.
Lemma tris_app_app a l1 l2 : tris_app (tris_app a (listed_triangles l1)) (listed_triangles l2) = tris_app a (listed_triangles (l1 ++ l2)).
Proof. unfold tris_app, listed_triangles. cbn. rewrite !map_app, !flat_map_app, <- !app_assoc. reflexivity. Qed.

Lemma three_ok l p k : po_offset p + (k + 1) < len l ->
  three l (po_offset p) k (k + 1) = Ret [corner_of l p 0; corner_of l p k; corner_of l p (k + 1)].
Proof.
  intros H. unfold three, corner_of. rewrite N.add_0_r.
  rewrite !(nth_N_some l _ 0) by lia. reflexivity.
Qed.
Lemma fan_ok m p : po_offset p + po_count p <= len (me_vindices m) -> po_offset p + po_count p <= len (me_findices m) ->
  forall n k t, k + N.of_nat n + 1 <= po_count p ->
  fan (me_vindices m) (me_findices m) p n k (k + 1) t =
  Ret (tris_app t (listed_triangles (map (fun k => let k := N.of_nat k in
    mkTriangle
      (corner_of (me_vindices m) p 0, corner_of (me_vindices m) p k, corner_of (me_vindices m) p (k + 1))
      (corner_of (me_findices m) p 0, corner_of (me_findices m) p k, corner_of (me_findices m) p (k + 1))
      (po_material p) (po_lightmap p) (po_flags p))
    (seq (N.to_nat k) n)))).
Proof.
  intros Hv Hf. induction n as [|n IH]; intros k t Hk; cbn [fan].
  - rewrite tris_app_nil. reflexivity.
  - rewrite !three_ok by lia. cbn [obind]. rewrite IH by lia. f_equal.
    replace (N.to_nat (k + 1)) with (S (N.to_nat k)) by lia. cbn [seq map]. rewrite N2Nat.id.
    unfold tris_app, listed_triangles. cbn [tr_materials tr_lightmaps tr_features tr_vertices tr_flags map flat_map
      t_vertices t_features t_material t_lightmap t_flags triple]. rewrite <- !app_assoc. reflexivity.
Qed.
Lemma drawn_spec p : (po_count p <? 3) || negb (pf_portal (po_flags p) =? 0) || pf_ghost (po_flags p) || pf_outdoor (po_flags p) = negb (drawn p).
Proof.
  unfold drawn. rewrite !negb_andb, !negb_involutive. f_equal. f_equal. f_equal.
  destruct (N.ltb_spec (po_count p) 3), (N.leb_spec 3 (po_count p)); try reflexivity; lia.
Qed.
Lemma fans_ok m leaf : Sorted N.le leaf -> forall ps i t,
  Forall (fun p => po_offset p + po_count p <= len (me_vindices m) /\ po_offset p + po_count p <= len (me_findices m)) ps ->
  fans (me_vindices m) (me_findices m) leaf ps i t =
  Ret (tris_app t (listed_triangles
    (flat_map (fun q => if in_dec N.eq_dec (fst q) leaf then if drawn (snd q) then fan_of m (snd q) else [] else []) (numbered i ps)))).
Proof.
  intros Hs. induction ps as [|p ps IH]; intros i t H; cbn [fans numbered flat_map].
  - rewrite tris_app_nil. reflexivity.
  - inversion H as [|? ? [Hv Hf] Hr]; subst. cbn [fst snd].
    destruct (in_dec N.eq_dec i leaf) as [Hi|Hi].
    + rewrite (proj2 (binary_search_in leaf i Hs) Hi). cbn [negb]. rewrite drawn_spec. destruct (drawn p) eqn:Ed; cbn [negb].
      * assert (3 <= po_count p) by (unfold drawn in Ed; destruct (N.leb_spec 3 (po_count p)); [assumption | discriminate]).
        change 2 with (1 + 1) at 2. rewrite (fan_ok m p Hv Hf) by lia. cbn [obind]. rewrite IH by exact Hr. f_equal.
        rewrite tris_app_app. unfold fan_of. replace (N.to_nat (po_count p - 2)) with (N.to_nat (po_count p) - 2)%nat by lia. reflexivity.
      * cbn [obind]. rewrite IH by exact Hr. reflexivity.
    + destruct (binary_search leaf i) eqn:Eb; [apply (binary_search_in leaf i Hs) in Eb; contradiction|].
      cbn [negb obind]. rewrite IH by exact Hr. reflexivity.
Qed.
Lemma triangulate_ok m leaf : Sorted N.le leaf -> corners_exist m ->
  triangulate leaf m = Ret (with_tris (tris_app (me_tris m) (listed_triangles (leaf_triangles m leaf))) m).
Proof. intros Hs Hc. unfold triangulate. rewrite (fans_ok m leaf Hs) by exact Hc. reflexivity. Qed.

Lemma repM_len {S A} (m : M S A) n s l s' : repM n m s = Ret (l, s') -> length l = n.
Proof.
  revert s l s'. induction n as [|n IH]; intros s l s' E; cbn [repM] in E.
  - injection E as <- _. reflexivity.
  - unfold bind at 1 in E. destruct (m s) as [[a s1]| | |]; try discriminate.
    unfold bind in E. destruct (repM n m s1) as [[l1 s2]| | |] eqn:E1; try discriminate.
    injection E as <- _. cbn [length]. erewrite IH by exact E1. reflexivity.
Qed.
Lemma polys_load_corners version wide : forall old off vs fs s ps vs' fs' s',
  polys_load version wide old off vs fs s = Ret ((ps, vs', fs'), s') ->
  exists k, len vs' = len vs + k /\ len fs' = len fs + k /\
    (off + k < 2 ^ 32 -> Forall (fun p => po_offset p + po_count p <= off + k) ps).
Proof.
  induction old as [|p old IH]; intros off vs fs s ps vs' fs' s' E; cbn [polys_load] in E.
  - injection E as <- <- <- _. exists 0. rewrite !N.add_0_r. repeat split; constructor.
  - peel E x1 s1 E1. peel E x2 s2 E2. peel E x3 s3 E3. peel E x4 s4 E4. peel E x5 s5 E5. peel E c s6 E6.
    peel E cs s7 E7. peel E r s8 E8. destruct r as [[ps1 vs1] fs1]. injection E as <- <- <- _.
    apply IH in E8. destruct E8 as (k & Hv & Hf & Hk). apply repM_len in E7.
    rewrite len_app, len_map in Hv, Hf. unfold len at 3 in Hv. unfold len at 3 in Hf. rewrite E7, N2Nat.id in Hv, Hf.
    exists (c + k). repeat split; [lia | lia|]. intros Hb.
    assert (Eo : u32 (off + c) = off + c) by (apply N.mod_small; lia). rewrite Eo in Hk.
    constructor; [cbn [po_offset po_count]; lia|].
    eapply Forall_impl; [|apply Hk; lia]. intros q Hq. cbn beta in Hq |- *. lia.
Qed.

Lemma mesh_loaded wide s m s' : mesh_load mesh_new wide s = Ret (m, s') ->
  (len (me_vindices m) < 2 ^ 32 -> corners_exist m) /\ me_tris m = no_tris.
Proof.
  unfold mesh_load. intros E. peel E r s1 E1. injection E as <- _. revert E1.
  apply (read_chunked_inv (mesh_chunk wide)
    (fun r => (len (me_vindices (snd r)) < 2 ^ 32 -> corners_exist (snd r)) /\ me_tris (snd r) = no_tris)).
  2:{ split; [intros _; constructor | reflexivity]. }
  clear. intros ty [v m] s b [v' m'] s' [HP HT] E. unfold mesh_chunk in E. cbn [snd] in *.
  Ltac same E HP HT := injection E as _ _ <- _; split; [exact HP | exact HT].
  destruct (ty =? M_MARKER).
  { peel E x1 s1 E1. peel E x2 s2 E2. peel E x3 s3 E3. same E HP HT. }
  destruct (ty =? M_BBOX).
  { peel E x1 s1 E1. peel E x2 s2 E2. same E HP HT. }
  destruct (ty =? M_MATERIAL).
  { peel E x1 s1 E1. same E HP HT. }
  destruct (ty =? M_VERTICES).
  { peel E x1 s1 E1. peel E x2 s2 E2. same E HP HT. }
  destruct (ty =? M_FEATURES).
  { peel E x1 s1 E1. peel E x2 s2 E2. same E HP HT. }
  destruct (ty =? M_POLYGONS).
  { peel E n s1 E1. peel E r s2 E2. destruct r as [[ps vs] fs]. injection E as _ _ <- _. split; [|exact HT].
    apply polys_load_corners in E2. destruct E2 as (k & Hv & Hf & Hk).
    intros Hl. unfold corners_exist, with_geometry in *. cbn [me_vindices me_findices me_geometry] in *.
    rewrite N.add_0_l in Hk. eapply Forall_impl; [|apply Hk; lia]. intros q Hq. cbn beta in Hq |- *. lia. }
  destruct (ty =? M_LIGHTMAPS_SHARED).
  { peel E x1 s1 E1. peel E x2 s2 E2. peel E x3 s3 E3. peel E x4 s4 E4. same E HP HT. }
  destruct (ty =? M_LIGHTMAPS).
  { peel E x1 s1 E1. peel E x2 s2 E2. same E HP HT. }
  destruct (ty =? M_END); same E HP HT.
Qed.

Lemma mesh_leaves_ok wide leaf s m s' : Sorted N.le leaf ->
  mesh_load mesh_new wide s = Ret (m, s') -> len (me_vindices m) < 2 ^ 32 ->
  mesh_load_leaves mesh_new leaf wide s = Ret (with_tris (listed_triangles (leaf_triangles m leaf)) m, s').
Proof.
  intros Hs E Hl. unfold mesh_load_leaves, bind. rewrite E. destruct (mesh_loaded _ _ _ _ E) as [Hc Ht].
  unfold lift. rewrite (triangulate_ok m leaf Hs (Hc Hl)), Ht. unfold tris_app. reflexivity.
Qed.
