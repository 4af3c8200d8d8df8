(** BSP trees: round trip, and what loading makes of arbitrary bytes. *)

From Coq Require Import Lia ZifyN ZifyBool ZifyNat Sorted Permutation.
From Verif Require Import MBase MStream SStream MBoxes SBoxes MModel SFormat MBsp SBsp LBase LStream LStreamHist LBoxes LFormat LModel LTexture.
Local Open Scope N_scope.

(** ** Shapes *)
Definition oshape (P : shape -> Prop) (o : option shape) : Prop := match o with Some x => P x | None => True end.
Fixpoint shape_ind' (P : shape -> Prop)
  (HL : forall bb i c, P (Leaf bb i c))
  (HI : forall bb i c pl lod f b, oshape P f -> oshape P b -> P (Inner bb i c pl lod f b)) (t : shape) : P t :=
  match t with
  | Leaf bb i c => HL bb i c
  | Inner bb i c pl lod f b =>
      HI bb i c pl lod f b
        (match f return oshape P f with Some x => shape_ind' P HL HI x | None => I end)
        (match b return oshape P b with Some x => shape_ind' P HL HI x | None => I end)
  end.

Definition osize (o : option shape) : N := match o with Some x => size x | None => 0 end.
Definition olisted (p : Z) (i : N) (o : option shape) : list bspnode := match o with Some x => listed p i x | None => [] end.
Definition oleaves (i : N) (o : option shape) : list N := match o with Some x => leaves_of i x | None => [] end.

Lemma size_inner bb i c pl lod f b : size (Inner bb i c pl lod f b) = 1 + osize f + osize b.
Proof. reflexivity. Qed.
Definition inner_node (self : N) (parent : Z) bb i c pl lod (f b : option shape) : bspnode :=
  mkNode pl bb i c
        (match f with Some _ => Z.of_N (self + 1) | None => -1 end)%Z
        (match b with Some _ => Z.of_N (self + 1 + osize f) | None => -1 end)%Z parent lod.
Lemma listed_inner p self bb i c pl lod f b : listed p self (Inner bb i c pl lod f b) =
  inner_node self p bb i c pl lod f b :: olisted (Z.of_N self) (self + 1) f ++ olisted (Z.of_N self) (self + 1 + osize f) b.
Proof. destruct f, b; reflexivity. Qed.
Lemma leaves_inner self bb i c pl lod f b : leaves_of self (Inner bb i c pl lod f b) =
  oleaves (self + 1) f ++ oleaves (self + 1 + osize f) b.
Proof. destruct f, b; reflexivity. Qed.
Lemma size_pos t : 0 < size t.
Proof. destruct t; [reflexivity|]. rewrite size_inner. lia. Qed.

Lemma len_listed t : forall p i, len (listed p i t) = size t.
Proof.
  induction t as [|bb i c pl lod f b Hf Hb] using shape_ind'; intros p self; [reflexivity|].
  rewrite listed_inner, size_inner, len_cons, len_app.
  assert (E1 : forall p i, len (olisted p i f) = osize f) by (intros; destruct f; [apply Hf | reflexivity]).
  assert (E2 : forall p i, len (olisted p i b) = osize b) by (intros; destruct b; [apply Hb | reflexivity]).
  rewrite E1, E2. lia.
Qed.
Lemma len_olisted o p i : len (olisted p i o) = osize o.
Proof. destruct o; [apply len_listed | reflexivity]. Qed.

Lemma set_nth_mid {A} (l : list A) x r f : set_nth (l ++ x :: r) (len l) f = l ++ f x :: r.
Proof.
  unfold set_nth. rewrite nth_N_error. unfold len at 1. rewrite Nnat.Nat2N.id, nth_error_app2, Nat.sub_diag by lia. cbn [nth_error].
  f_equal; [apply take_app_exact; reflexivity|]. f_equal.
  change (x :: r) with ([x] ++ r). rewrite app_assoc. apply drop_app_exact. lens. lia.
Qed.

(** ** Sorting *)
Lemma insert_perm x l : Permutation (insert_sorted x l) (x :: l).
Proof.
  induction l as [|y l IH]; cbn [insert_sorted]; [reflexivity|]. destruct (x <=? y); [reflexivity|].
  rewrite IH. apply perm_swap.
Qed.
Lemma sort_perm l : Permutation (sort_N l) l.
Proof. induction l as [|x l IH]; cbn [sort_N]; [reflexivity|]. rewrite insert_perm, IH. reflexivity. Qed.
Lemma insert_sorted_ok x l : Sorted N.le l -> Sorted N.le (insert_sorted x l).
Proof.
  induction l as [|y l IH]; intros H; cbn [insert_sorted]; [repeat constructor|].
  destruct (N.leb_spec x y) as [Hxy|Hxy]; [constructor; [exact H | constructor; exact Hxy]|].
  inversion H as [|? ? Hs Hh]; subst. constructor; [apply IH, Hs|].
  destruct l as [|z l]; cbn [insert_sorted]; [constructor; lia|].
  destruct (x <=? z); constructor; [lia|]. inversion Hh; assumption.
Qed.
Lemma sort_sorted l : Sorted N.le (sort_N l).
Proof. induction l as [|x l IH]; cbn [sort_N]; [constructor | apply insert_sorted_ok, IH]. Qed.
Lemma sorted_unique l : forall l', Sorted N.le l -> Sorted N.le l' -> Permutation l l' -> l = l'.
Proof.
  assert (T : Relations_1.Transitive N.le) by (intros a b c; apply N.le_trans).
  induction l as [|x l IH]; intros l' H H' P.
  - apply Permutation_nil in P. congruence.
  - destruct l' as [|y l']; [apply Permutation_sym, Permutation_nil in P; discriminate|].
    apply (Sorted_StronglySorted T) in H. apply (Sorted_StronglySorted T) in H'.
    inversion H as [|? ? Hs Hf]; subst. inversion H' as [|? ? Hs' Hf']; subst. rewrite Forall_forall in *.
    assert (Hx : x = y).
    { assert (Ix : In x (y :: l')) by (eapply Permutation_in; [exact P | left; reflexivity]).
      assert (Iy : In y (x :: l)) by (eapply Permutation_in; [symmetry; exact P | left; reflexivity]).
      destruct Ix as [->|Ix]; [reflexivity|]. destruct Iy as [->|Iy]; [reflexivity|].
      specialize (Hf y Iy). specialize (Hf' x Ix). lia. }
    subst y. f_equal. apply IH; [apply StronglySorted_Sorted, Hs | apply StronglySorted_Sorted, Hs' |].
    eapply Permutation_cons_inv, P.
Qed.
Lemma sort_eq l l' : Sorted N.le l -> Permutation l l' -> sort_N l' = l.
Proof. intros H P. apply sorted_unique; [apply sort_sorted | exact H |]. rewrite sort_perm. symmetry. exact P. Qed.

(** ** Encoding *)
Definition plane_enc (p : plane4) : bytes := le_enc 4 (pl_w p) ++ le_enc 4 (pl_x p) ++ le_enc 4 (pl_y p) ++ le_enc 4 (pl_z p).
Definition leaf_shape (t : shape) : bool := match t with Leaf _ _ _ => true | _ => false end.
Definition oflag (o : option shape) (present leaf : N) : N :=
  match o with None => 0 | Some x => present + if leaf_shape x then leaf else 0 end.
Fixpoint shape_enc (g1 : bool) (t : shape) : bytes :=
  match t with
  | Leaf bb i c => aabb_enc bb ++ le_enc 4 i ++ le_enc 4 c
  | Inner bb i c pl lod f b =>
      (aabb_enc bb ++ le_enc 4 i ++ le_enc 4 c ++ le_enc 1 (oflag f 1 4 + oflag b 2 8) ++ plane_enc pl ++
       (if g1 then le_enc 1 lod else [])) ++
      (match f with Some x => shape_enc g1 x | None => [] end) ++
      (match b with Some x => shape_enc g1 x | None => [] end)
  end.
Definition oenc g1 (o : option shape) : bytes := match o with Some x => shape_enc g1 x | None => [] end.
Lemma shape_enc_inner g1 bb i c pl lod f b : shape_enc g1 (Inner bb i c pl lod f b) =
  (aabb_enc bb ++ le_enc 4 i ++ le_enc 4 c ++ le_enc 1 (oflag f 1 4 + oflag b 2 8) ++ plane_enc pl ++
       (if g1 then le_enc 1 lod else [])) ++ oenc g1 f ++ oenc g1 b.
Proof. destruct f, b; reflexivity. Qed.

Fixpoint depth (t : shape) : nat :=
  match t with
  | Leaf _ _ _ => 1
  | Inner _ _ _ _ _ f b =>
      S (Nat.max (match f with Some x => depth x | None => 0 end) (match b with Some x => depth x | None => 0 end))
  end.
Definition odepth (o : option shape) : nat := match o with Some x => depth x | None => 0 end.
Lemma depth_inner bb i c pl lod f b : depth (Inner bb i c pl lod f b) = S (Nat.max (odepth f) (odepth b)).
Proof. destruct f, b; reflexivity. Qed.
Lemma len_aabb b : len (aabb_enc b) = 24.
Proof. unfold aabb_enc. rewrite !len_app, !len_le_enc. reflexivity. Qed.
Lemma len_plane p : len (plane_enc p) = 16.
Proof. unfold plane_enc. rewrite !len_app, !len_le_enc. reflexivity. Qed.
Lemma depth_len g1 t : N.of_nat (depth t) <= len (shape_enc g1 t).
Proof.
  induction t as [|bb i c pl lod f b Hf Hb] using shape_ind'.
  - cbn [depth shape_enc]. rewrite !len_app, len_aabb. lia.
  - rewrite depth_inner, shape_enc_inner, !len_app, len_aabb.
    assert (N.of_nat (odepth f) <= len (oenc g1 f)) by (destruct f; [exact Hf | discriminate]).
    assert (N.of_nat (odepth b) <= len (oenc g1 b)) by (destruct b; [exact Hb | discriminate]).
    lia.
Qed.
Lemma shape_len g1 t : len (shape_enc g1 t) <= 50 * size t.
Proof.
  induction t as [|bb i c pl lod f b Hf Hb] using shape_ind'.
  - cbn [size shape_enc]. rewrite !len_app, len_aabb, !len_le_enc. lia.
  - rewrite size_inner, shape_enc_inner, !len_app, len_aabb, len_plane, !len_le_enc.
    assert (len (oenc g1 f) <= 50 * osize f) by (destruct f; [exact Hf | discriminate]).
    assert (len (oenc g1 b) <= 50 * osize b) by (destruct b; [exact Hb | discriminate]).
    assert (len (if g1 then le_enc 1 lod else []) <= 1) by (destruct g1; [rewrite len_le_enc; reflexivity | discriminate]).
    lia.
Qed.

(** What the shape holds fits its fields. *)
Definition game_g1 (g : game) : bool := match g with G1 => true | G2 => false end.
Definition shape_fits (g : game) (t : shape) : Prop := Forall (node_ok g) (listed (-1) 0 t).
Lemma node_ok_any g t : forall p i p' i', Forall (node_ok g) (listed p i t) -> Forall (node_ok g) (listed p' i' t).
Proof.
  induction t as [|bb i c pl lod f b Hf Hb] using shape_ind'; intros p self p' self' H.
  - cbn [listed] in *. inversion H as [|? ? H1 _]; subst. constructor; [exact H1 | constructor].
  - rewrite listed_inner in *. inversion H as [|? ? H1 H2]; subst. constructor; [exact H1|].
    apply Forall_app in H2. destruct H2 as [H2 H3]. apply Forall_app. split.
    + destruct f; [eapply Hf, H2 | constructor].
    + destruct b; [eapply Hb, H3 | constructor].
Qed.

Lemma flag_bits f b : let x := oflag f 1 4 + oflag b 2 8 in
  x < 2 ^ 8 /\ N.testbit x 0 = (if f then true else false) /\ N.testbit x 1 = (if b then true else false) /\
  (forall y, f = Some y -> N.testbit x 2 = leaf_shape y) /\ (forall y, b = Some y -> N.testbit x 3 = leaf_shape y).
Proof.
  destruct f as [f|], b as [b|]; cbn [oflag]; repeat (match goal with |- context [leaf_shape ?x] => destruct (leaf_shape x) eqn:? end);
    (split; [reflexivity|]); (split; [reflexivity|]); (split; [reflexivity|]);
    split; intros y E; try discriminate; injection E as <-;
    repeat (match goal with H : leaf_shape _ = _ |- _ => try rewrite H; clear H end); reflexivity.
Qed.

Lemma parse_reads g t : forall fuel cap p nodes leaves,
  Forall (node_ok g) (listed p 0 t) -> (depth t <= fuel)%nat ->
  len nodes + size t <= cap -> len nodes + size t < 2 ^ 31 ->
  reads (parse_nodes fuel (game_g1 g) cap p (leaf_shape t) nodes leaves) (shape_enc (game_g1 g) t)
    (nodes ++ listed p (len nodes) t, leaves ++ leaves_of (len nodes) t).
Proof.
  induction t as [bb i c|bb i c pl lod f b Hf Hb] using shape_ind'; intros fuel cap p nodes leaves Hok Hd Hc Hn.
  - destruct fuel as [|fuel]; [cbn [depth] in Hd; lia|]. cbn [parse_nodes leaf_shape shape_enc].
    inversion Hok as [|? ? (_ & H1 & H2 & H3 & _) _]; subst. cbn [bn_bbox bn_index bn_count] in *.
    rsteps.
  - destruct fuel as [|fuel]; [rewrite depth_inner in Hd; lia|]. cbn [parse_nodes leaf_shape].
    rewrite shape_enc_inner, listed_inner, leaves_inner in *. rewrite size_inner in *. rewrite depth_inner in Hd.
    inversion Hok as [|? ? (H0 & H1 & H2 & H3 & H4) Hch]; subst. cbn [inner_node bn_bbox bn_index bn_count bn_plane bn_lod] in *.
    destruct (flag_bits f b) as (B0 & B1 & B2 & B3 & B4). cbv zeta in *.
    set (flags := oflag f 1 4 + oflag b 2 8) in *.
    destruct H0 as (P1 & P2 & P3 & P4). apply Forall_app in Hch. destruct Hch as [Hcf Hcb].
    rewrite <- !app_assoc. unfold plane_enc. rewrite <- !app_assoc.
    do 8 rstep.
    assert (Hself : sint 32 (u32 (len nodes)) = Z.of_N (len nodes)).
    { rewrite u32_small by (pows; lia). apply sint_small. pows. lia. }
    eapply reads_bind.
    { instantiate (1 := lod). destruct g; cbn [game_g1].
      - apply reads_ubyte, H4.
      - rewrite H4. apply reads_ret. }
    cbv beta zeta. set (n1 := mkNode (mkPlane _ _ _ _) bb i c (-1) (-1) p lod).
    assert (Elen1 : len (nodes ++ [n1]) = len nodes + 1) by (lens; lia).
    set (n2 := mkNode pl bb i c (match f with Some _ => Z.of_N (len nodes + 1) | None => -1 end)%Z (-1) p lod).
    eapply reads_bind.
    { instantiate (1 := (nodes ++ n2 :: olisted (Z.of_N (len nodes)) (len nodes + 1) f, leaves ++ oleaves (len nodes + 1) f)).
      rewrite B1. destruct f as [f|].
      - rewrite (B3 f eq_refl), Hself, set_nth_mid, Elen1.
        replace (sint 32 (u32 (len nodes + 1))) with (Z.of_N (len nodes + 1))
          by (rewrite u32_small by (pows; lia); symmetry; apply sint_small; pows; lia).
        change (with_front (Z.of_N (len nodes + 1)) n1) with
          (mkNode (mkPlane (pl_w pl) (pl_x pl) (pl_y pl) (pl_z pl)) bb i c (Z.of_N (len nodes + 1)) (-1) p lod).
        assert (E2 : mkNode (mkPlane (pl_w pl) (pl_x pl) (pl_y pl) (pl_z pl)) bb i c (Z.of_N (len nodes + 1)) (-1) p lod = n2)
          by (destruct pl; reflexivity).
        rewrite E2. cbn [olisted oleaves osize oshape odepth oenc] in *.
        assert (El : len (nodes ++ [n2]) = len nodes + 1) by (lens; lia).
        eapply reads_cast; [apply Hf| |]; rewrite ?El; [eapply node_ok_any, Hcf| lia | lia | lia | reflexivity |].
        cbn [oenc]. rewrite <- app_assoc. reflexivity.
      - cbn [oenc olisted oleaves]. apply reads_ret_eq. f_equal; [|rewrite app_nil_r; reflexivity].
        f_equal. unfold n1, n2. destruct pl; reflexivity. }
    cbv beta. rewrite B2. destruct b as [b|].
    + cbn [fst snd]. rewrite (B4 b eq_refl), Hself.
      assert (El : len (nodes ++ n2 :: olisted (Z.of_N (len nodes)) (len nodes + 1) f) = len nodes + 1 + osize f)
        by (lens; rewrite len_olisted; lia).
      rewrite El.
      replace (cap <? len nodes + 1 + osize f) with false by (symmetry; apply N.ltb_ge; lia).
      rewrite andb_false_r. rewrite set_nth_mid.
      replace (sint 32 (u32 (len nodes + 1 + osize f))) with (Z.of_N (len nodes + 1 + osize f))
        by (rewrite u32_small by (pows; cbn [osize] in *; lia); symmetry; apply sint_small; pows; cbn [osize] in *; lia).
      cbn [olisted oleaves oenc oshape odepth] in *. change (osize (Some b)) with (size b) in *.
      assert (E3 : with_back (Z.of_N (len nodes + 1 + osize f)) n2 = inner_node (len nodes) p bb i c pl lod f (Some b)) by reflexivity.
      rewrite E3.
      set (nn := nodes ++ inner_node (len nodes) p bb i c pl lod f (Some b) :: olisted (Z.of_N (len nodes)) (len nodes + 1) f).
      assert (En : len nn = len nodes + 1 + osize f) by (unfold nn; lens; rewrite len_olisted; lia).
      eapply reads_cast; [apply Hb| |]; rewrite ?En; [eapply node_ok_any, Hcb | lia | lia | lia | reflexivity |].
      unfold nn. rewrite <- !app_assoc. reflexivity.
    + cbn [oenc]. apply reads_ret_eq. cbn [olisted oleaves]. rewrite !app_nil_r. reflexivity.
Qed.

(** ** Writing *)
Lemma iterM_app {A} (f : A -> wr unit) l1 l2 s : iterM f (l1 ++ l2) s = (iterM f l1 ;; iterM f l2)%m s.
Proof.
  revert s. induction l1 as [|x l1 IH]; intros s; [reflexivity|]. cbn [app iterM]. unfold bind in *.
  destruct (f x s) as [[[] s1]| | |]; try reflexivity. apply IH.
Qed.
Lemma writes_iter_app {A} (f : A -> wr unit) l1 l2 b1 b2 :
  writes (iterM f l1) b1 -> writes (iterM f l2) b2 -> writes (iterM f (l1 ++ l2)) (b1 ++ b2).
Proof. intros H1 H2 st Hp Hl. rewrite iterM_app. apply (writes_seq _ _ _ _ H1 H2 st Hp Hl). Qed.

Lemma listed_hd t p i : exists n l, listed p i t = n :: l /\ (proper t -> is_leaf n = leaf_shape t).
Proof.
  destruct t as [bb j c|bb j c pl lod f b].
  - cbn [listed]. eexists _, _. split; [reflexivity|]. reflexivity.
  - rewrite listed_inner. eexists _, _. split; [reflexivity|]. intros (H & _). unfold is_leaf, inner_node. cbn [bn_front bn_back leaf_shape].
    destruct f, b; try reflexivity; try lia. destruct H; congruence.
Qed.

Lemma child_flag_at all pre rest post t p i (a b : N) : all = pre ++ (listed p i t ++ rest) ++ post ->
  len pre = i -> len all < 2 ^ 31 -> proper t -> child_flag all (Z.of_N i) a b = Ret (a + if leaf_shape t then b else 0).
Proof.
  intros E Hi Hl Hp. unfold child_flag. destruct (Z.eqb_spec (Z.of_N i) (-1)) as [Hx|_]; [lia|].
  destruct (listed_hd t p i) as (n & l & En & Hn). rewrite En in E. cbn [app] in E.
  assert (Hlt : i < len all) by (rewrite E; lens; lia).
  replace (uint 32 (Z.of_N i)) with i by (unfold uint; pows; rewrite Z.mod_small by lia; lia).
  rewrite nth_N_error, E, nth_error_app2 by (unfold len in Hi; lia).
  replace (N.to_nat i - length pre)%nat with 0%nat by (unfold len in Hi; lia). cbn [nth_error]. rewrite (Hn Hp). reflexivity.
Qed.

Lemma writes_lift {A} (o : outcome A) (a : A) (k : A -> wr unit) bs : o = Ret a -> writes (k a) bs -> writes (bind (lift o) k) bs.
Proof. intros -> H. exact H. Qed.

Lemma nodes_write g all t : forall p self pre post, all = pre ++ listed p self t ++ post -> len pre = self ->
  len all < 2 ^ 31 -> proper t ->
  writes (iterM (node_save (game_g1 g) all) (listed p self t)) (shape_enc (game_g1 g) t).
Proof.
  induction t as [bb i c|bb i c pl lod f b Hf Hb] using shape_ind'; intros p self pre post E Hs Hl Hp.
  - cbn [listed iterM shape_enc]. rewrite <- (app_nil_r (aabb_enc bb ++ _)). apply writes_seq; [|apply writes_ret].
    unfold node_save. cbn [bn_bbox bn_index bn_count].
    apply writes_seq; [apply aabb_writes|]. apply writes_seq; [apply writes_uint|].
    rewrite <- (app_nil_r (le_enc 4 c)). apply writes_seq; [apply writes_uint|]. apply writes_ret.
  - rewrite listed_inner, shape_enc_inner in *. cbn [iterM].
    set (n := inner_node self p bb i c pl lod f b) in *.
    set (lf := olisted (Z.of_N self) (self + 1) f) in *. set (lb := olisted (Z.of_N self) (self + 1 + osize f) b) in *.
    destruct Hp as (Hne & Hpf & Hpb).
    apply writes_seq.
    + unfold node_save. change (bn_bbox n) with bb. change (bn_index n) with i. change (bn_count n) with c.
      assert (Hleaf : is_leaf n = false).
      { unfold is_leaf, n, inner_node. cbn [bn_front bn_back]. destruct f, b; try lia. destruct Hne; congruence. }
      rewrite Hleaf.
      apply writes_seq; [apply aabb_writes|]. apply writes_seq; [apply writes_uint|]. apply writes_seq; [apply writes_uint|].
      change (bn_plane n) with pl. change (bn_lod n) with lod.
      apply (writes_lift _ (oflag f 1 4)).
      { unfold n, inner_node; cbn [bn_front]. destruct f as [f|]; [|reflexivity].
        unfold lf in E. cbn [olisted] in E.
        refine (child_flag_at all (pre ++ [n]) lb post f (Z.of_N self) (self + 1) 1 4 _ _ Hl Hpf); [|lens; lia].
        rewrite E, <- !app_assoc. cbn [app]. rewrite <- ?app_assoc. reflexivity. }
      apply (writes_lift _ (oflag b 2 8)).
      { unfold n, inner_node; cbn [bn_back]. destruct b as [b|]; [|reflexivity].
        unfold lb in E. cbn [olisted] in E.
        refine (child_flag_at all (pre ++ [n] ++ lf) [] post b (Z.of_N self) (self + 1 + osize f) 2 8 _ _ Hl Hpb).
        - rewrite E, app_nil_r. cbn [app]. rewrite <- ?app_assoc. cbn [app]. rewrite <- ?app_assoc. reflexivity.
        - unfold lf. lens. rewrite len_olisted. lia. }
      unfold plane_enc. rewrite <- !app_assoc.
      apply writes_seq; [apply writes_ubyte|]. do 4 (apply writes_seq; [apply writes_float|]).
      destruct g; cbn [game_g1]; [apply writes_ubyte | apply writes_ret].
    + apply writes_iter_app.
      * destruct f as [f|]; [|apply writes_ret].
        refine (Hf (Z.of_N self) (self + 1) (pre ++ [n]) (lb ++ post) _ _ Hl Hpf); [|lens; lia].
        rewrite E. unfold lf. cbn [olisted app]. rewrite <- !app_assoc. cbn [app]. rewrite <- ?app_assoc. reflexivity.
      * destruct b as [b|]; [|apply writes_ret].
        refine (Hb (Z.of_N self) (self + 1 + osize f) (pre ++ [n] ++ lf) post _ _ Hl Hpb).
        -- rewrite E. unfold lb. cbn [olisted app]. rewrite <- ?app_assoc. cbn [app]. rewrite <- ?app_assoc. reflexivity.
        -- unfold lf. lens. rewrite len_olisted. lia.
Qed.

(** ** The polygons of the leaves *)
Lemma node_polygons_ok polys : len polys < 2 ^ 32 -> forall n start, start + N.of_nat n <= len polys ->
  node_polygons polys start n = Ret (take (N.of_nat n) (drop start polys)).
Proof.
  intros Hl. induction n as [|n IH]; intros start Hs; cbn [node_polygons].
  - change (N.of_nat 0) with 0. rewrite take_0. reflexivity.
  - rewrite u32_small by (pows; lia).
    destruct (nth_N_Some polys start) as [x Ex]; [lia|]. rewrite Ex. rewrite IH by lia. cbn [obind].
    f_equal. rewrite nth_N_error in Ex. apply nth_error_split in Ex. destruct Ex as (l1 & l2 & -> & Hl1).
    rewrite (drop_app_exact start l1) by (unfold len; lia).
    change (x :: l2) with ([x] ++ l2). rewrite app_assoc, drop_app_exact by (unfold len; rewrite app_length; cbn [length]; lia).
    rewrite take_app_r by (lens; lia). cbn [app]. f_equal. f_equal. lens. lia.
Qed.
Lemma gather_ok t : len (bt_polygons t) < 2 ^ 32 -> forall leaves,
  Forall (fun i => i < len (bt_nodes t)) leaves ->
  Forall (fun n => bn_index n + bn_count n <= len (bt_polygons t))
    (flat_map (fun i => match nth_N (bt_nodes t) i with Some n => [n] | None => [] end) leaves) ->
  gather (bt_polygons t) (bt_nodes t) leaves =
  Ret (flat_map (polygons_of t) (flat_map (fun i => match nth_N (bt_nodes t) i with Some n => [n] | None => [] end) leaves)).
Proof.
  intros Hl. induction leaves as [|i leaves IH]; intros Hi Hp; [reflexivity|].
  inversion Hi as [|? ? Hi1 Hi2]; subst. cbn [flat_map gather] in *. apply Forall_app in Hp. destruct Hp as [Hp1 Hp2].
  destruct (nth_N_Some (bt_nodes t) i Hi1) as [n En]. rewrite En in *. inversion Hp1 as [|? ? Hn _]; subst.
  rewrite node_polygons_ok by (lia || (rewrite Nnat.N2Nat.id; exact Hn)). rewrite (IH Hi2 Hp2). cbn [obind app flat_map].
  rewrite Nnat.N2Nat.id. reflexivity.
Qed.
Lemma leaves_bound t : forall i j, In j (leaves_of i t) -> i <= j < i + size t.
Proof.
  induction t as [bb k c|bb k c pl lod f b Hf Hb] using shape_ind'; intros i j H.
  - destruct H as [<-|[]]. cbn. lia.
  - rewrite leaves_inner in H. rewrite size_inner. apply in_app_or in H. destruct H as [H|H].
    + destruct f as [f|]; [|destruct H]. specialize (Hf _ _ H). cbn [osize]. lia.
    + destruct b as [b|]; [|destruct H]. specialize (Hb _ _ H). cbn [osize] in *. lia.
Qed.
Lemma len_leaves t : forall i, len (leaves_of i t) <= size t.
Proof.
  induction t as [bb k c|bb k c pl lod f b Hf Hb] using shape_ind'; intros i; [reflexivity|].
  rewrite leaves_inner, size_inner, len_app.
  assert (len (oleaves (i + 1) f) <= osize f) by (destruct f; [apply Hf | discriminate]).
  assert (len (oleaves (i + 1 + osize f) b) <= osize b) by (destruct b; [apply Hb | discriminate]). lia.
Qed.

(** ** The file *)
Definition uints_enc (l : list N) : bytes := le_enc 4 (len l) ++ flat_map (le_enc 4) l.
Definition sector_enc (s : sector) : bytes :=
  (se_name s ++ [x0a]) ++ le_enc 4 (len (se_nodes s)) ++ le_enc 4 (len (se_portals s)) ++
  flat_map (le_enc 4) (se_nodes s) ++ flat_map (le_enc 4) (se_portals s).
Definition bsp_chunks (g : game) (t : bsp) (sh : shape) : list chunk :=
  [(B_HEADER, le_enc 2 2 ++ le_enc 4 (bt_mode t));
   (B_POLYGONS, uints_enc (bt_polygons t));
   (B_TREE, le_enc 4 (len (bt_nodes t)) ++ le_enc 4 (len (bt_leaves t)) ++ shape_enc (game_g1 g) sh);
   (B_LIGHT, flat_map v3_enc (bt_lights t));
   (B_OUTDOORS, le_enc 4 (len (bt_sectors t)) ++ flat_map sector_enc (bt_sectors t) ++ uints_enc (bt_portals t));
   (B_END, le_enc 1 66)].

Lemma len_flat_const {A} (f : A -> bytes) k l : (forall x, len (f x) = k) -> len (flat_map f l) = k * len l.
Proof.
  intros H. induction l as [|x l IH]; [change (0 = k * 0); lia|].
  cbn [flat_map]. rewrite len_app, len_cons, H, IH. lia.
Qed.
Lemma len_uints l : len (flat_map (le_enc 4) l) = 4 * len l.
Proof. apply len_flat_const. intros. apply len_le_enc. Qed.
Lemma len_v3 v : len (v3_enc v) = 12.
Proof. unfold v3_enc. rewrite !len_app, !len_le_enc. reflexivity. Qed.
Lemma len_sectors l : len (flat_map sector_enc l) = total (map sector_size l).
Proof.
  induction l as [|s l IH]; [reflexivity|]. cbn [flat_map map total]. rewrite len_app, IH. f_equal.
  unfold sector_enc, sector_size. rewrite !len_app, !len_uints, !len_le_enc. change (len [x0a]) with 1. lia.
Qed.
Lemma len_total l : len l <= total (map sector_size l).
Proof. induction l as [|s l IH]; [reflexivity|]. cbn [map total]. rewrite len_cons. unfold sector_size at 1. lia. Qed.

Section BspFile.
Variables (g : game) (t : bsp) (sh : shape).
Hypothesis (Hp : proper sh) (En : bt_nodes t = listed (-1) 0 sh) (Ev : bt_leaves t = leaves_of 0 sh).
Hypothesis Hok : bsp_ok g t.

Lemma bsp_fits : Forall chunk_ok (bsp_chunks g t sh).
Proof.
  destruct Hok as (H1 & H2 & H3 & _ & H5 & H6 & H7 & H8 & H9 & H10 & H11 & H12 & H13 & H14 & H15).
  assert (Hsz : size sh < 2 ^ 24) by (rewrite En, len_listed in H6; exact H6).
  pose proof (shape_len (game_g1 g) sh). pose proof (len_leaves sh 0).
  unfold bsp_chunks. repeat apply Forall_cons; try apply Forall_nil; split; cbn [fst snd]; try reflexivity.
  - unfold uints_enc. rewrite len_app, len_uints, len_le_enc. pows. lia.
  - rewrite !len_app, !len_le_enc. pows. lia.
  - rewrite (len_flat_const v3_enc 12) by apply len_v3. rewrite H10, Ev. pows. lia.
  - unfold uints_enc. rewrite !len_app, len_sectors, len_uints, !len_le_enc. pows. lia.
Qed.

Lemma bsp_writes : writes (bsp_save g t) (flat_map chunk_bytes (bsp_chunks g t sh)).
Proof.
  pose proof bsp_fits as F. unfold bsp_chunks in *.
  inversion F as [|? ? [_ F1] G1]; subst. inversion G1 as [|? ? [_ F2] G2]; subst. inversion G2 as [|? ? [_ F3] G3]; subst.
  inversion G3 as [|? ? [_ F4] G4]; subst. inversion G4 as [|? ? [_ F5] G5]; subst. cbn [fst snd] in *. clear F G1 G2 G3 G4 G5.
  destruct Hok as (H1 & H2 & H3 & _ & H5 & H6 & H7 & H8 & H9 & H10 & H11 & H12 & H13 & H14 & H15).
  pose proof (len_total (bt_sectors t)) as Hst. pose proof (len_leaves sh 0) as Hll.
  assert (Hsz : size sh < 2 ^ 24) by (rewrite En, len_listed in H6; exact H6).
  unfold bsp_save. cbn [flat_map]. rewrite app_nil_r.
  rewrite !u32_small by (rewrite ?Ev; pows; lia).
  apply writes_seq; [apply write_chunk_writes; [|exact F1]|].
  { apply writes_seq; [apply writes_ushort | apply writes_uint]. }
  apply writes_seq; [apply write_chunk_writes; [|exact F2]|].
  { apply writes_seq; [apply writes_uint | apply writes_iter; intros; apply writes_uint]. }
  apply writes_seq; [apply write_chunk_writes; [|exact F3]|].
  { apply writes_seq; [apply writes_uint|]. apply writes_seq; [apply writes_uint|].
    change (match g with G1 => true | G2 => false end) with (game_g1 g).
    rewrite En at 2. apply (nodes_write g (bt_nodes t) sh (-1) 0 [] []);
      [rewrite app_nil_r; exact En | reflexivity | pows; lia | exact Hp]. }
  apply writes_seq; [apply write_chunk_writes; [|exact F4]|].
  { apply writes_iter. intros. apply writes_vec3. }
  apply writes_seq; [apply write_chunk_writes; [|exact F5]|].
  { apply writes_seq; [apply writes_uint|]. apply writes_seq.
    - apply writes_iter. intros s Hs. rewrite Forall_forall in H12. destruct (H12 s Hs) as (A1 & A2 & A3 & A4 & A5).
      unfold sector_save, sector_enc. rewrite !u32_small by assumption.
      apply writes_seq; [apply writes_line|]. apply writes_seq; [apply writes_uint|]. apply writes_seq; [apply writes_uint|].
      apply writes_seq; apply writes_iter; intros; apply writes_uint.
    - apply writes_seq; [apply writes_uint | apply writes_iter; intros; apply writes_uint]. }
  apply write_chunk_writes; [apply writes_ubyte | reflexivity].
Qed.

Lemma reads_uints l n : n = len l -> Forall f32 l -> reads (repM (N.to_nat n) read_uint) (flat_map (le_enc 4) l) l.
Proof.
  intros Hn H. rewrite Forall_forall in H. apply reads_count; [exact Hn|]. intros x Hx. apply reads_uint, H, Hx.
Qed.

Lemma sector_reads s : sector_ok s -> reads sector_load (sector_enc s) s.
Proof.
  intros (A1 & A2 & A3 & A4 & A5). unfold sector_load, sector_enc.
  eapply reads_bind; [apply reads_line_nows; [exact A1 | reflexivity]|].
  eapply reads_bind; [apply reads_uint, A2|]. eapply reads_bind; [apply reads_uint, A3|]. cbv beta.
  eapply reads_bind; [apply reads_uints; [reflexivity | exact A4]|]. cbv beta.
  rewrite <- (app_nil_r (flat_map _ _)).
  eapply reads_bind; [apply reads_uints; [reflexivity | exact A5]|]. apply reads_ret_eq. destruct s; reflexivity.
Qed.

Lemma tree_reads n0 l0 : n0 = len (bt_nodes t) -> 
  forall nodes leaves, nodes = [] -> leaves = l0 -> l0 = [] ->
  reads (fun s => parse_nodes (S (S (N.to_nat (len (rdata s) - rpos s)))) (game_g1 g)
                 (N.max n0 (len nodes)) (-1) (n0 =? 1) nodes leaves s)
        (shape_enc (game_g1 g) sh) (bt_nodes t, bt_leaves t).
Proof.
  intros Hn nodes leaves -> -> -> pre post HP Hl.
  destruct Hok as (_ & _ & _ & _ & H5 & H6 & _).
  cbn [rdata rpos].
  assert (Esz : n0 = size sh) by (rewrite Hn, En, len_listed; reflexivity).
  assert (El : (n0 =? 1) = leaf_shape sh).
  { rewrite Esz. destruct sh as [|bb i c pl lod f b]; [reflexivity|]. rewrite size_inner. cbn [leaf_shape].
    apply N.eqb_neq. destruct Hp as ([Hx|Hx] & _).
    - destruct f as [f|]; [|congruence]. pose proof (size_pos f). cbn [osize]. lia.
    - destruct b as [b|]; [|congruence]. pose proof (size_pos b). cbn [osize]. lia. }
  rewrite El. rewrite En, Ev. rewrite En, len_listed in H6.
  refine (parse_reads g sh _ _ (-1) [] [] _ _ _ _ pre post HP Hl).
  - eapply node_ok_any. rewrite <- En. exact H5.
  - pose proof (depth_len (game_g1 g) sh). assert (len (pre ++ shape_enc (game_g1 g) sh ++ post) - len pre >= len (shape_enc (game_g1 g) sh)) by (lens; lia). lia.
  - rewrite len_nil. lia.
  - rewrite len_nil. pows. lia.
Qed.

Lemma bsp_reads m : reads (bsp_load (bsp_new m) (game_version g)) (flat_map chunk_bytes (bsp_chunks g t sh)) t.
Proof.
  pose proof bsp_fits as F. apply read_chunked_run_left.
  replace (game_version g =? version_g1) with (game_g1 g) by (destruct g; reflexivity).
  unfold bsp_chunks in *.
  inversion F as [|? ? F1 G1]; subst. inversion G1 as [|? ? F2 G2]; subst. inversion G2 as [|? ? F3 G3]; subst.
  inversion G3 as [|? ? F4 G4]; subst. inversion G4 as [|? ? F5 G5]; subst. inversion G5 as [|? ? F6 _]; subst.
  clear F G1 G2 G3 G4 G5.
  pose proof Hok as (H1 & H2 & H3 & _ & H5 & H6 & H7 & H8 & H9 & H10 & H11 & H12 & H13 & H14 & H15).
  pose proof (len_total (bt_sectors t)) as Hst. pose proof (len_leaves sh 0) as Hll.
  assert (Hsz : size sh < 2 ^ 24) by (rewrite En, len_listed in H6; exact H6).
  eapply run_more; [exact F1 | apply reads_part_of | ]; cbn [fst snd].
  { unfold bsp_chunk. change (B_HEADER =? B_HEADER) with true. cbv iota.
    eapply reads_bind; [apply reads_ushort; reflexivity|].
    rewrite <- (app_nil_r (le_enc 4 _)). eapply reads_bind; [apply reads_uint, H1|]. apply reads_ret. }
  eapply run_more; [exact F2 | apply reads_part_of | ]; cbn [fst snd].
  { unfold bsp_chunk. change (B_POLYGONS =? B_HEADER) with false. change (B_POLYGONS =? B_POLYGONS) with true. cbv iota.
    unfold uints_enc. eapply reads_bind; [apply reads_uint; pows; lia|]. cbv beta.
    rewrite <- (app_nil_r (flat_map _ _)). eapply reads_bind; [apply reads_uints; [reflexivity | exact H2]|]. apply reads_ret. }
  cbn [bt_mode bt_polygons bt_leaf_polygons bt_lights bt_sectors bt_portals bt_nodes bt_leaves bsp_new].
  eapply run_more; [exact F3 | apply reads_part_of | ]; cbn [fst snd].
  { unfold bsp_chunk. change (B_TREE =? B_HEADER) with false. change (B_TREE =? B_POLYGONS) with false.
    change (B_TREE =? B_TREE) with true. cbv iota.
    eapply reads_bind; [apply reads_uint; pows; lia|]. eapply reads_bind; [apply reads_uint; rewrite Ev; pows; lia|]. cbv beta.
    cbn [bt_mode bt_polygons bt_leaf_polygons bt_lights bt_sectors bt_portals bt_nodes bt_leaves].
    rewrite <- (app_nil_r (shape_enc _ _)).
    eapply reads_bind; [apply (tree_reads _ []); reflexivity|]. cbv beta. cbn [fst snd].
    rewrite gather_ok.
    2:{ pows. lia. }
    2:{ rewrite Ev, En, len_listed. apply Forall_forall. intros i Hi. apply leaves_bound in Hi. lia. }
    2:{ exact H7. }
    intros pre post HP Hl. unfold lift, bind, ret. rewrite len_nil, N.add_0_r. reflexivity. }
  cbn [bt_mode bt_polygons bt_leaf_polygons bt_lights bt_sectors bt_portals bt_nodes bt_leaves].
  eapply run_more; [exact F4 | apply reads_part_of | ]; cbn [fst snd].
  { unfold bsp_chunk. change (B_LIGHT =? B_HEADER) with false. change (B_LIGHT =? B_POLYGONS) with false.
    change (B_LIGHT =? B_TREE) with false. change (B_LIGHT =? B_LIGHT) with true. cbv iota.
    cbn [bt_mode bt_polygons bt_leaf_polygons bt_lights bt_sectors bt_portals bt_nodes bt_leaves].
    rewrite <- (app_nil_r (flat_map v3_enc _)). rewrite Forall_forall in H11.
    eapply reads_bind; [apply reads_repM; [unfold len in H10; lia | intros v Hv; apply vec3_reads, H11, Hv]|]. apply reads_ret. }
  cbn [bt_mode bt_polygons bt_leaf_polygons bt_lights bt_sectors bt_portals bt_nodes bt_leaves].
  eapply run_more; [exact F5 | apply reads_part_of | ]; cbn [fst snd].
  { unfold bsp_chunk. change (B_OUTDOORS =? B_HEADER) with false. change (B_OUTDOORS =? B_POLYGONS) with false.
    change (B_OUTDOORS =? B_TREE) with false. change (B_OUTDOORS =? B_LIGHT) with false. change (B_OUTDOORS =? B_OUTDOORS) with true. cbv iota.
    cbn [bt_mode bt_polygons bt_leaf_polygons bt_lights bt_sectors bt_portals bt_nodes bt_leaves].
    eapply reads_bind; [apply reads_uint; pows; lia|]. cbv beta. rewrite Forall_forall in H12.
    eapply reads_bind; [apply reads_count; [reflexivity | intros s Hs; apply sector_reads, H12, Hs]|]. cbv beta.
    unfold uints_enc. eapply reads_bind; [apply reads_uint; pows; lia|]. cbv beta.
    rewrite <- (app_nil_r (flat_map (le_enc 4) _)). eapply reads_bind; [apply reads_uints; [reflexivity | exact H14]|]. apply reads_ret. }
  apply run_last; [exact F6|]. cbn [fst snd]. apply reads_part_of.
  unfold bsp_chunk. change (B_END =? B_HEADER) with false. change (B_END =? B_POLYGONS) with false.
  change (B_END =? B_TREE) with false. change (B_END =? B_LIGHT) with false. change (B_END =? B_OUTDOORS) with false.
  change (B_END =? B_END) with true. cbv iota.
  rewrite <- (app_nil_r (le_enc 1 66)). eapply reads_bind; [apply reads_ubyte; reflexivity|].
  apply reads_ret_eq. cbn [app bt_mode bt_polygons bt_leaf_polygons bt_lights bt_sectors bt_portals bt_nodes bt_leaves].
  rewrite (sort_eq (bt_leaf_polygons t)) by assumption. destruct t; reflexivity.
Qed.
End BspFile.

Lemma bsp_round_trip g m : round_trips (bsp_save g) (bsp_load (bsp_new m) (game_version g)) (bsp_ok g).
Proof.
  intros t H. pose proof H as (_ & _ & _ & (sh & Hp & En & Ev) & _). exists (flat_map chunk_bytes (bsp_chunks g t sh)).
  split; [apply bsp_writes; assumption | apply bsp_reads; assumption].
Qed.

(** ** Loading arbitrary bytes *)
Lemma len_set_nth {A} (l : list A) i f : len (set_nth l i f) = len l.
Proof.
  unfold set_nth. destruct (nth_N l i) eqn:E; [|reflexivity]. apply nth_N_lt in E.
  rewrite len_app, len_cons, len_take, len_drop. lia.
Qed.

Lemma parse_grows : forall fuel g1 cap p leaf nodes leaves s r s',
  parse_nodes fuel g1 cap p leaf nodes leaves s = Ret (r, s') -> len nodes < len (fst r).
Proof.
  induction fuel as [|fuel IH]; intros g1 cap p leaf nodes leaves s r s' E; [discriminate|]. cbn [parse_nodes] in E.
  peel E bb s1 E1. peel E pi s2 E2. peel E pc s3 E3. destruct leaf.
  { injection E as <- _. cbn [fst]. lens. lia. }
  peel E fl s4 E4. peel E w s5 E5. peel E x s6 E6. peel E y s7 E7. peel E z s8 E8. peel E lod s9 E9. cbv zeta in E.
  peel E r1 s10 E10.
  assert (G : len nodes < len (fst r1)).
  { destruct (N.testbit fl 0).
    - apply IH in E10. rewrite len_set_nth in E10. revert E10. lens. lia.
    - injection E10 as <- _. cbn [fst]. lens. lia. }
  destruct (N.testbit fl 1).
  - match type of E with (if ?b then _ else _) _ = _ => destruct b; [discriminate|] end.
    apply IH in E. rewrite len_set_nth in E. lia.
  - injection E as <- _. exact G.
Qed.

Lemma parse_shape : forall fuel g1 cap p leaf nodes leaves s r s',
  parse_nodes fuel g1 cap p leaf nodes leaves s = Ret (r, s') -> len (fst r) < 2 ^ 31 ->
  exists sh, r = (nodes ++ listed p (len nodes) sh, leaves ++ leaves_of (len nodes) sh) /\ leaf_shape sh = leaf.
Proof.
  induction fuel as [|fuel IH]; intros g1 cap p leaf nodes leaves s r s' E Hl; [discriminate|]. cbn [parse_nodes] in E.
  peel E bb s1 E1. peel E pi s2 E2. peel E pc s3 E3. destruct leaf.
  { injection E as <- _. exists (Leaf bb pi pc). split; reflexivity. }
  peel E fl s4 E4. peel E w s5 E5. peel E x s6 E6. peel E y s7 E7. peel E z s8 E8. peel E lod s9 E9. cbv zeta in E.
  set (n1 := mkNode (mkPlane w x y z) bb pi pc (-1) (-1) p lod) in *.
  assert (Elen1 : len (nodes ++ [n1]) = len nodes + 1) by (lens; lia).
  peel E r1 s10 E10.
  assert (Hr1 : len (fst r1) < 2 ^ 31).
  { destruct (N.testbit fl 1); [|injection E as <- _; exact Hl].
    match type of E with (if ?b then _ else _) _ = _ => destruct b; [discriminate|] end.
    apply parse_grows in E. rewrite len_set_nth in E. lia. }
  assert (G : exists f, r1 = (nodes ++ mkNode (mkPlane w x y z) bb pi pc
                 (match f with Some _ => Z.of_N (len nodes + 1) | None => -1 end)%Z (-1) p lod ::
                 olisted (Z.of_N (len nodes)) (len nodes + 1) f, leaves ++ oleaves (len nodes + 1) f)).
  { destruct (N.testbit fl 0).
    - pose proof (parse_grows _ _ _ _ _ _ _ _ _ _ E10) as Hg. rewrite len_set_nth, Elen1 in Hg.
      destruct (IH _ _ _ _ _ _ _ _ _ E10 Hr1) as (f & -> & _). rewrite len_set_nth, Elen1. rewrite set_nth_mid.
      exists (Some f). cbn [olisted oleaves].
      replace (sint 32 (u32 (len nodes))) with (Z.of_N (len nodes))
        by (rewrite u32_small by (pows; lia); symmetry; apply sint_small; pows; lia).
      replace (sint 32 (u32 (len nodes + 1))) with (Z.of_N (len nodes + 1))
        by (rewrite u32_small by (pows; lia); symmetry; apply sint_small; pows; lia).
      rewrite <- app_assoc. reflexivity.
    - injection E10 as <- _. exists None. cbn [olisted oleaves]. rewrite app_nil_r. reflexivity. }
  destruct G as (f & ->). cbn [fst snd] in *.
  set (n2 := mkNode (mkPlane w x y z) bb pi pc (match f with Some _ => Z.of_N (len nodes + 1) | None => -1 end)%Z (-1) p lod) in *.
  assert (El : len (nodes ++ n2 :: olisted (Z.of_N (len nodes)) (len nodes + 1) f) = len nodes + 1 + osize f)
    by (lens; rewrite len_olisted; lia).
  destruct (N.testbit fl 1).
  - match type of E with (if ?b then _ else _) _ = _ => destruct b; [discriminate|] end.
    destruct (IH _ _ _ _ _ _ _ _ _ E Hl) as (b & -> & _). cbn [fst] in *. rewrite len_set_nth, El, set_nth_mid in *.
    exists (Inner bb pi pc (mkPlane w x y z) lod f (Some b)). rewrite listed_inner, leaves_inner. cbn [olisted oleaves].
    replace (sint 32 (u32 (len nodes))) with (Z.of_N (len nodes))
      by (rewrite u32_small by (pows; lia); symmetry; apply sint_small; pows; lia).
    replace (sint 32 (u32 (len nodes + 1 + osize f))) with (Z.of_N (len nodes + 1 + osize f))
      by (rewrite u32_small by (pows; lia); symmetry; apply sint_small; pows; lia).
    split; [|reflexivity]. rewrite <- !app_assoc. reflexivity.
  - injection E as <- _. exists (Inner bb pi pc (mkPlane w x y z) lod f None). rewrite listed_inner, leaves_inner.
    cbn [olisted oleaves]. rewrite !app_nil_r. split; reflexivity.
Qed.

Lemma forest_snoc ts t : forall i, forest_listed i (ts ++ [t]) =
  forest_listed i ts ++ listed (-1) (i + len (forest_listed i ts)) t /\
  forest_leaves i (ts ++ [t]) = forest_leaves i ts ++ leaves_of (i + len (forest_listed i ts)) t.
Proof.
  induction ts as [|u ts IH]; intros i; cbn [app forest_listed forest_leaves].
  - rewrite !app_nil_r, len_nil, N.add_0_r. split; reflexivity.
  - destruct (IH (i + size u)) as [E1 E2]. rewrite E1, E2, len_app, len_listed, !N.add_assoc, !app_assoc. split; reflexivity.
Qed.

Lemma read_chunked_inv {A} (cb : N -> A -> rd (bool * A)) (P : A -> Prop) :
  (forall ty a s b a' s', P a -> cb ty a s = Ret ((b, a'), s') -> P a') ->
  forall fuel a s a' s', P a -> read_chunked fuel cb a s = Ret (a', s') -> P a'.
Proof.
  intros H. induction fuel as [|fuel IH]; intros a s a' s' Ha E; [discriminate|]. cbn [read_chunked] in E.
  peel E ty s1 E1. peel E sz s2 E2. peel E here s3 E3. peel E r s4 E4. destruct r as [b a1]. cbv zeta in E.
  assert (Ha1 : P a1) by (eapply H; [exact Ha | exact E4]). cbn [fst snd] in E.
  peel E u s5 E5. destruct b; [injection E as <- _; exact Ha1|].
  peel E e s6 E6. destruct e; [injection E as <- _; exact Ha1|]. eapply IH; [exact Ha1 | exact E].
Qed.

Definition loaded_inv (t : bsp) : Prop :=
  (len (bt_nodes t) < 2 ^ 31 -> exists ts, bt_nodes t = forest_listed 0 ts /\ bt_leaves t = forest_leaves 0 ts) /\
  Sorted N.le (bt_leaf_polygons t).

Lemma bsp_loaded m version s t s' : bsp_load (bsp_new m) version s = Ret (t, s') -> loaded_inv t.
Proof.
  unfold bsp_load. apply read_chunked_inv.
  2:{ split; [intros _; exists []; split; reflexivity | constructor]. }
  clear. intros ty a s b a' s' [HP HS] E. unfold bsp_chunk in E.
  destruct (ty =? B_HEADER).
  { peel E x1 s1 E1. peel E x2 s2 E2. injection E as _ <- _. split; assumption. }
  destruct (ty =? B_POLYGONS).
  { peel E x1 s1 E1. peel E x2 s2 E2. injection E as _ <- _. split; assumption. }
  destruct (ty =? B_TREE).
  { peel E x1 s1 E1. peel E x2 s2 E2. peel E r s3 E3. peel E ps s4 E4. injection E as _ <- _.
    split; cbn [bt_nodes bt_leaves bt_leaf_polygons]; [|apply sort_sorted].
    intros Hl. pose proof (parse_grows _ _ _ _ _ _ _ _ _ _ E3).
    destruct (parse_shape _ _ _ _ _ _ _ _ _ _ E3 Hl) as (sh & -> & _). cbn [fst snd] in *.
    destruct HP as (ts & En & Ev); [lia|]. exists (ts ++ [sh]). destruct (forest_snoc ts sh 0) as [F1 F2].
    rewrite F1, F2, <- En, <- Ev. split; reflexivity. }
  destruct (ty =? B_LIGHT).
  { peel E x1 s1 E1. injection E as _ <- _. split; assumption. }
  destruct (ty =? B_OUTDOORS).
  { peel E x1 s1 E1. peel E x2 s2 E2. peel E x3 s3 E3. peel E x4 s4 E4. injection E as _ <- _. split; assumption. }
  destruct (ty =? B_END).
  { peel E x1 s1 E1. injection E as _ <- _. split; assumption. }
  injection E as _ <- _. split; assumption.
Qed.

(** ** Links *)
Definition node_links (all : list bspnode) (j : N) (n : bspnode) : Prop :=
  child_ok all j (bn_front n) /\ child_ok all j (bn_back n) /\ parent_ok all j (bn_parent n) /\
  (bn_front n <> (-1)%Z -> bn_front n <> bn_back n).

Lemma listed_parent t p i : exists n l, listed p i t = n :: l /\ bn_parent n = p.
Proof. destruct t; [|rewrite listed_inner]; eexists _, _; split; reflexivity. Qed.
Lemma nth_at {A} (pre : list A) x post i : len pre = i -> nth_N (pre ++ x :: post) i = Some x.
Proof.
  intros H. rewrite nth_N_error, nth_error_app2 by (unfold len in H; lia).
  replace (N.to_nat i - length pre)%nat with 0%nat by (unfold len in H; lia). reflexivity.
Qed.

Lemma listed_links all t : forall p self pre post, all = pre ++ listed p self t ++ post -> len pre = self ->
  parent_ok all self p -> forall j n, self <= j < self + size t -> nth_N all j = Some n -> node_links all j n.
Proof.
  induction t as [bb i c|bb i c pl lod f b Hf Hb] using shape_ind'; intros p self pre post E Hs Hpar j n Hj Hn.
  - cbn [size] in Hj. assert (j = self) by lia. subst j. cbn [listed app] in E. rewrite E, nth_at in Hn by exact Hs.
    injection Hn as <-. repeat split; cbn [bn_front bn_back bn_parent]; [left; reflexivity | left; reflexivity | exact Hpar | congruence].
  - rewrite listed_inner in E. rewrite size_inner in Hj.
    set (n0 := inner_node self p bb i c pl lod f b) in *.
    assert (Er : nth_N all self = Some n0) by (rewrite E; cbn [app]; apply nth_at, Hs).
    assert (Ef : forall x, f = Some x -> all = (pre ++ [n0]) ++ listed (Z.of_N self) (self + 1) x ++
                    (olisted (Z.of_N self) (self + 1 + osize f) b ++ post)).
    { intros x ->. rewrite E. cbn [olisted app]. rewrite <- ?app_assoc. cbn [app]. rewrite <- ?app_assoc. reflexivity. }
    assert (Eb : forall x, b = Some x -> all = (pre ++ [n0] ++ olisted (Z.of_N self) (self + 1) f) ++
                    listed (Z.of_N self) (self + 1 + osize f) x ++ post).
    { intros x ->. rewrite E. cbn [olisted app]. rewrite <- ?app_assoc. cbn [app]. rewrite <- ?app_assoc. reflexivity. }
    assert (L1 : len (pre ++ [n0]) = self + 1) by (lens; lia).
    assert (L2 : len (pre ++ [n0] ++ olisted (Z.of_N self) (self + 1) f) = self + 1 + osize f) by (lens; rewrite len_olisted; lia).
    destruct (N.eq_dec j self) as [->|Hne].
    + rewrite Er in Hn. injection Hn as <-. unfold node_links, n0, inner_node. cbn [bn_front bn_back bn_parent].
      split; [|split; [|split; [exact Hpar|]]].
      * destruct f as [x|]; [right|left; reflexivity]. destruct (listed_parent x (Z.of_N self) (self + 1)) as (c0 & l & Ec & Hc).
        exists (self + 1), c0. split; [reflexivity|]. split; [lia|]. split; [|exact Hc].
        rewrite (Ef x eq_refl), Ec. cbn [app]. apply nth_at, L1.
      * destruct b as [x|]; [right|left; reflexivity]. destruct (listed_parent x (Z.of_N self) (self + 1 + osize f)) as (c0 & l & Ec & Hc).
        exists (self + 1 + osize f), c0. split; [reflexivity|]. split; [lia|]. split; [|exact Hc].
        rewrite (Eb x eq_refl), Ec. rewrite <- app_comm_cons. apply nth_at, L2.
      * intros Hx. destruct f as [x|]; [|congruence]. pose proof (size_pos x). destruct b as [y|]; cbn [osize]; lia.
    + assert (Cf : j < self + 1 + osize f \/ self + 1 + osize f <= j) by lia. destruct Cf as [Cf|Cf].
      * destruct f as [x|]; [|cbn [osize] in Cf; lia]. cbn [osize oshape] in *.
        refine (Hf (Z.of_N self) (self + 1) _ _ (Ef x eq_refl) L1 _ j n _ Hn); [|lia].
        right. exists self, n0. split; [reflexivity|]. split; [lia|]. split; [exact Er|]. left. reflexivity.
      * destruct b as [x|]; [|cbn [osize] in *; lia]. cbn [osize oshape] in *.
        refine (Hb (Z.of_N self) (self + 1 + osize f) _ _ (Eb x eq_refl) L2 _ j n _ Hn); [|cbn [osize] in *; lia].
        right. exists self, n0. split; [reflexivity|]. split; [lia|]. split; [exact Er|]. right. reflexivity.
Qed.

Lemma forest_links all ts : forall pre, all = pre ++ forest_listed (len pre) ts ->
  forall j n, len pre <= j -> nth_N all j = Some n -> node_links all j n.
Proof.
  induction ts as [|t ts IH]; intros pre E j n Hj Hn; cbn [forest_listed] in E.
  - apply nth_N_lt in Hn. rewrite E, app_nil_r in Hn. lia.
  - destruct (N.lt_ge_cases j (len pre + size t)) as [Hlt|Hge].
    + eapply listed_links; [exact E | reflexivity | left; reflexivity | lia | exact Hn].
    + refine (IH (pre ++ listed (-1) (len pre) t) _ j n _ Hn).
      * rewrite len_app, len_listed. rewrite <- app_assoc. exact E.
      * rewrite len_app, len_listed. exact Hge.
Qed.
Lemma forest_links_ok ts : links_ok (forest_listed 0 ts).
Proof. intros i n Hn. apply (forest_links (forest_listed 0 ts) ts [] eq_refl i n); [apply N.le_0_l | exact Hn]. Qed.

Lemma ssorted_app l1 l2 k : StronglySorted N.lt l1 -> StronglySorted N.lt l2 -> (forall x, In x l1 -> x < k) ->
  (forall x, In x l2 -> k <= x) -> StronglySorted N.lt (l1 ++ l2).
Proof.
  intros H1 H2 B1 B2. induction l1 as [|x l1 IH]; [exact H2|]. inversion H1 as [|? ? Hs Hf]; subst. cbn [app]. constructor.
  - apply IH; [exact Hs|]. intros y Hy. apply B1. right. exact Hy.
  - apply Forall_app. split; [exact Hf|]. apply Forall_forall. intros y Hy. specialize (B1 x (or_introl eq_refl)). specialize (B2 y Hy). lia.
Qed.
Lemma leaves_sorted t : forall i, StronglySorted N.lt (leaves_of i t).
Proof.
  induction t as [bb k c|bb k c pl lod f b Hf Hb] using shape_ind'; intros i; [repeat constructor|].
  rewrite leaves_inner. apply (ssorted_app _ _ (i + 1 + osize f)).
  - destruct f; [apply Hf | constructor].
  - destruct b; [apply Hb | constructor].
  - intros x Hx. destruct f; [|destruct Hx]. apply leaves_bound in Hx. cbn [osize]. lia.
  - intros x Hx. destruct b; [|destruct Hx]. apply leaves_bound in Hx. lia.
Qed.
Lemma leaves_are all t : forall p self pre post, all = pre ++ listed p self t ++ post -> len pre = self ->
  forall j, In j (leaves_of self t) -> exists n, nth_N all j = Some n /\ bn_front n = (-1)%Z /\ bn_back n = (-1)%Z.
Proof.
  induction t as [bb i c|bb i c pl lod f b Hf Hb] using shape_ind'; intros p self pre post E Hs j Hj.
  - destruct Hj as [<-|[]]. cbn [listed app] in E. eexists. split; [rewrite E; apply nth_at, Hs|]. split; reflexivity.
  - rewrite listed_inner in E. rewrite leaves_inner in Hj. set (n0 := inner_node self p bb i c pl lod f b) in *.
    apply in_app_or in Hj. destruct Hj as [Hj|Hj].
    + destruct f as [x|]; [|destruct Hj].
      refine (Hf (Z.of_N self) (self + 1) (pre ++ [n0]) (olisted (Z.of_N self) (self + 1 + osize (Some x)) b ++ post) _ _ j Hj); [|lens; lia].
      rewrite E. cbn [olisted app]. rewrite <- ?app_assoc. cbn [app]. rewrite <- ?app_assoc. reflexivity.
    + destruct b as [x|]; [|destruct Hj].
      refine (Hb (Z.of_N self) (self + 1 + osize f) (pre ++ [n0] ++ olisted (Z.of_N self) (self + 1) f) post _ _ j Hj).
      * rewrite E. cbn [olisted app]. rewrite <- ?app_assoc. cbn [app]. rewrite <- ?app_assoc. reflexivity.
      * lens. rewrite len_olisted. lia.
Qed.
Lemma forest_leaves_bound ts : forall i j, In j (forest_leaves i ts) -> i <= j.
Proof.
  induction ts as [|t ts IH]; intros i j H; [destruct H|]. cbn [forest_leaves] in H. apply in_app_or in H. destruct H as [H|H].
  - apply leaves_bound in H. lia.
  - apply IH in H. lia.
Qed.
Lemma forest_leaves_ok all ts : forall pre, all = pre ++ forest_listed (len pre) ts ->
  StronglySorted N.lt (forest_leaves (len pre) ts) /\
  forall i, In i (forest_leaves (len pre) ts) -> exists n, nth_N all i = Some n /\ bn_front n = (-1)%Z /\ bn_back n = (-1)%Z.
Proof.
  induction ts as [|t ts IH]; intros pre E; cbn [forest_listed forest_leaves] in *.
  - split; [constructor | intros i []].
  - destruct (IH (pre ++ listed (-1) (len pre) t)) as [I1 I2].
    { rewrite len_app, len_listed, <- app_assoc. exact E. }
    rewrite len_app, len_listed in *. split.
    + apply (ssorted_app _ _ (len pre + size t)); [apply leaves_sorted | exact I1 | |].
      * intros x Hx. apply leaves_bound in Hx. lia.
      * intros x Hx. apply forest_leaves_bound in Hx. exact Hx.
    + intros i Hi. apply in_app_or in Hi. destruct Hi as [Hi|Hi]; [|apply I2, Hi].
      eapply leaves_are; [exact E | reflexivity | exact Hi].
Qed.

Lemma bsp_links m version s t s' : bsp_load (bsp_new m) version s = Ret (t, s') -> len (bt_nodes t) < 2 ^ 31 ->
  links_ok (bt_nodes t) /\ leaves_ok (bt_nodes t) (bt_leaves t).
Proof.
  intros E Hl. destruct (bsp_loaded _ _ _ _ _ E) as [H _]. destruct (H Hl) as (ts & -> & ->).
  split; [apply forest_links_ok|]. apply (forest_leaves_ok (forest_listed 0 ts) ts []). reflexivity.
Qed.

Lemma bsp_preorder m version s t s' : bsp_load (bsp_new m) version s = Ret (t, s') -> len (bt_nodes t) < 2 ^ 31 ->
  exists ts, bt_nodes t = forest_listed 0 ts /\ bt_leaves t = forest_leaves 0 ts.
Proof. intros E Hl. destruct (bsp_loaded _ _ _ _ _ E) as [H _]. exact (H Hl). Qed.
Lemma bsp_leaf_polygons_sorted m version s t s' : bsp_load (bsp_new m) version s = Ret (t, s') -> Sorted N.le (bt_leaf_polygons t).
Proof. intros E. apply (bsp_loaded _ _ _ _ _ E). Qed.
