(** BSP files whose tree fits its announcement are loaded without undefined behaviour. *)

From Coq Require Import Lia ZifyN ZifyBool ZifyNat Sorted Permutation.
From Verif Require Import MBase MStream SStream MBoxes SBoxes MModel SFormat MBsp SBsp SArchEnd SBspFile
  LBase LStream LStreamHist LBoxes LFormat LModel LTexture LBsp LEnds.
Local Open Scope N_scope.

Lemma tree_enc g t : tree_bytes g t = shape_enc (game_g1 g) t.
Proof.
  induction t as [bb i c|bb i c pl lod f b Hf Hb] using shape_ind'.
  - unfold tree_bytes, shape_enc, node_bytes, aabb_enc, vec_bytes. rewrite <- !app_assoc. reflexivity.
  - rewrite shape_enc_inner. cbn [tree_bytes].
    unfold node_bytes, aabb_enc, vec_bytes, plane_enc, child_bits, oflag, a_leaf, leaf_shape, oenc.
    destruct f as [f|], b as [b|]; cbn [oshape] in Hf, Hb; try rewrite Hf; try rewrite Hb;
      rewrite <- !app_assoc; destruct g; reflexivity.
Qed.

Lemma chunk_forward g1 ty t : ty <> B_TREE -> forward (bsp_chunk g1 ty t).
Proof.
  intros H. unfold bsp_chunk. destruct (N.eqb_spec ty B_TREE) as [E|_]; [congruence|].
  repeat match goal with |- forward (if ?b then _ else _) => destruct b end; fsteps.
Qed.
(** What these sections leave alone. *)
Lemma chunk_keeps g1 ty t s d t' s' : ty <> B_TREE -> bsp_chunk g1 ty t s = Ret (d, t', s') ->
  bt_nodes t' = bt_nodes t /\ bt_leaves t' = bt_leaves t /\ bt_leaf_polygons t' = bt_leaf_polygons t /\
  (ty <> B_POLYGONS -> bt_polygons t' = bt_polygons t) /\ (ty <> B_END -> d = false).
Proof.
  intros H E. unfold bsp_chunk in E. destruct (N.eqb_spec ty B_TREE) as [?|_]; [congruence|].
  repeat match type of E with
  | (if (?a =? ?b) then _ else _) _ = _ => destruct (N.eqb_spec a b)
  end; unfold bind in E;
  repeat match type of E with
  | match ?m with _ => _ end = _ => let q := fresh in destruct m as [[? ?]| | |] eqn:q; [|discriminate..]
  end; injection E as <- <- <-; repeat split; intros; congruence.
Qed.

Lemma keeps g1 : cb_keeps (bsp_chunk g1).
Proof.
  intros ty a s r s' Hs E.
  assert (H : ends (bsp_chunk g1 ty a)).
  { unfold bsp_chunk. repeat estep; try (apply ends_lift, gather_ends).
    intros s0 Hs0. apply (parse_ends _ _ _ _ _ _ _ (rdata s0) (rpos s0)); [lia | exact Hs0 | reflexivity | lia]. }
  specialize (H s Hs). rewrite E in H. destruct H as (H1 & H2 & _). split; assumption.
Qed.

Definition fine {A} (o : outcome A) : Prop := match o with Ret _ | Throw _ => True | Undef | Fuel => False end.

Section present.
Variable g1 : bool.
Variable data : bytes.
Hypothesis Hdata : len data < max_size.

Lemma present_skip cs rest (P : bsp -> Prop) (Q : outcome (bsp * rstate) -> Prop) : no_section B_TREE cs ->
  (forall e, Q (Throw e)) -> 
  (forall c t s d t' s', In c cs -> P t -> bsp_chunk g1 (fst c) t s = Ret (d, t', s') -> P t' /\ (d = true -> forall s2, Q (Ret (t', s2)))) ->
  (forall t pos', pos' + len (flat_map chunk_bytes rest) = len data -> P t -> Q (present (bsp_chunk g1) data pos' rest t)) ->
  forall t pos, pos + len (flat_map chunk_bytes (cs ++ rest)) = len data -> P t -> Q (present (bsp_chunk g1) data pos (cs ++ rest) t).
Proof.
  intros Hn Ht Hk Hr. induction cs as [|c cs IH]; intros t pos Hpos HP; [apply Hr; assumption|].
  inversion Hn as [|? ? Hc Hn']; subst. cbn [app present].
  assert (Hlen : pos + 6 + len (snd c) + len (flat_map chunk_bytes (cs ++ rest)) = len data).
  { rewrite <- Hpos. cbn [app flat_map]. unfold chunk_bytes at 2. lens. lia. }
  assert (Hs : r_ok (mkR data (pos + 6))) by (split; cbn [rdata rpos]; lia).
  pose proof (chunk_forward g1 (fst c) t Hc _ Hs) as F.
  destruct (bsp_chunk g1 (fst c) t (mkR data (pos + 6))) as [[[d t'] s']| | |] eqn:E; try (destruct F; fail).
  - destruct (Hk c t _ d t' s' (or_introl eq_refl) HP E) as [HP' HQ]. destruct d; [apply HQ; reflexivity|].
    apply IH; try assumption. intros c0 t0 s0 d0 t0' s0' Hin. apply Hk. right. exact Hin.
  - apply Ht.
Qed.
End present.

Lemma chunks_long cs : N.of_nat (length cs) <= len (flat_map chunk_bytes cs).
Proof.
  induction cs as [|c cs IH]; [cbn; lia|]. cbn [flat_map length]. unfold chunk_bytes at 1. lens. lia.
Qed.

(** Sections without a tree. *)
Lemma no_tree_fine m version cs : cs <> [] -> Forall chunk_ok cs -> no_section B_TREE cs -> len (flat_map chunk_bytes cs) < max_size ->
  answers (of_file (bsp_load (bsp_new m) version) (flat_map chunk_bytes cs)).
Proof.
  intros Hne Hok Hn Hl. unfold of_file, bsp_load. cbn [rdata rpos].
  pose proof (read_chunked_present (bsp_chunk (version =? version_g1)) (keeps _) cs
    (S (N.to_nat (len (flat_map chunk_bytes cs) - 0))) [] (bsp_new m) Hne Hok) as R.
  cbn [app] in R. change (len []) with 0 in R. rewrite R; [|pose proof (chunks_long cs); lia|exact Hl].
    enough (H : fine (present (bsp_chunk (version =? version_g1)) (flat_map chunk_bytes cs) 0 cs (bsp_new m))).
    { destruct (present _ _ _ _ _) as [[a b]|e| |]; [left; eauto | right; eauto | destruct H..]. }
    rewrite <- (app_nil_r cs) at 2.
    apply (present_skip _ _ Hl cs [] (fun _ => True) fine Hn).
    + intros; exact I.
    + intros. split; [exact I|]. intros; exact I.
    + intros; exact I.
    + rewrite app_nil_r. lia.
    + exact I.
Qed.

Definition untouched (t : bsp) : Prop := bt_nodes t = [] /\ bt_leaves t = [] /\ bt_leaf_polygons t = [].

Definition oranges (o : option shape) : list (N * N) := match o with Some x => leaf_ranges x | None => [] end.
Lemma ranges_at all t : forall p i pre post, all = pre ++ listed p i t ++ post -> len pre = i ->
  map (fun n => (bn_index n, bn_count n)) (flat_map (fun j => match nth_N all j with Some x => [x] | None => [] end) (leaves_of i t)) =
  leaf_ranges t.
Proof.
  induction t as [bb k c|bb k c pl lod f b Hf Hb] using shape_ind'; intros p i pre post E Hi.
  - cbn [listed leaves_of flat_map leaf_ranges]. rewrite E. cbn [listed app].
    rewrite (nth_at pre _ post i Hi). reflexivity.
  - rewrite leaves_inner, flat_map_app, map_app. cbn [leaf_ranges]. rewrite listed_inner in E. f_equal.
    + destruct f as [x|]; [|reflexivity].
      refine (Hf (Z.of_N i) (i + 1) (pre ++ [inner_node i p bb k c pl lod (Some x) b]) (olisted (Z.of_N i) (i + 1 + osize (Some x)) b ++ post) _ _); [|lens; lia].
      rewrite E. cbn [olisted app]. rewrite <- ?app_assoc. cbn [app]. rewrite <- ?app_assoc. reflexivity.
    + destruct b as [x|]; [|reflexivity].
      refine (Hb (Z.of_N i) (i + 1 + osize f) (pre ++ [inner_node i p bb k c pl lod f (Some x)] ++ olisted (Z.of_N i) (i + 1) f) post _ _).
      * rewrite E. cbn [olisted app]. rewrite <- ?app_assoc. cbn [app]. rewrite <- ?app_assoc. reflexivity.
      * lens. rewrite len_olisted. lia.
Qed.

Section tree.
Variables (g : game) (count leaves : N) (ps : list N) (sh : shape) (slack : bytes).
Hypothesis F : tree_fits g count ps sh.
Lemma tree_chunk t pre post : untouched t -> bt_polygons t = ps ->
  len (pre ++ (le_enc 4 count ++ le_enc 4 leaves ++ tree_bytes g sh ++ slack) ++ post) < max_size -> leaves < 2 ^ 32 ->
  exists t' s', bsp_chunk (game_g1 g) B_TREE t
    (mkR (pre ++ (le_enc 4 count ++ le_enc 4 leaves ++ tree_bytes g sh ++ slack) ++ post) (len pre)) = Ret (false, t', s') /\
    bt_nodes t' = listed (-1) 0 sh /\ bt_leaves t' = leaves_of 0 sh /\ bt_leaf_polygons t' = sort_N (leaf_polygons ps sh).
Proof.
  intros (U1 & U2 & U3) Hps Hl Hlv. destruct F as (F1 & F2 & F3 & F4 & F5 & F6 & F7).
  assert (R : reads (bsp_chunk (game_g1 g) B_TREE t) (le_enc 4 count ++ le_enc 4 leaves ++ tree_bytes g sh)
    (false, mkBsp (bt_mode t) (bt_polygons t) (sort_N (bt_leaf_polygons t ++ leaf_polygons ps sh)) (bt_lights t) (bt_sectors t)
                  (bt_portals t) (listed (-1) 0 sh) (leaves_of 0 sh))).
  { unfold bsp_chunk. change (B_TREE =? B_HEADER) with false. change (B_TREE =? B_POLYGONS) with false.
    change (B_TREE =? B_TREE) with true. cbv iota.
    eapply reads_bind; [apply reads_uint; pows; lia|]. eapply reads_bind; [apply reads_uint; exact Hlv|]. cbv beta.
    rewrite <- (app_nil_r (tree_bytes g sh)).
    eapply reads_bind.
    - instantiate (1 := (listed (-1) 0 sh, leaves_of 0 sh)). rewrite tree_enc. intros a b HP Hab. cbn [rdata rpos].
      assert (El : (count =? 1) = leaf_shape sh).
      { destruct (N.eqb_spec count 1) as [E|E]; [apply F6 in E | assert (a_leaf sh <> true) by (intros X; apply F6 in X; contradiction)];
          destruct sh; cbn in *; congruence. }
      rewrite El, U1, U2.
      refine (parse_reads g sh _ _ (-1) [] [] _ _ _ _ a b HP Hab).
      + exact F1.
      + pose proof (depth_len (game_g1 g) sh).
        assert (len (a ++ shape_enc (game_g1 g) sh ++ b) - len a >= len (shape_enc (game_g1 g) sh)) by (lens; lia). lia.
      + rewrite len_nil. lia.
      + rewrite len_nil. pows. lia.
    - cbn [fst snd]. rewrite Hps.
      assert (G : gather ps (listed (-1) 0 sh) (leaves_of 0 sh) = Ret (leaf_polygons ps sh)).
      { pose proof (ranges_at (listed (-1) 0 sh) sh (-1) 0 [] [] ltac:(rewrite app_nil_r; reflexivity) eq_refl) as Q.
        set (b0 := mkBsp 0 ps [] [] [] [] (listed (-1) 0 sh) []).
        pose proof (gather_ok b0) as GO. cbn [bt_polygons bt_nodes b0] in GO. rewrite GO.
        - f_equal. unfold leaf_polygons. rewrite <- Q. clear. induction (flat_map _ (leaves_of 0 sh)) as [|x l IH]; [reflexivity|].
          cbn [flat_map map]. rewrite IH. reflexivity.
        - exact F3.
        - apply Forall_forall. intros j Hj. apply leaves_bound in Hj. rewrite len_listed. lia.
        - rewrite <- Q, Forall_map in F7. exact F7. }
      intros a b HP Hab. unfold bind, lift. rewrite G. unfold ret. change (len (@nil byte)) with 0. rewrite N.add_0_r. reflexivity. }
  assert (E0 : pre ++ (le_enc 4 count ++ le_enc 4 leaves ++ tree_bytes g sh ++ slack) ++ post =
    pre ++ (le_enc 4 count ++ le_enc 4 leaves ++ tree_bytes g sh) ++ slack ++ post) by (rewrite <- !app_assoc; reflexivity).
  rewrite E0 in *. specialize (R pre (slack ++ post) I Hl). do 2 eexists. split; [exact R|].
  cbn [bt_nodes bt_leaves bt_leaf_polygons]. rewrite U3. split; [reflexivity|]. split; reflexivity.
Qed.
End tree.

Lemma polygons_chunk g1 t ps slack pre post : Forall f32 ps -> len ps < 2 ^ 32 ->
  len (pre ++ (le_enc 4 (len ps) ++ flat_map (le_enc 4) ps ++ slack) ++ post) < max_size ->
  exists s', bsp_chunk g1 B_POLYGONS t
    (mkR (pre ++ (le_enc 4 (len ps) ++ flat_map (le_enc 4) ps ++ slack) ++ post) (len pre)) =
    Ret (false, mkBsp (bt_mode t) ps (bt_leaf_polygons t) (bt_lights t) (bt_sectors t)
                  (bt_portals t) (bt_nodes t) (bt_leaves t), s').
Proof.
  intros Hf Hp Hl.
  assert (R : reads (bsp_chunk g1 B_POLYGONS t) (le_enc 4 (len ps) ++ flat_map (le_enc 4) ps)
    (false, mkBsp (bt_mode t) ps (bt_leaf_polygons t) (bt_lights t) (bt_sectors t) (bt_portals t) (bt_nodes t) (bt_leaves t))).
  { unfold bsp_chunk. change (B_POLYGONS =? B_HEADER) with false. change (B_POLYGONS =? B_POLYGONS) with true. cbv iota.
    eapply reads_bind; [apply reads_uint; exact Hp|]. cbv beta. rewrite <- (app_nil_r (flat_map _ _)).
    eapply reads_bind; [apply reads_uints; [reflexivity | exact Hf]|]. apply reads_ret. }
  assert (E0 : pre ++ (le_enc 4 (len ps) ++ flat_map (le_enc 4) ps ++ slack) ++ post =
    pre ++ (le_enc 4 (len ps) ++ flat_map (le_enc 4) ps) ++ slack ++ post) by (rewrite <- !app_assoc; reflexivity).
  rewrite E0 in *. eexists. exact (R pre (slack ++ post) I Hl).
Qed.

Section file.
Variables (g : game) (m version count leaves : N) (ps : list N) (sh : shape) (slack1 slack2 : bytes) (pre mid post : list chunk).
Hypothesis F : tree_fits g count ps sh.
Hypothesis Hv : (version =? version_g1) = game_g1 g.
Hypothesis Hlv : leaves < 2 ^ 32.
Let cs := pre ++ polygons_section ps slack1 :: mid ++ tree_section g count leaves sh slack2 :: post.
Hypothesis Hok : Forall chunk_ok cs.
Hypothesis Hl : len (flat_map chunk_bytes cs) < max_size.
Hypothesis N1 : no_section B_TREE pre.
Hypothesis N2 : no_section B_TREE mid.
Hypothesis N3 : no_section B_TREE post.
Hypothesis N4 : no_section B_POLYGONS mid.

Definition read_tree (t : bsp) : Prop :=
  bt_nodes t = listed (-1) 0 sh /\ bt_leaves t = leaves_of 0 sh /\ bt_leaf_polygons t = sort_N (leaf_polygons ps sh).
Definition verdict (o : outcome (bsp * rstate)) : Prop :=
  fine o /\ (no_section B_END (pre ++ mid) -> forall t s, o = Ret (t, s) -> read_tree t).

Lemma verdict_throw e : verdict (Throw e).
Proof. split; [exact I|]. discriminate. Qed.

Lemma file_present : verdict (present (bsp_chunk (game_g1 g)) (flat_map chunk_bytes cs) 0 cs (bsp_new m)).
Proof.
  set (data := flat_map chunk_bytes cs) in *.
  apply (present_skip (game_g1 g) data Hl pre _ untouched verdict N1 verdict_throw).
  { intros c t s d t' s' Hc (U1 & U2 & U3) E. unfold no_section in N1. rewrite Forall_forall in N1. specialize (N1 _ Hc).
    destruct (chunk_keeps _ _ _ _ _ _ _ N1 E) as (K1 & K2 & K3 & _ & K5).
    split; [unfold untouched; rewrite K1, K2, K3; auto|].
    intros ->. intros s2. split; [exact I|]. intros NE. unfold no_section in NE. rewrite Forall_forall in NE.
    discriminate (K5 (NE c ltac:(apply in_or_app; left; exact Hc))). }
  2:{ unfold data, cs. lia. }
  2:{ split; [|split]; reflexivity. }
  intros t pos Hpos U. cbn [present].
  assert (D : data = (flat_map chunk_bytes pre ++ le_enc 2 B_POLYGONS ++ le_enc 4 (len (snd (polygons_section ps slack1)))) ++
     (snd (polygons_section ps slack1)) ++ flat_map chunk_bytes (mid ++ tree_section g count leaves sh slack2 :: post)).
  { unfold data, cs. rewrite flat_map_app. cbn [flat_map]. unfold chunk_bytes at 2. rewrite <- !app_assoc. reflexivity. }
  assert (P : pos + 6 = len (flat_map chunk_bytes pre ++ le_enc 2 B_POLYGONS ++ le_enc 4 (len (snd (polygons_section ps slack1))))).
  { revert Hpos. rewrite D at 1. cbn [flat_map]. unfold chunk_bytes at 1. cbn [fst polygons_section]. lens. lia. }
  destruct F as (_ & F2 & F3 & _).
  destruct (polygons_chunk (game_g1 g) t ps slack1
    (flat_map chunk_bytes pre ++ le_enc 2 B_POLYGONS ++ le_enc 4 (len (snd (polygons_section ps slack1))))
    (flat_map chunk_bytes (mid ++ tree_section g count leaves sh slack2 :: post)) F2 F3) as (s' & E).
  { change (le_enc 4 (len ps) ++ flat_map (le_enc 4) ps ++ slack1) with (snd (polygons_section ps slack1)). rewrite <- D. exact Hl. }
  change (le_enc 4 (len ps) ++ flat_map (le_enc 4) ps ++ slack1) with (snd (polygons_section ps slack1)) in E.
  rewrite <- D, <- P in E. change (fst (polygons_section ps slack1)) with B_POLYGONS. rewrite E.
  match goal with |- verdict (present _ _ _ _ ?t1) => assert (U1 : untouched t1 /\ bt_polygons t1 = ps) by (split; [exact U | reflexivity]); clear E; revert U1; generalize t1 end.
  intros t1 U1. clear s' U t.
  apply (present_skip (game_g1 g) data Hl mid _ (fun t => untouched t /\ bt_polygons t = ps) verdict N2 verdict_throw).
  { intros c t s d t' s' Hc ((V1 & V2 & V3) & V4) E. unfold no_section in N2, N4. rewrite Forall_forall in N2, N4.
    specialize (N2 _ Hc). specialize (N4 _ Hc).
    destruct (chunk_keeps _ _ _ _ _ _ _ N2 E) as (K1 & K2 & K3 & K4 & K5).
    split; [unfold untouched; rewrite K1, K2, K3, (K4 N4); auto|].
    intros ->. intros s2. split; [exact I|]. intros NE. unfold no_section in NE. rewrite Forall_forall in NE.
    discriminate (K5 (NE c ltac:(apply in_or_app; right; exact Hc))). }
  3: exact U1.
  2:{ rewrite <- Hpos. cbn [flat_map]. unfold chunk_bytes at 2. lens. lia. }
  clear t1 U1 D P Hpos pos. intros t pos Hpos (U & Hps). cbn [present].
  set (sec := tree_section g count leaves sh slack2) in *.
  set (pre2 := pre ++ polygons_section ps slack1 :: mid).
  assert (D : data = (flat_map chunk_bytes pre2 ++ le_enc 2 B_TREE ++ le_enc 4 (len (snd sec))) ++ snd sec ++ flat_map chunk_bytes post).
  { unfold data, cs, pre2. rewrite !flat_map_app. cbn [flat_map]. rewrite !flat_map_app. cbn [flat_map].
    unfold chunk_bytes at 4. cbn [fst sec tree_section]. rewrite <- !app_assoc. reflexivity. }
  assert (P : pos + 6 = len (flat_map chunk_bytes pre2 ++ le_enc 2 B_TREE ++ le_enc 4 (len (snd sec)))).
  { revert Hpos. rewrite D at 1. cbn [flat_map]. unfold chunk_bytes at 1. cbn [fst sec tree_section]. lens. lia. }
  destruct (tree_chunk g count leaves ps sh slack2 F t
    (flat_map chunk_bytes pre2 ++ le_enc 2 B_TREE ++ le_enc 4 (len (snd sec))) (flat_map chunk_bytes post) U Hps) as (t' & s' & E & G).
  { change (le_enc 4 count ++ le_enc 4 leaves ++ tree_bytes g sh ++ slack2) with (snd sec). rewrite <- D. exact Hl. }
  { exact Hlv. }
  change (le_enc 4 count ++ le_enc 4 leaves ++ tree_bytes g sh ++ slack2) with (snd sec) in E.
  rewrite <- D, <- P in E. change (fst sec) with B_TREE. rewrite E.
  rewrite <- (app_nil_r post).
  apply (present_skip (game_g1 g) data Hl post [] read_tree verdict N3 verdict_throw).
  - intros c t0 s d t0' s0' Hc (V1 & V2 & V3) E0. unfold no_section in N3. rewrite Forall_forall in N3.
    specialize (N3 _ Hc). destruct (chunk_keeps _ _ _ _ _ _ _ N3 E0) as (K1 & K2 & K3 & _).
    assert (RT : read_tree t0') by (unfold read_tree; rewrite K1, K2, K3; auto). split; [exact RT|].
    intros _ s2. split; [exact I|]. intros _ t2 s3 X. injection X as <- <-. exact RT.
  - intros t0 pos' _ RT. split; [exact I|]. intros _ t2 s3 X. injection X as <- <-. exact RT.
  - rewrite app_nil_r, <- Hpos. cbn [flat_map]. unfold chunk_bytes at 2. lens. lia.
  - exact G.
Qed.

Lemma file_fine : answers (of_file (bsp_load (bsp_new m) version) (flat_map chunk_bytes cs)) /\
  (no_section B_END (pre ++ mid) -> forall t, of_file (bsp_load (bsp_new m) version) (flat_map chunk_bytes cs) = Ret t -> read_tree t).
Proof.
  unfold of_file, bsp_load. cbn [rdata rpos]. rewrite Hv.
  pose proof (read_chunked_present (bsp_chunk (game_g1 g)) (keeps _) cs
    (S (N.to_nat (len (flat_map chunk_bytes cs) - 0))) [] (bsp_new m) ltac:(unfold cs; destruct pre; discriminate) Hok) as R.
  cbn [app] in R. change (len []) with 0 in R. rewrite R; [|pose proof (chunks_long cs); lia|exact Hl].
  pose proof file_present as [V1 V2].
  destruct (present _ _ _ _ _) as [[a b]|e| |]; [|split; [right; eauto | discriminate] | destruct V1..].
  split; [left; eauto|]. intros NE t E. injection E as <-. exact (V2 NE a b eq_refl).
Qed.
End file.

Lemma bsp_file_fine m version cs count ps sh : ordered_file (game_of version) cs count ps sh -> len (flat_map chunk_bytes cs) < max_size ->
  answers (of_file (bsp_load (bsp_new m) version) (flat_map chunk_bytes cs)).
Proof.
  intros (pre & mid & post & leaves & s1 & s2 & E & Hlv & Hok & N1 & N2 & N3 & N4 & F) Hl. subst cs.
  apply (file_fine (game_of version) m version count leaves ps sh s1 s2 pre mid post F); try assumption.
  unfold game_of. destruct (version =? version_g1); reflexivity.
Qed.
Lemma bsp_file_read m version cs count ps sh t : ordered_file (game_of version) cs count ps sh -> len (flat_map chunk_bytes cs) < max_size ->
  end_last cs ->
  of_file (bsp_load (bsp_new m) version) (flat_map chunk_bytes cs) = Ret t ->
  bt_nodes t = listed (-1) 0 sh /\ bt_leaves t = leaves_of 0 sh /\
  Sorted N.le (bt_leaf_polygons t) /\ Permutation (bt_leaf_polygons t) (leaf_polygons ps sh).
Proof.
  intros (pre & mid & post & leaves & s1 & s2 & E & Hlv & Hok & N1 & N2 & N3 & N4 & F) Hl NE R. subst cs.
  assert (V : (version =? version_g1) = game_g1 (game_of version)) by (unfold game_of; destruct (version =? version_g1); reflexivity).
  destruct (file_fine (game_of version) m version count leaves ps sh s1 s2 pre mid post F V Hlv Hok Hl N1 N2 N3 N4) as [_ H].
  destruct (H) with (t := t) as (H1 & H2 & H3).
  - apply Forall_forall. intros c Hc Ec. apply in_app_or in Hc. destruct Hc as [Hc|Hc]; apply in_split in Hc; destruct Hc as (a & b & ->).
    + specialize (NE a c (b ++ polygons_section ps s1 :: mid ++ tree_section (game_of version) count leaves sh s2 :: post)).
      rewrite <- app_assoc in NE. specialize (NE eq_refl Ec). destruct b; discriminate.
    + specialize (NE (pre ++ polygons_section ps s1 :: a) c (b ++ tree_section (game_of version) count leaves sh s2 :: post)).
      rewrite <- !app_assoc in NE. specialize (NE eq_refl Ec). destruct b; discriminate.
  - exact R.
  - split; [exact H1|]. split; [exact H2|]. rewrite H3. split; [apply sort_sorted | apply sort_perm].
Qed.
