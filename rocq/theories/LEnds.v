(** Readers that end, possibly in undefined behaviour. *)

From Coq Require Import Lia ZifyN ZifyBool ZifyNat.
From Verif Require Import MBase MStream SStream MBoxes SBoxes MModel SFormat MBsp SBsp LBase LStream LStreamHist LBoxes LFormat.
Local Open Scope N_scope.

Lemma ends_forward {A} (r : rd A) : forward r -> ends r.
Proof. intros H s Hs. specialize (H s Hs). destruct (r s) as [[a s1]| | |]; auto. Qed.
Lemma ends_undef {A} : ends (@undef rstate A).
Proof. intros s Hs. exact I. Qed.
Lemma ends_bind {A B} (m : rd A) (k : A -> rd B) : ends m -> (forall a, ends (k a)) -> ends (bind m k).
Proof.
  intros Hm Hk s Hs. unfold bind. specialize (Hm s Hs). destruct (m s) as [[a s1]| | |]; try exact Hm.
  destruct Hm as (D & Hs1 & Hp). specialize (Hk a s1 Hs1). destruct (k a s1) as [[b s2]| | |]; try exact Hk.
  destruct Hk as (D2 & Hs2 & Hp2). split; [congruence|]. split; [exact Hs2|]. lia.
Qed.
Lemma ends_repM {A} n (m : rd A) : ends m -> ends (repM n m).
Proof.
  intros H. induction n as [|n IH]; cbn [repM]; [apply ends_forward, fw_ret|].
  apply ends_bind; [exact H|]. intros a. apply ends_bind; [exact IH|]. intros. apply ends_forward, fw_ret.
Qed.
Lemma ends_lift {A} (o : outcome A) : o <> Fuel -> ends (lift o).
Proof. intros H s Hs. unfold lift. destruct o; try exact I; [|congruence]. repeat split; try apply Hs. lia. Qed.

(** Undefined behaviour made an error. *)
Definition soften {A} (r : rd A) : rd A := fun s => match r s with Undef => Throw ParserError | o => o end.
Lemma soften_forward {A} (r : rd A) : ends r -> forward (soften r).
Proof. intros H s Hs. specialize (H s Hs). unfold soften. destruct (r s) as [[a s1]| | |]; auto. Qed.
Definition same_or_undef {A} (m m' : rd A) (s : rstate) : Prop := m s = Undef \/ m s = m' s.
Lemma sou_refl {A} (m : rd A) s : same_or_undef m m s.
Proof. right. reflexivity. Qed.
Lemma sou_bind {A B} (m m' : rd A) (k k' : A -> rd B) s : same_or_undef m m' s ->
  (forall a s1, same_or_undef (k a) (k' a) s1) -> same_or_undef (bind m k) (bind m' k') s.
Proof.
  intros [H|H] Hk; unfold same_or_undef, bind in *; [left; rewrite H; reflexivity|]. rewrite <- H.
  destruct (m s) as [[a s1]| | |]; [apply Hk | right; reflexivity | left; reflexivity | right; reflexivity].
Qed.
Lemma sou_soften {A} (m : rd A) s : same_or_undef m (soften m) s.
Proof. unfold same_or_undef, soften. destruct (m s); auto. Qed.
Lemma soften_chunked {A} (cb : N -> A -> rd (bool * A)) : forall fuel a s,
  same_or_undef (read_chunked fuel cb a) (read_chunked fuel (fun ty a => soften (cb ty a)) a) s.
Proof.
  induction fuel as [|fuel IH]; intros a s; [right; reflexivity|]. cbn [read_chunked].
  apply sou_bind; [apply sou_refl|]. intros ty s1. apply sou_bind; [apply sou_refl|]. intros sz s2.
  apply sou_bind; [apply sou_refl|]. intros here s3. apply sou_bind; [apply sou_soften|]. intros [b a1] s4. cbv zeta. cbn [fst snd].
  apply sou_bind; [apply sou_refl|]. intros _ s5. destruct b; [apply sou_refl|].
  apply sou_bind; [apply sou_refl|]. intros e s6. destruct e; [apply sou_refl | apply IH].
Qed.
Lemma ends_chunked {A} (cb : N -> A -> rd (bool * A)) a : (forall ty a, ends (cb ty a)) ->
  ends (fun s => read_chunked (S (N.to_nat (len (rdata s) - rpos s))) cb a s).
Proof.
  intros H s Hs.
  destruct (soften_chunked cb (S (N.to_nat (len (rdata s) - rpos s))) a s) as [E|E]; rewrite E; [exact I|].
  pose proof (fw_chunked (fun ty a => soften (cb ty a)) a (fun ty b => soften_forward _ (H ty b)) s Hs) as G.
  cbv beta in G. match type of G with match ?x with _ => _ end => destruct x as [[a' s']| | |] end; auto.
Qed.

Ltac estep := first
  [ solve [apply ends_forward; eauto with forward]
  | match goal with |- ends (bind _ _) => apply ends_bind; [|intros] end
  | match goal with |- ends (if ?b then _ else _) => destruct b end
  | match goal with |- ends (repM _ _) => apply ends_repM end
  | match goal with |- ends (match ?x with _ => _ end) => destruct x end
  | apply ends_undef ].
Ltac esteps := repeat estep.

(** Reading a box moves the cursor, unless it is at the end of the data. *)
Lemma aabb_at s : r_ok s -> exists b, aabb_load s = Ret (b, mkR (rdata s) (N.min (rpos s + 24) (len (rdata s)))).
Proof.
  intros Hs. unfold aabb_load, read_vec3. unfold bind at 1.
  unfold bind at 1. destruct (rd_fixed_safe 12 s Hs ltac:(discriminate)) as [b1 ->]. unfold ret at 1.
  set (s1 := mkR (rdata s) (N.min (rpos s + 12) (len (rdata s)))).
  assert (Hs1 : r_ok s1) by (destruct Hs; split; cbn [s1 rdata rpos]; lia).
  unfold bind at 1. unfold bind at 1. destruct (rd_fixed_safe 12 s1 Hs1 ltac:(discriminate)) as [b2 ->].
  unfold ret. eexists. do 3 f_equal. cbn [s1 rdata rpos]. lia.
Qed.
Lemma ubyte_end d : len d < max_size -> read_ubyte (mkR d (len d)) = Ret (0, mkR d (len d)).
Proof.
  intros Hl. unfold read_ubyte, rd_fixed. unfold bind at 1 2.
  rewrite rd_read_spec; cbn [rdata rpos]; [|split; cbn [rdata rpos]; lia | pows; lia].
  rewrite N.sub_diag. change (N.min 1 0) with 0. rewrite take_0, N.add_0_r. reflexivity.
Qed.

(** Readers that end when started in [d] at [lim] or later. *)
Definition ends_from {A} (d : bytes) (lim : N) (r : rd A) : Prop :=
  forall s, r_ok s -> rdata s = d -> lim <= rpos s ->
    match r s with
    | Ret (_, s') => rdata s' = rdata s /\ r_ok s' /\ rpos s <= rpos s'
    | Throw _ => True
    | Undef => True
    | Fuel => False
    end.
Lemma ef_ends {A} d lim (r : rd A) : ends r -> ends_from d lim r.
Proof. intros H s Hs _ _. apply H, Hs. Qed.
Lemma ef_bind {A B} d lim (m : rd A) (k : A -> rd B) : ends_from d lim m -> (forall a, ends_from d lim (k a)) -> ends_from d lim (bind m k).
Proof.
  intros Hm Hk s Hs Hd Hl. unfold bind. specialize (Hm s Hs Hd Hl). destruct (m s) as [[a s1]| | |]; try exact Hm.
  destruct Hm as (D & Hs1 & Hp). specialize (Hk a s1 Hs1 ltac:(congruence) ltac:(lia)). destruct (k a s1) as [[b s2]| | |]; try exact Hk.
  destruct Hk as (D2 & Hs2 & Hp2). split; [congruence|]. split; [exact Hs2|]. lia.
Qed.
Ltac efstep := first
  [ solve [apply ef_ends, ends_forward; eauto with forward]
  | match goal with |- ends_from _ _ (bind _ _) => apply ef_bind; [|intros] end
  | match goal with |- ends_from _ _ (if ?b then _ else _) => destruct b end
  | apply ef_ends, ends_undef
  | assumption ].

Lemma parse_ends : forall fuel g1 cap p leaf nodes leaves d lim, (N.to_nat (len d - lim) < fuel)%nat ->
  ends_from d lim (parse_nodes fuel g1 cap p leaf nodes leaves).
Proof.
  induction fuel as [|fuel IH]; intros g1 cap p leaf nodes leaves d lim Hf s Hs Hd Hlim; [lia|]. cbn [parse_nodes].
  unfold bind at 1. destruct (aabb_at s Hs) as [bb ->]. rewrite Hd in *.
  set (s1 := mkR d (N.min (rpos s + 24) (len d))).
  assert (Hs1 : r_ok s1) by (destruct Hs; rewrite Hd in *; split; cbn [s1 rdata rpos]; lia).
  destruct (N.eq_dec (rpos s) (len d)) as [He|Hne].
  - assert (E1 : s1 = mkR d (len d)) by (unfold s1; f_equal; lia). rewrite E1.
    assert (Hx : r_ok (mkR d (len d))) by (rewrite <- E1; exact Hs1).
    unfold bind at 1. unfold read_uint at 1. unfold bind at 1. destruct (rd_fixed_safe 4 _ Hx ltac:(discriminate)) as [b1 ->]. unfold ret at 1.
    cbn [rdata rpos]. replace (N.min (len d + 4) (len d)) with (len d) by lia.
    unfold bind at 1. unfold read_uint at 1. unfold bind at 1. destruct (rd_fixed_safe 4 _ Hx ltac:(discriminate)) as [b2 ->]. unfold ret at 1.
    cbn [rdata rpos]. replace (N.min (len d + 4) (len d)) with (len d) by lia.
    destruct leaf.
    { unfold ret. cbn [rdata rpos]. split; [reflexivity|]. split; [exact Hx|]. lia. }
    unfold bind at 1. rewrite ubyte_end by apply Hx. cbn [N.testbit].
    assert (G : ends (let* w := read_float in let* x := read_float in let* y := read_float in let* z := read_float in
        let* lod := (if g1 then read_ubyte else ret 0) in
        let* r := ret (nodes ++ [mkNode (mkPlane w x y z) bb (le_dec b1) (le_dec b2) (-1) (-1) p lod], leaves) in ret r)%m).
    { esteps. }
    specialize (G _ Hx). cbn [rdata rpos] in G. rewrite He. exact G.
  - assert (Hlt : rpos s < rpos s1) by (destruct Hs; rewrite Hd in *; cbn [s1 rpos]; lia).
    assert (Hle : rpos s1 <= len d) by (apply Hs1).
    match goal with |- match ?r s1 with _ => _ end => assert (R : ends_from d (rpos s1) r) end.
    { assert (IH' : forall g1 cap p leaf nodes leaves, ends_from d (rpos s1) (parse_nodes fuel g1 cap p leaf nodes leaves))
        by (intros; apply IH; lia).
      repeat efstep; apply IH'. }
    specialize (R s1 Hs1 eq_refl ltac:(lia)).
    match goal with |- match ?r s1 with _ => _ end => destruct (r s1) as [[r' s']| | |] end; try exact R.
    destruct R as (R1 & R2 & R3). split; [exact R1|]. split; [exact R2|]. lia.
Qed.

Lemma node_polygons_ends ps : forall n i, node_polygons ps i n <> Fuel.
Proof.
  induction n as [|n IH]; intros i; cbn [node_polygons]; [discriminate|]. destruct (nth_N ps (u32 i)); [|discriminate].
  specialize (IH (i + 1)). destruct (node_polygons ps (i + 1) n); cbn [obind]; congruence.
Qed.
Lemma gather_ends ps nodes : forall leaves, gather ps nodes leaves <> Fuel.
Proof.
  induction leaves as [|i leaves IH]; cbn [gather]; [discriminate|]. destruct (nth_N nodes i) as [n|]; [|discriminate].
  pose proof (node_polygons_ends ps (N.to_nat (bn_count n)) (bn_index n)) as H.
  destruct (node_polygons ps (bn_index n) (N.to_nat (bn_count n))); cbn [obind]; try congruence.
  destruct (gather ps nodes leaves); cbn [obind]; congruence.
Qed.

Lemma fw_sector : forward sector_load. Proof. unfold sector_load. fsteps. Qed.
Global Hint Resolve fw_sector : forward.

Lemma bsp_ends t version : ends (bsp_load t version).
Proof.
  apply ends_chunked. clear t. intros ty t. unfold bsp_chunk. repeat estep; try (apply ends_lift, gather_ends).
  intros s Hs. apply (parse_ends _ _ _ _ _ _ _ (rdata s) (rpos s)); [lia | exact Hs | reflexivity | lia].
Qed.
