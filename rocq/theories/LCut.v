(** Files whose end is missing: what is not there is read as zeros. *)

From Coq Require Import Lia ZifyN ZifyBool ZifyNat.
From Verif Require Import MBase MStream SStream MBoxes SBoxes MModel MTexture SFormat LBase LStream LStreamHist LBoxes LFormat LModel LTexture.
Local Open Scope N_scope.

Lemma zeros_app a c : zeros a ++ zeros c = zeros (a + c).
Proof. unfold zeros. rewrite <- repeat_app. f_equal. lia. Qed.
Lemma take_zeros k n : take k (zeros n) = zeros (N.min k n).
Proof.
  destruct (N.le_gt_cases k n) as [H|H].
  - rewrite N.min_l by exact H. replace n with (k + (n - k)) at 1 by lia. rewrite <- zeros_app, take_app_l by (rewrite len_zeros; lia).
    apply take_all. rewrite len_zeros. lia.
  - rewrite N.min_r by lia. apply take_all. rewrite len_zeros. lia.
Qed.
Lemma drop_zeros k n : drop k (zeros n) = zeros (n - k).
Proof.
  destruct (N.le_gt_cases k n) as [H|H].
  - replace n with (k + (n - k)) at 1 by lia. rewrite <- zeros_app. apply drop_app_exact. rewrite len_zeros. reflexivity.
  - replace (n - k) with 0 by lia. rewrite zeros_0. apply drop_all. rewrite len_zeros. lia.
Qed.

Lemma read_exact d q k : q <= len d -> len d < max_size -> k <= 2 ^ 63 ->
  rd_fixed k (mkR d q) = Ret (pad_to k (take k (drop q d)), mkR d (q + N.min k (len d - q))).
Proof.
  intros Hq Hd Hk. unfold rd_fixed, bind. rewrite rd_read_spec; [|split; assumption | exact Hk]. cbn [rdata rpos].
  unfold ret. do 3 f_equal. destruct (N.le_gt_cases k (len d - q)) as [H|H].
  - rewrite N.min_l by exact H. reflexivity.
  - rewrite N.min_r by lia. rewrite !take_all; [reflexivity | rewrite len_drop; lia..].
Qed.

(** The data [b] and the data filled up with zeros, read from positions that agree inside [b]. *)
Section cut.
Variables (b : bytes) (n : N).
Let full := b ++ zeros n.
Hypothesis Hfull : len full < max_size.

Definition mirrors {A} (o2 o1 : outcome (A * rstate)) : Prop :=
  match o2 with
  | Ret (a, s') => rdata s' = full /\ rpos s' <= len full /\ o1 = Ret (a, mkR b (N.min (rpos s') (len b)))
  | Throw e => o1 = Throw e
  | Undef => False
  | Fuel => False
  end.
Definition blind {A} (r : rd A) : Prop := forall q, q <= len full -> mirrors (r (mkR full q)) (r (mkR b (N.min q (len b)))).

Lemma len_full : len full = len b + n. Proof using Hfull. unfold full. rewrite len_app, len_zeros. reflexivity. Qed.

Lemma blind_ret {A} (a : A) : blind (ret a).
Proof using Hfull. intros q Hq. cbn. auto. Qed.
Lemma blind_throw {A} e : blind (@throw rstate A e).
Proof using Hfull. intros q Hq. reflexivity. Qed.
Lemma blind_bind {A B} (m : rd A) (k : A -> rd B) : blind m -> (forall a, blind (k a)) -> blind (bind m k).
Proof using Hfull.
  intros Hm Hk q Hq. specialize (Hm q Hq). unfold bind. destruct (m (mkR full q)) as [[a s]|e| |]; cbn [mirrors] in Hm.
  - destruct Hm as (H1 & H2 & H3). rewrite H3. destruct s as [d p]. cbn [rdata rpos] in *. subst d. exact (Hk a p H2).
  - rewrite Hm. reflexivity.
  - contradiction.
  - contradiction.
Qed.
Lemma blind_repM {A} k (m : rd A) : blind m -> blind (repM k m).
Proof using Hfull.
  intros H. induction k as [|k IH]; cbn [repM]; [apply blind_ret|].
  apply blind_bind; [exact H|]. intros a. apply blind_bind; [exact IH|]. intros. apply blind_ret.
Qed.
Lemma blind_mapM {A B} (f : A -> rd B) l : (forall a, blind (f a)) -> blind (mapM f l).
Proof using Hfull.
  intros H. induction l as [|x l IH]; cbn [mapM]; [apply blind_ret|].
  apply blind_bind; [apply H|]. intros a. apply blind_bind; [exact IH|]. intros. apply blind_ret.
Qed.

Lemma padded k q : q <= len full ->
  pad_to k (take k (drop q full)) = pad_to k (take k (drop (N.min q (len b)) b)).
Proof using Hfull.
  intros Hq. unfold full, pad_to. destruct (N.le_gt_cases q (len b)) as [H|H].
  - rewrite N.min_l by exact H. rewrite drop_app_l by exact H.
    destruct (N.le_gt_cases k (len (drop q b))) as [H1|H1].
    + rewrite take_app_l by exact H1. reflexivity.
    + rewrite take_app_r by lia. rewrite take_zeros, (take_all k (drop q b)) by lia. rewrite <- app_assoc. f_equal.
      rewrite zeros_app. f_equal. lens. lia.
  - rewrite N.min_r by lia. rewrite drop_app_r by lia. rewrite (drop_all (len b) b) by lia. rewrite drop_zeros, take_zeros, take_nil.
    cbn [app]. rewrite zeros_app. f_equal. rewrite len_zeros, len_nil. lia.
Qed.
Lemma blind_fixed k : k <= 2 ^ 63 -> blind (rd_fixed k).
Proof using Hfull.
  intros Hk q Hq. pose proof len_full as L.
  rewrite (read_exact full q k Hq Hfull Hk), (read_exact b _ k) by (try apply N.le_min_r; lia).
  cbn [mirrors rdata rpos]. split; [reflexivity|]. split; [lia|]. rewrite (padded k q Hq). do 3 f_equal. lia.
Qed.
Lemma blind_map {A} k (f : bytes -> A) : k <= 2 ^ 63 -> blind (bind (rd_fixed k) (fun x => ret (f x))).
Proof using Hfull. intros H. apply blind_bind; [apply blind_fixed, H|]. intros. apply blind_ret. Qed.
Lemma blind_char : blind read_char. Proof using Hfull. apply blind_map. discriminate. Qed.
Lemma blind_ubyte : blind read_ubyte. Proof using Hfull. apply blind_map. discriminate. Qed.
Lemma blind_uint : blind read_uint. Proof using Hfull. apply blind_map. discriminate. Qed.

(** Lines without the white space behind them. *)
Lemma blind_until : forall f2 f1 q, q <= len full -> (N.to_nat (len full - q) < f2)%nat -> (N.to_nat (len b - N.min q (len b)) < f1)%nat ->
  mirrors (read_until_eol f2 (mkR full q)) (read_until_eol f1 (mkR b (N.min q (len b)))).
Proof using Hfull.
  pose proof len_full as L.
  induction f2 as [|f2 IH]; intros f1 q Hq H2 H1; [lia|]. destruct f1 as [|f1]; [lia|]. cbn [read_until_eol].
  pose proof (blind_char q Hq) as C. unfold bind at 1 3. destruct (read_char (mkR full q)) as [[c s]|e| |] eqn:Ec; try contradiction.
  2:{ cbn [mirrors] in C |- *. rewrite C. reflexivity. }
  destruct C as (C1 & C2 & C3). rewrite C3. destruct s as [d p]. cbn [rdata rpos] in *. subst d.
  destruct (beq c x00 || beq c x0d || beq c x0a) eqn:Eb; [exact (conj eq_refl (conj C2 eq_refl))|].
  assert (P : q < len b /\ p = q + 1).
  { unfold read_char, bind in Ec. rewrite (read_exact full q 1 Hq Hfull ltac:(discriminate)) in Ec. unfold ret in Ec. injection Ec as Ec <-.
    rewrite (padded 1 q Hq) in Ec. destruct (N.le_gt_cases (len b) q) as [H|H]; [|split; [exact H|lia]].
    rewrite N.min_r, drop_all, take_nil in Ec by lia. subst c. discriminate. }
  destruct P as [P1 ->].
  assert (IH' := IH f1 (q + 1) ltac:(lia) ltac:(lia) ltac:(lia)). unfold bind.
  destruct (read_until_eol f2 (mkR full (q + 1))) as [[r s]|e| |]; cbn [mirrors] in IH' |- *; try contradiction.
  - destruct IH' as (I1 & I2 & I3). rewrite I3. exact (conj I1 (conj I2 eq_refl)).
  - rewrite IH'. reflexivity.
Qed.
Lemma blind_line : blind (read_line false).
Proof using Hfull.
  intros q Hq. unfold read_line, read_line_then_ignore. cbn [rdata rpos].
  pose proof (blind_until (S (N.to_nat (len full - q))) (S (N.to_nat (len b - N.min q (len b)))) q Hq ltac:(lia) ltac:(lia)) as U.
  unfold bind. destruct (read_until_eol _ (mkR full q)) as [[r s]|e| |]; cbn [mirrors] in U; try contradiction.
  - destruct U as (U1 & U2 & U3). rewrite U3. unfold rd_eof. cbn [orb]. unfold ret. exact (conj U1 (conj U2 eq_refl)).
  - rewrite U. reflexivity.
Qed.
Lemma blind_vec2 : blind read_vec2.
Proof using Hfull. unfold read_vec2. apply blind_map. discriminate. Qed.

Lemma blind_color : blind color_load.
Proof using Hfull. unfold color_load. repeat (apply blind_bind; [apply blind_ubyte | intros]). apply blind_ret. Qed.
Lemma blind_tex t : blind (tex_load t).
Proof using Hfull.
  unfold tex_load. apply blind_bind; [unfold read_string; change (4 <? max_size) with true; apply blind_fixed; discriminate|]. intros sig.
  destruct (negb _); [apply blind_throw|]. apply blind_bind; [apply blind_uint|]. intros v.
  destruct (negb _); [apply blind_throw|]. repeat (apply blind_bind; [apply blind_uint | intros]).
  apply blind_bind; [destruct (_ =? P8); [apply blind_repM, blind_color | apply blind_ret]|]. intros pal.
  apply blind_bind; [apply blind_mapM; intros l; apply blind_fixed|intros; apply blind_ret].
  match goal with |- mipmap_size ?f ?w ?h ?x <= _ => pose proof (mipmap_size_bound f w h x) end. pows. lia.
Qed.

Lemma blind_font_rest (name : bytes) : blind (bind (read_line false) (fun name => bind read_uint (fun height => bind read_uint (fun n =>
  bind (repM (N.to_nat n) read_ubyte) (fun ws => bind (repM (N.to_nat n) read_vec2) (fun a => bind (repM (N.to_nat n) read_vec2) (fun b =>
    ret (mkFont name height (zip_glyphs ws a b))))))))).
Proof using Hfull.
  apply blind_bind; [apply blind_line|]. intros nm. apply blind_bind; [apply blind_uint|]. intros h. apply blind_bind; [apply blind_uint|]. intros c.
  apply blind_bind; [apply blind_repM, blind_ubyte|]. intros ws. do 2 (apply blind_bind; [apply blind_repM, blind_vec2|]; intros).
  apply blind_ret.
Qed.
End cut.

(** ** Textures *)
Lemma tex_zeros t b n : len (b ++ zeros n) < max_size -> of_file (tex_load t) (b ++ zeros n) = of_file (tex_load t) b.
Proof.
  intros H. pose proof (blind_tex b n H t 0 (N.le_0_l _)) as M. rewrite N.min_0_l in M. unfold of_file.
  destruct (tex_load t (mkR (b ++ zeros n) 0)) as [[a s]|e| |]; cbn [mirrors] in M; try contradiction.
  - destruct M as (_ & _ & ->). reflexivity.
  - rewrite M. reflexivity.
Qed.

(** Readers that neither throw nor leave their buffer. *)
Definition total {A} (r : rd A) : Prop := forall s, r_ok s -> exists a s', r s = Ret (a, s') /\ rdata s' = rdata s /\ r_ok s'.
Lemma total_ret {A} (a : A) : total (ret a).
Proof. intros s H. exists a, s. auto. Qed.
Lemma total_bind {A B} (m : rd A) (k : A -> rd B) : total m -> (forall a, total (k a)) -> total (bind m k).
Proof.
  intros Hm Hk s H. destruct (Hm s H) as (a & s1 & E1 & D1 & K1). destruct (Hk a s1 K1) as (b & s2 & E2 & D2 & K2).
  exists b, s2. unfold bind. rewrite E1. split; [exact E2|]. split; [congruence | exact K2].
Qed.
Lemma total_read k : k <= 2 ^ 63 -> total (rd_read k).
Proof.
  intros Hk s H. rewrite rd_read_spec by assumption. eexists _, _. split; [reflexivity|]. split; [reflexivity|].
  destruct H as [H1 H2]. split; cbn [rdata rpos]; [|exact H2]. lia.
Qed.
Lemma total_fixed k : k <= 2 ^ 63 -> total (rd_fixed k).
Proof. intros H. apply total_bind; [apply total_read, H|]. intros. apply total_ret. Qed.
Lemma total_map {A} k (f : bytes -> A) : k <= 2 ^ 63 -> total (bind (rd_fixed k) (fun x => ret (f x))).
Proof. intros H. apply total_bind; [apply total_fixed, H|]. intros. apply total_ret. Qed.
Lemma total_char : total read_char. Proof. apply total_map. discriminate. Qed.
Lemma total_ubyte : total read_ubyte. Proof. apply total_map. discriminate. Qed.
Lemma total_uint : total read_uint. Proof. apply total_map. discriminate. Qed.
Lemma total_int : total read_int. Proof. apply total_bind; [apply total_uint|]. intros. apply total_ret. Qed.
Lemma total_vec2 : total read_vec2. Proof. unfold read_vec2. apply total_map. discriminate. Qed.
Lemma total_repM {A} n (m : rd A) : total m -> forall s, r_ok s ->
  exists l s', repM n m s = Ret (l, s') /\ length l = n /\ rdata s' = rdata s /\ r_ok s'.
Proof.
  intros Hm. induction n as [|n IH]; intros s H; cbn [repM].
  - exists [], s. auto.
  - destruct (Hm s H) as (a & s1 & E1 & D1 & K1). destruct (IH s1 K1) as (l & s2 & E2 & L2 & D2 & K2).
    exists (a :: l), s2. unfold bind. rewrite E1, E2. split; [reflexivity|]. split; [cbn [length]; congruence|]. split; [congruence | exact K2].
Qed.
Lemma total_rep {A} n (m : rd A) : total m -> total (repM n m).
Proof. intros H s K. destruct (total_repM n m H s K) as (l & s' & E & _ & D & K'). exists l, s'. auto. Qed.
Lemma total_color : total color_load.
Proof. unfold color_load. repeat (apply total_bind; [apply total_ubyte|]; intros). apply total_ret. Qed.
Lemma total_levels (f : N -> N) ls : (forall l, f l <= 2 ^ 63) -> forall s, r_ok s ->
  exists l s', mapM (fun x => rd_fixed (f x)) ls s = Ret (l, s') /\ map len l = map f ls /\ rdata s' = rdata s /\ r_ok s'.
Proof.
  intros Hf. induction ls as [|x ls IH]; intros s H; cbn [mapM].
  - exists [], s. auto.
  - destruct (total_fixed (f x) (Hf x) s H) as (a & s1 & E1 & D1 & K1). destruct (IH s1 K1) as (l & s2 & E2 & L2 & D2 & K2).
    exists (a :: l), s2. unfold bind at 1. rewrite E1. unfold bind at 1. rewrite E2. split; [reflexivity|]. split.
    + cbn [map]. rewrite L2. f_equal. unfold rd_fixed, bind in E1. rewrite rd_read_spec in E1 by (auto; apply Hf). unfold ret in E1. injection E1 as E1 _.
      subst a. unfold pad_to. lens. lia.
    + split; [congruence | exact K2].
Qed.

Lemma fixed_head H post q k : q + k <= len H -> len (H ++ post) < max_size ->
  rd_fixed k (mkR (H ++ post) q) = Ret (take k (drop q H), mkR (H ++ post) (q + k)).
Proof.
  intros Hq Hl. rewrite read_exact by (try exact Hl; rewrite ?len_app; pows; rewrite ?len_app in Hl; lia).
  rewrite drop_app_l by lia. rewrite take_app_l by (rewrite len_drop; lia). unfold pad_to.
  replace (k - len (take k (drop q H))) with 0 by (rewrite len_take, len_drop; lia). rewrite zeros_0, app_nil_r.
  do 3 f_equal. rewrite len_app. lia.
Qed.
Lemma uint_head H post q : q + 4 <= len H -> len (H ++ post) < max_size ->
  read_uint (mkR (H ++ post) q) = Ret (le_dec (take 4 (drop q H)), mkR (H ++ post) (q + 4)).
Proof. intros A B. unfold read_uint, bind. rewrite fixed_head by assumption. reflexivity. Qed.

Definition word_at (H : bytes) (q : N) : N := le_dec (take 4 (drop q H)).
Lemma bind_step {S0 A B} (m : M S0 A) (k : A -> M S0 B) s a s' : m s = Ret (a, s') -> bind m k s = k a s'.
Proof. intros E. unfold bind. rewrite E. reflexivity. Qed.
Lemma tex_head t H post : len H = 36 -> len (H ++ post) < max_size ->
  (exists e, forall post', len (H ++ post') < max_size -> tex_load t (mkR (H ++ post') 0) = Throw e) \/
  (exists pal maps s', tex_load t (mkR (H ++ post) 0) =
     Ret (mkTex (word_at H 8) pal (word_at H 12) (word_at H 16) (word_at H 24) (word_at H 28) (N.max 1 (word_at H 20)) (word_at H 32) (tx_maps t ++ maps), s') /\
     len pal = (if word_at H 8 =? P8 then 256 else len (tx_palette t)) /\
     map len maps = map (mipmap_size (word_at H 8) (word_at H 12) (word_at H 16)) (levels_down (N.max 1 (word_at H 20)))).
Proof.
  intros HL Hl. 
  assert (S4 : forall p, len (H ++ p) < max_size -> read_string 4 (mkR (H ++ p) 0) = Ret (take 4 (drop 0 H), mkR (H ++ p) (0 + 4))).
  { intros p Hp. unfold read_string. change (4 <? max_size) with true. cbn match. apply fixed_head; [lia | exact Hp]. }
  assert (U : forall p q, q + 4 <= 36 -> len (H ++ p) < max_size -> read_uint (mkR (H ++ p) q) = Ret (word_at H q, mkR (H ++ p) (q + 4))).
  { intros p q Hq Hp. apply uint_head; [lia | exact Hp]. }
  destruct (bytes_eqb (take 4 (drop 0 H)) (lit "ZTEX")) eqn:Es.
  2:{ left. exists ParserError. intros p Hp. unfold tex_load. rewrite (bind_step _ _ _ _ _ (S4 p Hp)), Es. reflexivity. }
  destruct (word_at H 4 =? 0) eqn:Ev.
  2:{ left. exists ParserError. intros p Hp. unfold tex_load. rewrite (bind_step _ _ _ _ _ (S4 p Hp)), Es. cbn [negb].
      rewrite (bind_step _ _ _ _ _ (U p (0 + 4) ltac:(lia) Hp)). change (0 + 4) with 4. rewrite Ev. reflexivity. }
  right. unfold tex_load. rewrite (bind_step _ _ _ _ _ (S4 post Hl)), Es. cbn [negb].
  rewrite (bind_step _ _ _ _ _ (U post (0 + 4) ltac:(lia) Hl)). change (0 + 4) with 4. rewrite Ev. cbn [negb].
  rewrite (bind_step _ _ _ _ _ (U post (4 + 4) ltac:(lia) Hl)). rewrite (bind_step _ _ _ _ _ (U post (4 + 4 + 4) ltac:(lia) Hl)).
  rewrite (bind_step _ _ _ _ _ (U post (4 + 4 + 4 + 4) ltac:(lia) Hl)). rewrite (bind_step _ _ _ _ _ (U post (4 + 4 + 4 + 4 + 4) ltac:(lia) Hl)).
  rewrite (bind_step _ _ _ _ _ (U post (4 + 4 + 4 + 4 + 4 + 4) ltac:(lia) Hl)). rewrite (bind_step _ _ _ _ _ (U post (4 + 4 + 4 + 4 + 4 + 4 + 4) ltac:(lia) Hl)).
  rewrite (bind_step _ _ _ _ _ (U post (4 + 4 + 4 + 4 + 4 + 4 + 4 + 4) ltac:(lia) Hl)).
  change (4 + 4 + 4 + 4 + 4 + 4 + 4 + 4 + 4) with 36. change (4 + 4 + 4 + 4 + 4 + 4 + 4 + 4) with 32. change (4 + 4 + 4 + 4 + 4 + 4 + 4) with 28.
  change (4 + 4 + 4 + 4 + 4 + 4) with 24. change (4 + 4 + 4 + 4 + 4) with 20. change (4 + 4 + 4 + 4) with 16. change (4 + 4 + 4) with 12. change (4 + 4) with 8.
  cbv zeta.
  assert (K : r_ok (mkR (H ++ post) 36)) by (split; cbn [rdata rpos]; [rewrite len_app; lia | exact Hl]).
  assert (P : exists pal s1, (if word_at H 8 =? P8 then repM 256 color_load else ret (tx_palette t)) (mkR (H ++ post) 36) = Ret (pal, s1) /\
     len pal = (if word_at H 8 =? P8 then 256 else len (tx_palette t)) /\ r_ok s1).
  { destruct (word_at H 8 =? P8).
    - destruct (total_repM 256 color_load total_color _ K) as (l & s1 & E & L & _ & K1). exists l, s1. split; [exact E|]. split; [unfold len; rewrite L; reflexivity | exact K1].
    - exists (tx_palette t), (mkR (H ++ post) 36). auto. }
  destruct P as (pal & s1 & E1 & L1 & K1). rewrite (bind_step _ _ _ _ _ E1).
  destruct (total_levels (mipmap_size (word_at H 8) (word_at H 12) (word_at H 16)) (levels_down (N.max 1 (word_at H 20)))) with (s := s1) as (maps & s2 & E2 & L2 & _ & K2);
    [intros l; pose proof (mipmap_size_bound (word_at H 8) (word_at H 12) (word_at H 16) l); pows; lia | exact K1 |].
  rewrite (bind_step _ _ _ _ _ E2). exists pal, maps, s2. unfold ret. auto.
Qed.
Lemma tex_cut t b k t1 : len b < max_size -> of_file (tex_load t) b = Ret t1 -> 36 <= k <= len b ->
  exists t2, of_file (tex_load t) (take k b) = Ret t2 /\
    tx_format t2 = tx_format t1 /\ tx_width t2 = tx_width t1 /\ tx_height t2 = tx_height t1 /\
    tx_ref_width t2 = tx_ref_width t1 /\ tx_ref_height t2 = tx_ref_height t1 /\ tx_count t2 = tx_count t1 /\ tx_average t2 = tx_average t1 /\
    len (tx_palette t2) = len (tx_palette t1) /\ map len (tx_maps t2) = map len (tx_maps t1).
Proof.
  intros Hl E Hk. assert (LH : len (take 36 b) = 36) by (rewrite len_take; lia).
  assert (B1 : b = take 36 b ++ drop 36 b) by (symmetry; apply take_drop).
  assert (B2 : take k b = take 36 b ++ take (k - 36) (drop 36 b)).
  { rewrite B1 at 1. rewrite take_app_r by lia. rewrite LH. reflexivity. }
  assert (L2 : len (take 36 b ++ take (k - 36) (drop 36 b)) < max_size) by (rewrite <- B2, len_take; lia).
  assert (L1 : len (take 36 b ++ drop 36 b) < max_size) by (rewrite <- B1; exact Hl).
  unfold of_file in *. rewrite B2. rewrite B1 in E.
  destruct (tex_head t _ _ LH L1) as [(e & T)|(pal & maps & s & T & P & M)]; [rewrite (T _ L1) in E; discriminate|].
  destruct (tex_head t _ _ LH L2) as [(e & T')|(pal' & maps' & s' & T' & P' & M')]; [rewrite (T' _ L1) in T; discriminate|].
  rewrite T in E. injection E as <-. rewrite T'. eexists. split; [reflexivity|].
  cbn [tx_format tx_width tx_height tx_ref_width tx_ref_height tx_count tx_average tx_palette tx_maps].
  do 7 (split; [reflexivity|]). split; [congruence|]. rewrite !map_app. f_equal. exact (eq_trans M' (eq_sym M)).
Qed.

(** ** Fonts *)
Lemma font_version post : len ((lit "1" ++ [x0a]) ++ post) < max_size -> starts_visible post -> hd x01 post <> x00 ->
  read_line true (mkR ((lit "1" ++ [x0a]) ++ post) 0) = Ret (lit "1", mkR ((lit "1" ++ [x0a]) ++ post) 2).
Proof.
  intros Hl Hv H0. unfold read_line. pose proof (read_line_skip ws_chars (lit "1") x0a [] post []) as R. cbn [app] in R. change (len (@nil byte)) with 0 in R.
  change ((lit "1" ++ [x0a]) ++ post) with (lit "1" ++ x0a :: post) in *. rewrite R; [reflexivity | discriminate | | right; reflexivity | constructor | | exact Hl].
  - apply Forall_cons; [|apply Forall_nil]. repeat split; discriminate.
  - destruct post as [|c nm]; [exact I|]. split; [|intros ->; cbn in H0; congruence].
    destruct (in_chars ws_chars c) eqn:E; [|reflexivity]. exfalso. apply Hv.
    unfold in_chars in E. apply andb_true_iff in E. destruct E as [_ E]. apply existsb_exists in E.
    destruct E as (x & Hx & E). apply beq_spec in E. subst x. exact Hx.
Qed.
Lemma font_zeros rest n : len ((lit "1" ++ [x0a]) ++ rest ++ zeros n) < max_size -> starts_visible rest -> hd x01 rest <> x00 ->
  of_file font_load ((lit "1" ++ [x0a]) ++ rest ++ zeros n) = of_file font_load ((lit "1" ++ [x0a]) ++ rest).
Proof.
  intros Hl Hv H0.
  assert (Hl' : len ((lit "1" ++ [x0a]) ++ rest) < max_size) by (rewrite !len_app in *; lia).
  assert (V : starts_visible (rest ++ zeros n) /\ hd x01 (rest ++ zeros n) <> x00) by (destruct rest; [destruct Hv | split; assumption]).
  unfold of_file, font_load. rewrite (bind_step _ _ _ _ _ (font_version _ Hl' Hv H0)).
  rewrite (bind_step _ _ _ _ _ (font_version _ Hl (proj1 V) (proj2 V))).
  replace (negb (bytes_eqb (lit "1") (lit "1"))) with false by reflexivity.
  assert (Hl2 : len (((lit "1" ++ [x0a]) ++ rest) ++ zeros n) < max_size) by (rewrite <- app_assoc; exact Hl).
  pose proof (blind_font_rest _ n Hl2 [] 2) as M. specialize (M ltac:(rewrite !len_app; change (len (lit "1")) with 1; change (len [x0a]) with 1; lia)).
  rewrite N.min_l in M by (rewrite !len_app; change (len (lit "1")) with 1; change (len [x0a]) with 1; lia).
  rewrite <- app_assoc in M.
  match goal with |- match ?f (mkR ((_ ++ _) ++ rest ++ _) 2) with _ => _ end = _ => set (F := f) in *; change (mirrors ((lit "1" ++ [x0a]) ++ rest) n (F (mkR ((lit "1" ++ [x0a]) ++ rest ++ zeros n) 2)) (F (mkR ((lit "1" ++ [x0a]) ++ rest) 2))) in M end.
  destruct (F (mkR ((lit "1" ++ [x0a]) ++ rest ++ zeros n) 2)) as [[a s]|e| |]; cbn [mirrors] in M; try contradiction.
  - destruct M as (_ & _ & ->). reflexivity.
  - rewrite M. reflexivity.
Qed.
Lemma zip_length : forall ws a b n, length ws = n -> length a = n -> length b = n -> length (zip_glyphs ws a b) = n.
Proof.
  induction ws as [|w ws IH]; intros a b n H1 H2 H3; cbn [zip_glyphs].
  - exact H1.
  - destruct a as [|x a]; [cbn [length] in *; lia|]. destruct b as [|y b]; [cbn [length] in *; lia|]. destruct n as [|n]; [discriminate|].
    cbn [length] in *. f_equal. apply IH; lia.
Qed.
Lemma font_head f post : no_eol (fo_name f) -> fo_height f < 2 ^ 32 -> len (fo_glyphs f) < 2 ^ 32 -> starts_visible (fo_name f) ->
  len ((lit "1" ++ [x0a]) ++ (fo_name f ++ [x0a]) ++ le_enc 4 (fo_height f) ++ le_enc 4 (len (fo_glyphs f)) ++ post) < max_size ->
  exists f', of_file font_load ((lit "1" ++ [x0a]) ++ (fo_name f ++ [x0a]) ++ le_enc 4 (fo_height f) ++ le_enc 4 (len (fo_glyphs f)) ++ post) = Ret f' /\
    fo_name f' = fo_name f /\ fo_height f' = fo_height f /\ len (fo_glyphs f') = len (fo_glyphs f).
Proof.
  intros Hn Hh Hc Hv Hl. unfold of_file, font_load.
  assert (V : starts_visible ((fo_name f ++ [x0a]) ++ le_enc 4 (fo_height f) ++ le_enc 4 (len (fo_glyphs f)) ++ post) /\
     hd x01 ((fo_name f ++ [x0a]) ++ le_enc 4 (fo_height f) ++ le_enc 4 (len (fo_glyphs f)) ++ post) <> x00).
  { destruct (fo_name f) as [|c nm]; [destruct Hv|]. split; [exact Hv|]. cbn. inversion Hn as [|? ? (H0 & _) _]; subst. congruence. }
  rewrite (bind_step _ _ _ _ _ (font_version _ Hl (proj1 V) (proj2 V))).
  replace (negb (bytes_eqb (lit "1") (lit "1"))) with false by reflexivity.
  assert (R : reads (bind (read_line false) (fun name => bind read_uint (fun height => bind read_uint (fun n => ret (name, height, n)))))
     ((fo_name f ++ [x0a]) ++ le_enc 4 (fo_height f) ++ le_enc 4 (len (fo_glyphs f)) ++ []) (fo_name f, fo_height f, len (fo_glyphs f))).
  { eapply reads_bind; [apply reads_line_nows; [exact Hn | reflexivity]|]. cbv beta.
    eapply reads_bind; [apply reads_uint, Hh|]. eapply reads_bind; [apply reads_uint, Hc|]. apply reads_ret. }
  specialize (R (lit "1" ++ [x0a]) post I). 
  replace ((lit "1" ++ [x0a]) ++ ((fo_name f ++ [x0a]) ++ le_enc 4 (fo_height f) ++ le_enc 4 (len (fo_glyphs f)) ++ []) ++ post)
    with ((lit "1" ++ [x0a]) ++ (fo_name f ++ [x0a]) ++ le_enc 4 (fo_height f) ++ le_enc 4 (len (fo_glyphs f)) ++ post) in R
    by (rewrite app_nil_r, <- !app_assoc; reflexivity).
  specialize (R Hl). change (len (lit "1" ++ [x0a])) with 2 in R.
  unfold bind at 1 in R. unfold bind at 1. 
  destruct (read_line false _) as [[nm s1]|?| |]; try discriminate. unfold bind at 1 in R. unfold bind at 1.
  destruct (read_uint s1) as [[hh s2]|?| |]; try discriminate. unfold bind at 1 in R. unfold bind at 1.
  destruct (read_uint s2) as [[c s3]|?| |]; try discriminate. unfold ret in R. injection R as -> -> -> ->.
  match goal with |- context [mkR ?d ?p] => assert (K : r_ok (mkR d p)) end.
  { split; cbn [rdata rpos]; [|exact Hl]. rewrite !len_app. change (len (lit "1")) with 1. change (len [x0a]) with 1. lens. lia. }
  destruct (total_repM (N.to_nat (len (fo_glyphs f))) _ total_ubyte _ K) as (ws & s4 & E4 & L4 & _ & K4). rewrite (bind_step _ _ _ _ _ E4).
  destruct (total_repM (N.to_nat (len (fo_glyphs f))) _ total_vec2 _ K4) as (a & s5 & E5 & L5 & _ & K5). rewrite (bind_step _ _ _ _ _ E5).
  destruct (total_repM (N.to_nat (len (fo_glyphs f))) _ total_vec2 _ K5) as (b & s6 & E6 & L6 & _ & K6). rewrite (bind_step _ _ _ _ _ E6).
  unfold ret. eexists. split; [reflexivity|]. cbn [fo_name fo_height fo_glyphs]. split; [reflexivity|]. split; [reflexivity|].
  unfold len at 1. rewrite (zip_length _ _ _ _ L4 L5 L6). lia.
Qed.
Lemma len_glyphs l : len (glyph_bytes l) = 17 * len l.
Proof.
  assert (W : forall (g : glyph -> bytes) k l, (forall x, len (g x) = k) -> len (flat_map g l) = k * len l).
  { intros g k m H. induction m as [|x m IH]; [change (0 = k * 0); lia|]. cbn [flat_map]. rewrite len_app, len_cons, IH, H. lia. }
  unfold glyph_bytes. rewrite !len_app. rewrite (W _ 1), (W _ 8), (W _ 8); [lia | intros [w a b]; unfold v2_enc; lens; lia ..].
Qed.
Lemma font_cut f k : font_ok f -> starts_visible (fo_name f) -> len (fo_name f) + 11 + 17 * len (fo_glyphs f) < max_size ->
  len (fo_name f) + 11 <= k ->
  exists file f', file_of (font_save f) = Ret file /\ len file = len (fo_name f) + 11 + 17 * len (fo_glyphs f) /\
    of_file font_load (take k file) = Ret f' /\
    fo_name f' = fo_name f /\ fo_height f' = fo_height f /\ len (fo_glyphs f') = len (fo_glyphs f).
Proof.
  intros (Hn & Hh & Hc & Hg) Hv Hl Hk.
  set (hd_ := (lit "1" ++ [x0a]) ++ (fo_name f ++ [x0a]) ++ le_enc 4 (fo_height f) ++ le_enc 4 (len (fo_glyphs f))).
  assert (LH : len hd_ = len (fo_name f) + 11).
  { unfold hd_. rewrite !len_app. change (len (lit "1")) with 1. change (len [x0a]) with 1. lens. lia. }
  assert (F : font_bytes f = hd_ ++ glyph_bytes (fo_glyphs f)).
  { unfold hd_, font_bytes, font_tail. rewrite <- !app_assoc. reflexivity. }
  assert (LF : len (font_bytes f) = len (fo_name f) + 11 + 17 * len (fo_glyphs f)) by (rewrite F, len_app, len_glyphs; lia).
  assert (W : file_of (font_save f) = Ret (font_bytes f)).
  { unfold file_of. rewrite (font_writes f Hc w_empty eq_refl); [reflexivity|]. change (len (wbuf w_empty)) with 0. lia. }
  exists (font_bytes f). rewrite W. rewrite F in *. rewrite take_app_r by lia. set (post := take _ _).
  assert (LP : len (hd_ ++ post) < max_size) by (unfold post; rewrite len_app, len_take in *; lia).
  pose proof (font_head f post Hn Hh Hc Hv) as X. unfold hd_ in *. rewrite <- !app_assoc in *. destruct (X LP) as (f' & X1 & X2).
  exists f'. split; [reflexivity|]. split; [exact LF|]. split; [exact X1 | exact X2].
Qed.
