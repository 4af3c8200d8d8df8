(** Opaque instances. *)

From Coq Require Import Lia.
From Verif Require Import MBase LBase MStream MDaedalus MVm LVm SSym LDaedalus LSym.
Local Open Scope N_scope.
Ltac Zify.zify_post_hook ::= idtac.

Lemma need_set l m x y ms : nth_N l m = Some x -> s_count y = s_count x -> s_type y = s_type x ->
  need (set_N l m y) ms = need l ms.
Proof.
  intros H1 H2 H3. induction ms as [|a ms IH]; cbn; [reflexivity|]. rewrite IH, nth_set_N.
  destruct (N.eqb_spec a m) as [->|]; [|reflexivity]. rewrite H1. apply nth_N_lt, N.ltb_lt in H1. rewrite H1, H2, H3. reflexivity.
Qed.

Lemma mod4_8 a : a mod 8 = 0 -> a mod 4 = 0.
Proof. intros H. apply N.mod_divide in H; [|lia]. apply N.mod_divide; [lia|]. destruct H as [q ->]. exists (q * 2). lia. Qed.
Lemma mod4_add a b : a mod 4 = 0 -> b mod 4 = 0 -> (a + b) mod 4 = 0.
Proof.
  intros H1 H2. apply N.mod_divide in H1; [|lia]. apply N.mod_divide in H2; [|lia]. apply N.mod_divide; [lia|].
  destruct H1 as [p ->], H2 as [q ->]. exists (p + q). lia.
Qed.
Lemma mod4_mul a b : a mod 4 = 0 -> (a * b) mod 4 = 0.
Proof. intros H. apply N.mod_divide in H; [|lia]. apply N.mod_divide; [lia|]. destruct H as [q ->]. exists (q * b). lia. Qed.
Lemma el_size_mod4 t : el_size t mod 4 = 0.
Proof. unfold el_size. destruct (_ =? _); reflexivity. Qed.
Lemma round8 s : let r := s mod 8 in (s + (if r =? 0 then 0 else 8 - r)) mod 8 = 0 /\ (if r =? 0 then 0 else 8 - r) <= 7.
Proof.
  cbv zeta. pose proof (N.mod_lt s 8). pose proof (N.div_mod s 8). destruct (N.eqb_spec (s mod 8) 0) as [E|E].
  - rewrite N.add_0_r. split; [exact E|lia].
  - split; [|lia]. apply N.mod_divide; [lia|]. exists (s / 8 + 1). lia.
Qed.

Lemma place_ok size ty count : ty < 8 -> size mod 4 = 0 -> size + 8 + count * el_size ty < 2 ^ 32 ->
  exists o size', place size ty count = (Some o, size') /\ size <= o /\ size' = o + count * el_size ty /\
    o mod al ty = 0 /\ size' mod 4 = 0 /\ size' <= size + 7 + count * el_size ty.
Proof.
  intros H1 H2 H3. unfold place, al. destruct (N.eqb_spec ty T_STRING) as [->|N3].
  - change (el_size T_STRING) with 32 in *. change str_align with 8. change str_size with 32.
    destruct (round8 size) as [R1 R2]. cbv zeta in R1, R2. set (p := if size mod 8 =? 0 then 0 else 8 - size mod 8) in *. clearbody p.
    rewrite !u32_id by (rewrite ?u32_id; lia). eexists _, _. split; [reflexivity|]. split; [lia|]. split; [lia|]. split; [exact R1|]. split; [|lia].
    replace (size + p + 32 * count) with (size + p + count * 32) by lia. apply mod4_add; [apply mod4_8, R1|]. rewrite N.mul_comm. apply (mod4_mul 32). reflexivity.
  - replace (ty <? 8) with true by (symmetry; apply N.ltb_lt; exact H1).
    assert (E : el_size ty = 4) by (unfold el_size; apply N.eqb_neq in N3; rewrite N3; reflexivity). rewrite E in *.
    eexists _, _. split; [reflexivity|]. rewrite u32_id by lia. split; [lia|]. split; [lia|]. split; [exact H2|]. split; [|lia].
    apply mod4_add; [exact H2|]. apply (mod4_mul 4). reflexivity.
Qed.

Lemma place_members_spec ms : forall l size l' size',
  place_members l ms size = (l', size') -> NoDup ms ->
  (forall m, In m ms -> exists x, nth_N l m = Some x /\ s_type x < 8) ->
  size mod 4 = 0 -> size + need l ms < 2 ^ 32 ->
  size <= size' /\ size' < 2 ^ 32 /\ len l' = len l /\
  (forall i, ~ In i ms -> nth_N l' i = nth_N l i) /\
  (forall m x, In m ms -> nth_N l m = Some x -> exists o, nth_N l' m = Some (with_member x o (Some opaque_type)) /\
     size <= o /\ o + s_count x * el_size (s_type x) <= size' /\ o mod al (s_type x) = 0) /\
  (forall m1 m2 x1 x2, In m1 ms -> In m2 ms -> m1 <> m2 -> nth_N l' m1 = Some x1 -> nth_N l' m2 = Some x2 ->
     s_moff x1 + s_count x1 * el_size (s_type x1) <= s_moff x2 \/ s_moff x2 + s_count x2 * el_size (s_type x2) <= s_moff x1).
Proof.
  induction ms as [|m ms IH]; intros l size l' size' P ND T A B; cbn [place_members] in P.
  - injection P as <- <-. cbn in B. split; [lia|]. split; [lia|]. split; [reflexivity|]. split; [reflexivity|].
    split; [intros ? ? []|intros ? ? ? ? []].
  - destruct (T m (or_introl eq_refl)) as (x & Hx & Tx). rewrite Hx in P. cbn [need] in B. rewrite Hx in B.
    destruct (place_ok size (s_type x) (s_count x) Tx A) as (o & size1 & E & O1 & O2 & O3 & O4 & O5); [lia|].
    rewrite E in P. inversion ND as [|? ? Nm ND']; subst.
    set (y := with_member x o (Some opaque_type)) in *.
    assert (Lm : m < len l) by (eapply nth_N_lt, Hx).
    assert (Ym : nth_N (set_N l m y) m = Some y).
    { rewrite nth_set_N, N.eqb_refl. apply N.ltb_lt in Lm. rewrite Lm. reflexivity. }
    assert (Yo : forall i, i <> m -> nth_N (set_N l m y) i = nth_N l i).
    { intros i Hi. rewrite nth_set_N. apply N.eqb_neq in Hi. rewrite Hi. reflexivity. }
    specialize (IH (set_N l m y) (o + s_count x * el_size (s_type x)) l' size' P ND').
    destruct IH as (S1 & S2 & S3 & S4 & S5 & S6).
    + intros k Hk. rewrite Yo by congruence. apply T. right. exact Hk.
    + exact O4.
    + rewrite (need_set l m x) by auto. lia.
    + assert (Hm : nth_N l' m = Some y) by (rewrite S4 by exact Nm; exact Ym).
      split; [lia|]. split; [exact S2|]. split; [rewrite S3; apply set_N_len|]. split; [|split].
      * intros i Hi. rewrite S4 by (intros H; apply Hi; right; exact H). apply Yo. intros ->. apply Hi. left. reflexivity.
      * intros k z [<-|Hk] Hz.
        -- rewrite Hx in Hz. injection Hz as <-. exists o. split; [exact Hm|]. split; [lia|]. split; [lia|exact O3].
        -- destruct (S5 k z Hk) as (o' & Q1 & Q2 & Q3 & Q4); [rewrite Yo by congruence; exact Hz|].
           exists o'. split; [exact Q1|]. split; [lia|]. split; [lia|exact Q4].
      * assert (Q : forall k z, In k ms -> nth_N l' k = Some z -> o + s_count x * el_size (s_type x) <= s_moff z).
        { intros k z Hk Hz. destruct (T k (or_intror Hk)) as (w & Hw & _).
          destruct (S5 k w Hk) as (o' & Q1 & Q2 & Q3 & Q4); [rewrite Yo by congruence; exact Hw|].
          rewrite Q1 in Hz. injection Hz as <-. exact Q2. }
        intros m1 m2 x1 x2 [<-|I1] [<-|I2] Ne H1 H2; [congruence| | |].
        -- rewrite Hm in H1. injection H1 as <-. left. apply (Q m2); auto.
        -- rewrite Hm in H2. injection H2 as <-. right. apply (Q m1); auto.
        -- apply (S6 m1 m2); auto.
Qed.

(** * Members of a class *)
Lemma members_from_In cls l : forall i m, In m (members_from cls i l) <->
  exists x, i <= m /\ nth_N l (m - i) = Some x /\ is_member x = true /\ s_parent x = cls.
Proof.
  induction l as [|y l IH]; intros i m; cbn [members_from].
  - split; [intros []|]. intros (x & _ & H & _). rewrite nth_N_error in H. destruct (N.to_nat _); discriminate.
  - assert (R : In m (members_from cls (i + 1) l) <-> exists x, i < m /\ nth_N (y :: l) (m - i) = Some x /\ is_member x = true /\ s_parent x = cls).
    { rewrite IH. split; intros (x & H1 & H2 & H3); exists x; (split; [lia|]); (split; [|exact H3]).
      - replace (m - i) with (m - (i + 1) + 1) by lia. rewrite nth_N_S. exact H2.
      - replace (m - i) with (m - (i + 1) + 1) in H2 by lia. rewrite nth_N_S in H2. exact H2. }
    destruct (is_member y && (s_parent y =? cls)) eqn:E.
    + apply andb_true_iff in E as [E1 E2]. apply N.eqb_eq in E2. cbn [In]. rewrite R. split.
      * intros [<-|(x & H1 & H2)]; [exists y; rewrite N.sub_diag, nth_N_0; repeat split; auto; lia|]. exists x. split; [lia|exact H2].
      * intros (x & H1 & H2 & H3). destruct (N.eq_dec i m); [left; auto|right]. exists x. split; [lia|]. auto.
    + rewrite R. split.
      * intros (x & H1 & H2). exists x. split; [lia|exact H2].
      * intros (x & H1 & H2 & H3 & H4). exists x. destruct (N.eq_dec i m) as [->|]; [|split; [lia|auto]].
        rewrite N.sub_diag, nth_N_0 in H2. injection H2 as ->. rewrite H3, H4, N.eqb_refl in E. discriminate.
Qed.
Lemma members_from_ge cls l : forall i m, In m (members_from cls i l) -> i <= m.
Proof. intros i m H. apply members_from_In in H as (x & H & _). exact H. Qed.
Lemma members_from_nodup cls l : forall i, NoDup (members_from cls i l).
Proof.
  induction l as [|y l IH]; intros i; cbn; [constructor|]. destruct (_ && _); [|apply IH].
  constructor; [|apply IH]. intros H. apply members_from_ge in H. lia.
Qed.
Lemma class_members_In l cls m : In m (class_members l cls) <-> exists x, nth_N l m = Some x /\ is_member x = true /\ s_parent x = cls.
Proof.
  unfold class_members. rewrite members_from_In. split; intros (x & H); exists x; rewrite N.sub_0_r in *; [tauto|]. split; [lia|tauto].
Qed.
Lemma members_from_eq cls l : forall l' i, len l' = len l ->
  (forall k, option_map (fun x => (is_member x, s_parent x)) (nth_N l' k) = option_map (fun x => (is_member x, s_parent x)) (nth_N l k)) ->
  members_from cls i l' = members_from cls i l.
Proof.
  induction l as [|x l IH]; intros [|x' l'] i L H; try (rewrite ?len_cons, ?len_nil in L; lia); [reflexivity|].
  cbn [members_from]. pose proof (H 0) as H0. rewrite !nth_N_0 in H0. cbn in H0. injection H0 as -> ->.
  rewrite (IH l' (i + 1)); [reflexivity| |].
  - rewrite !len_cons in L. lia.
  - intros k. specialize (H (k + 1)). rewrite !nth_N_S in H. exact H.
Qed.

(** * Storage *)
Definition csize_of (c : cell) : N := match c with CWord _ => 4 | CStr _ => 32 end.
Definition below_mem (n : inst) (p : N) : Prop := forall q c, n_mem n q = Some c -> q + csize_of c <= p.
Lemma fresh_size ty : csize_of (fresh_cell ty) = el_size ty.
Proof. unfold fresh_cell, el_size. destruct (_ =? _); reflexivity. Qed.

Lemma aligned_al ty o : o mod al ty = 0 -> align_up o (if ty =? T_STRING then str_align else 4) = o.
Proof. unfold align_up, al, str_align. intros H. destruct (ty =? T_STRING); rewrite H; reflexivity. Qed.

Lemma str_near_below n o : below_mem n o -> str_near (n_mem n) o = false.
Proof.
  intros B. assert (U : forall q, o <= q -> n_mem n q = None).
  { intros q Hq. destruct (n_mem n q) as [c|] eqn:E; [|reflexivity]. apply B in E. destruct c; cbn in E; lia. }
  unfold str_near. apply orb_false_iff. split.
  - cbn [existsb]. rewrite !U by lia. reflexivity.
  - destruct (existsb _ (seq 1 31)) eqn:E; [|reflexivity]. apply existsb_exists in E as (k & Hk & E). apply in_seq in Hk.
    apply andb_true_iff in E as [E1 E2]. apply N.leb_le in E1. destruct (n_mem n (o - N.of_nat k)) as [[|s]|] eqn:F; try discriminate.
    apply B in F. cbn in F. lia.
Qed.

Lemma construct_ok n o ty : below_mem n o -> o mod al ty = 0 -> o + el_size ty <= n_size n ->
  exists n', construct n o ty = Ret n' /\ n_size n' = n_size n /\ n_type n' = n_type n /\
    below_mem n' (o + el_size ty) /\ n_mem n' o = Some (fresh_cell ty) /\ (forall q, q < o -> n_mem n' q = n_mem n q).
Proof.
  intros B A S. unfold construct. rewrite aligned_al by exact A. unfold cell_size, str_size.
  assert (U : forall q, o <= q -> n_mem n q = None).
  { intros q Hq. destruct (n_mem n q) as [c|] eqn:E; [|reflexivity]. apply B in E. destruct c; cbn in E; lia. }
  unfold el_size, fresh_cell in *. destruct (ty =? T_STRING) eqn:T.
  - replace (n_size n <? o + 32) with false by (symmetry; apply N.ltb_ge; exact S). eexists. split; [reflexivity|]. cbn.
    split; [reflexivity|]. split; [reflexivity|]. split; [|split].
    + intros q c. cbn. unfold put_str. destruct (N.eqb_spec q o) as [->|]; [injection 1 as <-; cbn; lia|]. intros H. apply B in H. lia.
    + unfold put_str. rewrite N.eqb_refl. reflexivity.
    + intros q Hq. unfold put_str. destruct (N.eqb_spec q o); [lia|reflexivity].
  - replace (n_size n <? o + 4) with false by (symmetry; apply N.ltb_ge; exact S).
    unfold mem_set_word. rewrite str_near_below by exact B.
    replace (n_size n <? o + 4) with false by (symmetry; apply N.ltb_ge; exact S). cbn [orb].
    eexists. split; [reflexivity|]. cbn. split; [reflexivity|]. split; [reflexivity|]. split; [|split].
    + intros q c. cbn. unfold put_word. destruct (N.eqb_spec q o) as [->|]; [injection 1 as <-; cbn; lia|].
      destruct (_ && _); [discriminate|]. intros H. apply B in H. lia.
    + unfold put_word. rewrite N.eqb_refl. reflexivity.
    + intros q Hq. unfold put_word. destruct (N.eqb_spec q o); [lia|].
      destruct ((o <? q + 4) && (q <? o + 4)) eqn:E; [|reflexivity]. apply andb_true_iff in E as [E _]. apply N.ltb_lt in E.
      destruct (n_mem n q) as [c|] eqn:F; [|reflexivity]. apply B in F. destruct c; cbn in F; lia.
Qed.

Lemma al_step ty o : o mod al ty = 0 -> (o + el_size ty) mod al ty = 0.
Proof.
  unfold al, el_size. destruct (_ =? _); intros H.
  - apply N.mod_divide in H; [|lia]. apply N.mod_divide; [lia|]. destruct H as [q ->]. exists (q + 4). lia.
  - apply N.mod_divide in H; [|lia]. apply N.mod_divide; [lia|]. destruct H as [q ->]. exists (q + 1). lia.
Qed.

Lemma construct_n_ok k : forall n o ty, below_mem n o -> o mod al ty = 0 -> o + N.of_nat k * el_size ty <= n_size n -> n_size n < 2 ^ 32 ->
  exists n', construct_n k n o ty = Ret n' /\ n_size n' = n_size n /\ n_type n' = n_type n /\
    below_mem n' (o + N.of_nat k * el_size ty) /\
    (forall j, j < N.of_nat k -> n_mem n' (o + j * el_size ty) = Some (fresh_cell ty)) /\
    (forall q, q < o -> n_mem n' q = n_mem n q).
Proof.
  induction k as [|k IH]; intros n o ty B A SZ L; cbn [construct_n].
  - exists n. split; [reflexivity|]. split; [reflexivity|]. split; [reflexivity|]. split; [rewrite N.add_0_r; exact B|]. split; [lia|auto].
  - pose proof (el_size_pos ty) as P. destruct (construct_ok n o ty B A) as (n1 & E1 & S1 & T1 & B1 & M1 & F1); [nia|]. rewrite E1. cbn [obind].
    assert (CS : cell_size ty = el_size ty) by reflexivity. rewrite CS.
    rewrite u32_id by nia.
    destruct (IH n1 (o + el_size ty) ty B1 (al_step ty o A)) as (n2 & E2 & S2 & T2 & B2 & M2 & F2); [rewrite S1; nia|lia|].
    exists n2. split; [exact E2|]. split; [congruence|]. split; [congruence|]. split; [|split].
    + replace (o + N.of_nat (Datatypes.S k) * el_size ty) with (o + el_size ty + N.of_nat k * el_size ty) by nia. exact B2.
    + intros j Hj. destruct (N.eq_dec j 0) as [->|Hj0].
      * rewrite N.mul_0_l, N.add_0_r. rewrite F2 by lia. exact M1.
      * replace (o + j * el_size ty) with (o + el_size ty + (j - 1) * el_size ty) by nia. apply M2. lia.
    + intros q Hq. rewrite F2 by lia. apply F1. exact Hq.
Qed.

Lemma construct_all_ok l sz : forall ms p n,
  (forall m x, In m ms -> nth_N l m = Some x -> s_type x < 8 /\ s_moff x mod al (s_type x) = 0 /\ s_moff x + s_count x * el_size (s_type x) <= sz) ->
  (forall m, In m ms -> exists x, nth_N l m = Some x) ->
  (* laid out one after the other *)
  (forall a m b x, ms = a ++ m :: b -> nth_N l m = Some x ->
     p <= s_moff x /\ forall m' x', In m' b -> nth_N l m' = Some x' -> s_moff x + s_count x * el_size (s_type x) <= s_moff x') ->
  below_mem n p -> n_size n = sz -> sz < 2 ^ 32 ->
  exists n', construct_all l ms n = Ret n' /\ n_size n' = sz /\ n_type n' = n_type n /\
    (forall q, q < p -> n_mem n' q = n_mem n q) /\
    (forall m x j, In m ms -> nth_N l m = Some x -> j < s_count x -> n_mem n' (s_moff x + j * el_size (s_type x)) = Some (fresh_cell (s_type x))).
Proof.
  induction ms as [|m ms IH]; intros p n G X O B S L; cbn [construct_all].
  - exists n. repeat split; auto. intros ? ? ? [].
  - destruct (X m (or_introl eq_refl)) as (x & Hx). rewrite Hx. destruct (G m x (or_introl eq_refl) Hx) as (G1 & G2 & G3).
    replace (s_type x <? 8) with true by (symmetry; apply N.ltb_lt; exact G1).
    destruct (O [] m ms x eq_refl Hx) as [O1 O2].
    destruct (construct_n_ok (N.to_nat (s_count x)) n (s_moff x) (s_type x)) as (n1 & E1 & S1 & T1 & B1 & M1 & F1).
    + intros q c Hq. apply B in Hq. lia.
    + exact G2.
    + rewrite N2Nat.id, S. exact G3.
    + lia.
    + rewrite N2Nat.id in *. rewrite E1. cbn [obind].
      destruct (IH (s_moff x + s_count x * el_size (s_type x)) n1) as (n2 & E2 & S2 & T2 & F2 & M2).
      * intros k y Hk. apply G. right. exact Hk.
      * intros k Hk. apply X. right. exact Hk.
      * intros a k b y E Hy. split.
        -- apply (O2 k y); auto. rewrite E. apply in_or_app. right. left. reflexivity.
        -- destruct (O (m :: a) k b y) as [_ H]; [rewrite E; reflexivity|exact Hy|exact H].
      * exact B1.
      * congruence.
      * exact L.
      * exists n2. split; [exact E2|]. split; [exact S2|]. split; [congruence|]. split.
        -- intros q Hq. rewrite F2 by lia. apply F1. lia.
        -- intros k y j [<-|Hk] Hy Hj; [|apply (M2 k); auto]. rewrite Hx in Hy. injection Hy as <-.
           rewrite F2; [apply M1; exact Hj|]. pose proof (el_size_pos (s_type x)). nia.
Qed.

(** In the order of the table, members are laid out one after the other. *)
Lemma place_members_order ms : forall l size l' size',
  place_members l ms size = (l', size') -> NoDup ms ->
  (forall m, In m ms -> exists x, nth_N l m = Some x /\ s_type x < 8) ->
  size mod 4 = 0 -> size + need l ms < 2 ^ 32 ->
  forall a m b x, ms = a ++ m :: b -> nth_N l' m = Some x ->
    size <= s_moff x /\ forall m' x', In m' b -> nth_N l' m' = Some x' -> s_moff x + s_count x * el_size (s_type x) <= s_moff x'.
Proof.
  induction ms as [|m0 ms IH]; intros l size l' size' P ND T A B a m b x E Hx; [destruct a; discriminate|].
  cbn [place_members] in P. destruct (T m0 (or_introl eq_refl)) as (x0 & Hx0 & T0). rewrite Hx0 in P.
  cbn [need] in B. rewrite Hx0 in B.
  destruct (place_ok size (s_type x0) (s_count x0) T0 A) as (o & size1 & E1 & O1 & O2 & O3 & O4 & O5); [lia|].
  rewrite E1 in P. inversion ND as [|? ? Nm ND']; subst.
  set (y := with_member x0 o (Some opaque_type)) in *.
  assert (T' : forall k, In k ms -> exists z, nth_N (set_N l m0 y) k = Some z /\ s_type z < 8).
  { intros k Hk. rewrite nth_set_N. replace (k =? m0) with false by (symmetry; apply N.eqb_neq; congruence). apply T. right. exact Hk. }
  assert (B' : o + s_count x0 * el_size (s_type x0) + need (set_N l m0 y) ms < 2 ^ 32).
  { rewrite (need_set l m0 x0) by auto. lia. }
  destruct a as [|a0 a]; cbn in E; injection E as -> E.
  - subst b. destruct (place_members_spec ms _ _ _ _ P ND' T' O4 B') as (_ & _ & _ & S4 & S5 & _).
    rewrite S4 in Hx by exact Nm. rewrite nth_set_N, N.eqb_refl in Hx. pose proof (nth_N_lt _ _ _ Hx0) as Lm. apply N.ltb_lt in Lm.
    rewrite Lm in Hx. injection Hx as <-. split; [exact O1|]. intros k z Hk Hz. destruct (T' k Hk) as (w & Hw & _).
    destruct (S5 k w Hk Hw) as (o' & Q1 & Q2 & _). rewrite Q1 in Hz. injection Hz as <-. exact Q2.
  - destruct (IH _ _ _ _ P ND' T' O4 B' a m b x E Hx) as [H1 H2]. split; [lia|exact H2].
Qed.

(** * The class *)
Lemma opaque_layout l cls : class_fits l cls ->
  exists c, nth_N (register_as_opaque l cls) cls = Some c /\ s_reg c = Some opaque_type /\
  (forall m x, nth_N l m = Some x -> is_member x = true -> s_parent x = cls ->
     exists o, nth_N (register_as_opaque l cls) m = Some (with_member x o (Some opaque_type)) /\
       o mod al (s_type x) = 0 /\ o + s_count x * el_size (s_type x) <= s_csize c) /\
  (forall m x, nth_N (register_as_opaque l cls) m = Some x -> is_member x = true -> s_parent x = cls ->
     s_reg x = Some opaque_type /\ s_moff x mod al (s_type x) = 0 /\ s_moff x + s_count x * el_size (s_type x) <= s_csize c) /\
  (forall m1 m2 x1 x2, m1 <> m2 ->
     nth_N (register_as_opaque l cls) m1 = Some x1 -> is_member x1 = true -> s_parent x1 = cls ->
     nth_N (register_as_opaque l cls) m2 = Some x2 -> is_member x2 = true -> s_parent x2 = cls ->
     s_moff x1 + s_count x1 * el_size (s_type x1) <= s_moff x2 \/ s_moff x2 + s_count x2 * el_size (s_type x2) <= s_moff x1) /\
  (forall i, i <> cls -> ~ In i (class_members l cls) -> nth_N (register_as_opaque l cls) i = nth_N l i) /\
  exists n, new_opaque (register_as_opaque l cls) cls = Ret n /\ n_size n = s_csize c /\ s_csize c < 2 ^ 32 /\
    forall m x j, nth_N (register_as_opaque l cls) m = Some x -> is_member x = true -> s_parent x = cls -> j < s_count x ->
      n_mem n (s_moff x + j * el_size (s_type x)) = Some (fresh_cell (s_type x)).
Proof.
  intros ((x0 & Hx0 & M0) & T & B). unfold register_as_opaque.
  destruct (place_members l (class_members l cls) 0) as [l' size] eqn:P.
  assert (ND : NoDup (class_members l cls)) by apply members_from_nodup.
  assert (T' : forall m, In m (class_members l cls) -> exists x, nth_N l m = Some x /\ s_type x < 8).
  { intros m Hm. apply class_members_In in Hm as (x & H1 & H2 & H3). eauto. }
  destruct (place_members_spec _ _ _ _ _ P ND T' eq_refl) as (S1 & S2 & S3 & S4 & S5 & S6); [lia|].
  assert (NC : ~ In cls (class_members l cls)).
  { intros H. apply class_members_In in H as (x & H1 & H2 & _). congruence. }
  assert (Hc : nth_N l' cls = Some x0) by (rewrite S4; auto). rewrite Hc.
  set (c := with_class x0 size (Some opaque_type)). set (l2 := set_N l' cls c).
  assert (Lc : cls <? len l' = true) by (apply N.ltb_lt; eapply nth_N_lt, Hc).
  assert (C2 : nth_N l2 cls = Some c) by (unfold l2; rewrite nth_set_N, N.eqb_refl, Lc; reflexivity).
  assert (O2 : forall i, i <> cls -> nth_N l2 i = nth_N l' i).
  { intros i Hi. unfold l2. rewrite nth_set_N. apply N.eqb_neq in Hi. rewrite Hi. reflexivity. }
  assert (At : forall m x, nth_N l2 m = Some x -> is_member x = true -> m <> cls).
  { intros m x H1 H2 ->. rewrite C2 in H1. injection H1 as <-. change (is_member c) with (is_member x0) in H2. congruence. }
  assert (CM : class_members l2 cls = class_members l cls).
  { apply members_from_eq; [unfold l2; rewrite set_N_len; exact S3|]. intros k. destruct (N.eq_dec k cls) as [->|Nk].
    - rewrite C2, Hx0. reflexivity.
    - rewrite O2 by exact Nk. destruct (in_dec N.eq_dec k (class_members l cls)) as [I|I].
      + destruct (T' k I) as (x & Hx & _). destruct (S5 k x I Hx) as (o & -> & _). rewrite Hx. reflexivity.
      + rewrite S4 by exact I. reflexivity. }
  assert (In2 : forall m x, nth_N l2 m = Some x -> is_member x = true -> s_parent x = cls -> In m (class_members l cls)).
  { intros m x H1 H2 H3. rewrite <- CM. apply class_members_In. eauto. }
  exists c. split; [exact C2|]. split; [reflexivity|]. split; [|split; [|split; [|split]]].
  - intros m x H1 H2 H3. assert (I : In m (class_members l cls)) by (apply class_members_In; eauto).
    destruct (S5 m x I H1) as (o & Q1 & Q2 & Q3 & Q4). exists o. rewrite O2 by congruence. split; [exact Q1|]. split; [exact Q4|exact Q3].
  - intros m x H1 H2 H3. pose proof (In2 _ _ H1 H2 H3) as I. destruct (T' m I) as (y & Hy & _).
    destruct (S5 m y I Hy) as (o & Q1 & Q2 & Q3 & Q4). rewrite O2 in H1 by (eapply At; eauto). rewrite Q1 in H1. injection H1 as <-.
    split; [reflexivity|]. split; [exact Q4|exact Q3].
  - intros m1 m2 x1 x2 Ne H1 A1 P1 H2 A2 P2. pose proof (In2 _ _ H1 A1 P1). pose proof (In2 _ _ H2 A2 P2).
    rewrite O2 in H1 by (eapply At; eauto). rewrite O2 in H2 by (eapply At; eauto). apply (S6 m1 m2); auto.
  - intros i H1 H2. rewrite O2 by exact H1. apply S4. exact H2.
  - unfold new_opaque. rewrite C2, CM.
    destruct (construct_all_ok l2 size (class_members l cls) 0 (mkInst none32 None size (fun _ => None))) as (n & E & E1 & E2 & E3 & E4).
    + intros m x I Hx. rewrite O2 in Hx by (intros ->; contradiction). destruct (T' m I) as (y & Hy & Ty).
      destruct (S5 m y I Hy) as (o & Q1 & Q2 & Q3 & Q4). rewrite Q1 in Hx. injection Hx as <-. auto.
    + intros m I. rewrite O2 by (intros ->; contradiction). destruct (T' m I) as (y & Hy & _).
      destruct (S5 m y I Hy) as (o & -> & _). eauto.
    + intros a m b x Em Hx.
      assert (I : In m (class_members l cls)) by (rewrite Em; apply in_or_app; right; left; reflexivity).
      rewrite O2 in Hx by (intros ->; contradiction).
      destruct (place_members_order _ _ _ _ _ P ND T' eq_refl) with (a := a) (m := m) (b := b) (x := x) as [Q1 Q2]; auto.
      split; [exact Q1|]. intros m' x' I' Hx'. apply (Q2 m'); auto. rewrite O2 in Hx'; auto.
      intros ->. apply NC. rewrite Em. apply in_or_app. right. right. exact I'.
    + intros q d. cbn. discriminate.
    + reflexivity.
    + exact S2.
    + exists n. split; [exact E|]. split; [exact E1|]. split; [exact S2|].
      intros m x j H1 H2 H3 Hj. apply (E4 m); auto. eapply In2; eauto.
Qed.

(** Members of one class of opaque instances can be written independently. *)
Lemma opaque_layout_ok l cls s : class_fits l cls -> v_syms s = register_as_opaque l cls ->
  layout_ok (fun i => exists x, nth_N (v_syms s) i = Some x /\ (is_member x = true -> s_parent x = cls)) s.
Proof.
  intros H E i x (x' & Hx' & Px) Hx Mx. rewrite Hx in Hx'. injection Hx' as <-. specialize (Px Mx).
  destruct (opaque_layout l cls H) as (c & C1 & C2 & C3 & C3' & C4 & C5 & n & _ & _ & C6 & _).
  rewrite E in *. split.
  - destruct (C3' i x Hx Mx Px) as (_ & _ & Q). lia.
  - intros j y (y' & Hy' & Py) Nij Hy My Ry. rewrite Hy in Hy'. injection Hy' as <-. apply (C4 i j); auto.
Qed.
