(** mkdir, create, remove, find. *)

From Coq Require Import Sorted Lia.
From Verif Require Import MBase MStream MZipped MVfs SStream SVfs LBase LVfs.
Local Open Scope N_scope.

Lemma at_loc_upd loc n m m' : at_loc loc n m -> nname m' = nname m -> wf n ->
  at_loc loc (upd_at loc (fun _ => m') n) m'.
Proof.
  intros K. revert m'. induction K as [|nm t l c loc m Hc K IH]; intros m' E W; cbn; [constructor|].
  pose proof (wf_kids _ _ _ W) as [H1 H2].
  replace (nname c) with (nname (upd_at loc (fun _ => m') c)) at 1 by (eapply upd_at_name'; eassumption).
  constructor; [|apply IH; [assumption|rewrite Forall_forall in H2; auto]].
  clear - Hc H1. induction l as [|d l IHl]; [contradiction|]. cbn.
  apply sorted_cons in H1. destruct H1 as [H1 H2]. destruct (bytes_eqP (nname d) (nname c)) as [F|F].
  - destruct Hc as [->|Hc]; [left; reflexivity|]. exfalso. rewrite Forall_forall in H2.
    specialize (H2 c Hc). unfold before in H2. rewrite F, icompare_irrefl in H2. discriminate.
  - destruct Hc as [->|Hc]; [congruence|]. right. auto.
Qed.

(** Every path is below the location or not. *)
Lemma below_dec p q : at_or_below p q \/ ~ at_or_below p q.
Proof.
  revert q; induction p as [|x p IH]; intros q.
  - left. exists (map lower q). reflexivity.
  - destruct q as [|y q].
    + right. intros [r H]. discriminate.
    + destruct (bytes_eqP (lower y) (lower x)) as [E|E].
      * destruct (IH q) as [[r H]|H]; [left; exists r; cbn; congruence|].
        right. intros [r K]. apply H. exists r. cbn in K. congruence.
      * right. intros [r K]. cbn in K. congruence.
Qed.
Lemma below_split p q : at_or_below p q -> exists r, map lower q = map lower (p ++ r).
Proof.
  revert q; induction p as [|x p IH]; intros q [r H].
  - exists q. reflexivity.
  - destruct q as [|y q]; [discriminate|]. cbn in H. injection H; intros H1 H2.
    destruct (IH q) as [r' E]; [exists r; assumption|]. exists r'. cbn. congruence.
Qed.

Lemma not_hits_empty nm t p : ~ hits_file (NDir nm t []) p.
Proof. intros (q & x & r & _ & (nm' & t' & fd & L)). destruct q; cbn in L; discriminate. Qed.
Lemma hits_cons nm t l x p : hits_file (NDir nm t l) (x :: p) <->
  exists c, kid l x = Some c /\ (is_file c = true \/ hits_file c p).
Proof.
  split.
  - intros (q & y & r & E & (nm' & t' & fd & L)). destruct q as [|z q].
    + cbn in E, L. injection E as -> ->. destruct (kid l y); [|discriminate]. injection L as ->.
      eexists; split; [reflexivity|auto].
    + cbn in E, L. injection E as -> ->. destruct (kid l z) as [c|]; [|discriminate].
      exists c. split; [reflexivity|]. right. exists q, y, r. split; [reflexivity|]. repeat eexists. eassumption.
  - intros (c & E & [F|(q & y & r & -> & L)]).
    + exists [], x, p. split; [reflexivity|]. cbn. rewrite E. destruct c; [|discriminate]. repeat eexists.
    + exists (x :: q), y, r. split; [reflexivity|]. cbn. rewrite E. assumption.
Qed.

Definition mkdir_post (root : node) (loc : list bytes) (ps : list bytes) (root' : node) (loc' : list bytes) : Prop :=
  wf root' /\
  (exists d, at_loc loc' root' d /\ is_file d = false /\ lookup root' (loc ++ ps) = Some d) /\
  (forall q, stat (lookup root' q) = stat (lookup root q) \/
             (lookup root q = None /\ is_dir (lookup root' q) /\ at_or_below q (loc ++ ps))).

Lemma stat_None n : stat n = None <-> n = None.
Proof. destruct n as [[]|]; cbn; split; congruence. Qed.
Lemma stat_dir n nm t : stat n = Some (IDir nm t) -> is_dir n.
Proof. destruct n as [[]|]; cbn; intros E; try discriminate. injection E as -> ->. repeat eexists. Qed.
Lemma is_dir_stat n m : stat n = stat m -> is_dir n -> is_dir m.
Proof. intros E (nm & t & l & ->). cbn in E. symmetry in E. eapply stat_dir; eassumption. Qed.

(** The step that creates a directory. *)
Lemma create_step root loc nm t l x now : wf root -> at_loc loc root (NDir nm t l) -> clean x ->
  kid l x = None ->
  let k := directory x now in
  let root1 := upd_at loc (fun _ => NDir nm t (create_kid l k)) root in
  wf root1 /\ at_loc (loc ++ [x]) root1 k /\
  (forall q, stat (lookup root1 q) = stat (lookup root q) \/
     (lookup root q = None /\ is_dir (lookup root1 q) /\ map lower q = map lower (loc ++ [x]))).
Proof.
  intros W A C K k root1.
  pose proof (at_loc_wf _ _ _ W A) as Wc. pose proof (wf_kids _ _ _ Wc) as [S F].
  assert (W' : wf (NDir nm t (create_kid l k))).
  { constructor; [apply create_kid_sorted; assumption|]. rewrite Forall_forall in *. intros c Hc.
    apply create_kid_In in Hc. destruct Hc as [->|Hc]; [constructor; constructor|auto]. }
  assert (Kk : forall y, kid (create_kid l k) y = if same x y then Some k else kid l y).
  { intros y. rewrite kid_create_kid by assumption. reflexivity. }
  assert (A1 : at_loc loc root1 (NDir nm t (create_kid l k))) by (apply (at_loc_upd _ _ _ _ A); [reflexivity|assumption]).
  split; [eapply upd_at_wf; eauto|]. split.
  - change x with (nname k). eapply at_loc_snoc; [eassumption|].
    specialize (Kk x). rewrite same_refl in Kk. apply (kid_In _ _ _ Kk).
  - intros q. destruct (below_dec loc q) as [B|B].
    + destruct (below_split _ _ B) as [r E]. rewrite (lookup_lower _ _ _ E), (lookup_lower root _ _ E).
      unfold root1. rewrite (upd_at_lookup_below _ _ _ _ _ W A) by reflexivity.
      rewrite lookup_app, (at_loc_lookup _ _ _ W A).
      destruct r as [|y r]; [left; reflexivity|]. cbn [lookup]. rewrite Kk.
      destruct (same x y) eqn:G; [|left; reflexivity]. apply same_spec in G.
      rewrite <- (kid_lower _ _ _ G), K.
      destruct r as [|z r]; [|left; reflexivity]. right. split; [reflexivity|]. split; [repeat eexists|].
      rewrite E, !map_app. cbn. rewrite G. reflexivity.
    + left. eapply upd_at_stat_other; eauto.
Qed.

Lemma mkdir_loc_lookup root loc nm t l x c : wf root -> at_loc loc root (NDir nm t l) -> kid l x = Some c ->
  lower (nname c) = lower x /\ at_loc (loc ++ [nname c]) root c.
Proof.
  intros W A K. apply kid_In in K. destruct K as [I E]. split; [assumption|]. eapply at_loc_snoc; eassumption.
Qed.

Lemma at_or_below_lower q p p' : map lower p = map lower p' -> at_or_below q p -> at_or_below q p'.
Proof. intros E [r H]. exists r. congruence. Qed.

(** What one component does, then the rest. *)
Lemma mkdir_f_ok now (path : list byte) : forall fuel root loc nm t l,
  (length path < fuel)%nat -> wf root -> at_loc loc root (NDir nm t l) -> Forall clean (parts path) ->
  (hits_file (NDir nm t l) (parts path) /\ mkdir_f fuel now root loc path = (root, Throw VfsFileExists)) \/
  (~ hits_file (NDir nm t l) (parts path) /\ exists root' loc',
     mkdir_f fuel now root loc path = (root', Ret loc') /\ mkdir_post root loc (parts path) root' loc' /\
     (lookup (NDir nm t l) (parts path) <> None -> root' = root)).
Proof.
  assert (done : forall root loc d, wf root -> at_loc loc root d -> is_file d = false ->
                 mkdir_post root loc [] root loc).
  { intros root loc d W A F. split; [assumption|]. split; [|auto].
    exists d. rewrite app_nil_r. split; [assumption|]. split; [assumption|]. apply at_loc_lookup; assumption. }
  (* the common reasoning for a component [x] followed by [rest] *)
  assert (step : forall root loc nm t l x rest (go : node -> list bytes -> node * outcome (list bytes)) tm res,
    wf root -> at_loc loc root (NDir nm t l) -> clean x -> Forall clean rest ->
    res = match find_child l x with
          | Some it => if is_file it then (root, Throw VfsFileExists) else go root (loc ++ [nname it])
          | None =>
              match set_find x (create_kid l (directory x tm)) with
              | Some it => go (upd_at loc (fun _ => NDir nm t (create_kid l (directory x tm))) root) (loc ++ [nname it])
              | None => (root, Undef)
              end
          end ->
    (forall root loc nm t l, wf root -> at_loc loc root (NDir nm t l) ->
      (hits_file (NDir nm t l) rest /\ go root loc = (root, Throw VfsFileExists)) \/
      (~ hits_file (NDir nm t l) rest /\ exists root' loc',
         go root loc = (root', Ret loc') /\ mkdir_post root loc rest root' loc' /\
         (lookup (NDir nm t l) rest <> None -> root' = root))) ->
    (hits_file (NDir nm t l) (x :: rest) /\ res = (root, Throw VfsFileExists)) \/
    (~ hits_file (NDir nm t l) (x :: rest) /\ exists root' loc',
       res = (root', Ret loc') /\ mkdir_post root loc (x :: rest) root' loc' /\
       (lookup (NDir nm t l) (x :: rest) <> None -> root' = root))).
  { intros root loc nm t l x rest go tm res W A C Cr -> IH.
    pose proof (at_loc_wf _ _ _ W A) as Wc. pose proof (wf_kids _ _ _ Wc) as [S F].
    rewrite find_child_kid by assumption. rewrite clean_trim by assumption.
    destruct (kid l x) as [c|] eqn:K.
    - destruct (mkdir_loc_lookup _ _ _ _ _ _ _ W A K) as [E A'].
      destruct c as [nm' t' fd|nm' t' l']; cbn [is_file].
      + left. split; [|reflexivity]. apply hits_cons. eexists; split; [eassumption|auto].
      + destruct (IH root _ _ _ _ W A') as [[H R]|(H & root' & loc' & R & P & Q)].
        * left. split; [|assumption]. apply hits_cons. eexists; split; [eassumption|auto].
        * right. split.
          { intros X. apply hits_cons in X. destruct X as (c & Ec & X). rewrite K in Ec. injection Ec as <-.
            destruct X as [X|X]; [discriminate|contradiction]. }
          exists root', loc'. split; [assumption|]. split.
          { assert (M : map lower ((loc ++ [nm']) ++ rest) = map lower (loc ++ x :: rest)).
            { rewrite <- app_assoc, !map_app. cbn. cbn in E. rewrite E. reflexivity. }
            destruct P as (P1 & (d & P2 & P3 & P4) & P5). split; [assumption|]. split.
            - exists d. split; [assumption|]. split; [assumption|].
              rewrite <- (lookup_lower _ _ _ M). assumption.
            - intros q. destruct (P5 q) as [P6|(P6 & P7 & P8)]; [auto|]. right.
              split; [assumption|]. split; [assumption|]. eapply at_or_below_lower; eassumption. }
          { intros X. apply Q. cbn in X. rewrite K in X. assumption. }
    - right. split.
      { intros X. apply hits_cons in X. destruct X as (c & Ec & X). congruence. }
      destruct (create_step _ _ _ _ _ x tm W A C K) as (W1 & A1 & Q1).
      rewrite set_find_kid by (apply create_kid_sorted; assumption).
      rewrite kid_create_kid by assumption. cbn [nname directory]. rewrite same_refl. cbn [nname].
      set (root1 := upd_at loc (fun _ => NDir nm t (create_kid l (directory x tm))) root) in *.
      destruct (IH root1 _ _ _ _ W1 A1) as [[H R]|(H & root' & loc' & R & P & Q)];
        [exfalso; eapply not_hits_empty; eassumption|].
      exists root', loc'. split; [assumption|]. split.
      + destruct P as (P1 & (d & P2 & P3 & P4) & P5). rewrite <- app_assoc in P4. cbn in P4.
        split; [assumption|]. split; [exists d; auto|].
        intros q. destruct (P5 q) as [P6|(P6 & P7 & P8)].
        * destruct (Q1 q) as [Q2|(Q2 & Q3 & Q4)]; [left; congruence|].
          right. split; [assumption|]. split; [eapply is_dir_stat; [symmetry; eassumption|assumption]|].
          exists (map lower rest). rewrite !map_app in *. rewrite Q4. cbn. rewrite <- app_assoc. reflexivity.
        * right. split.
          { destruct (Q1 q) as [Q2|(Q2 & _)]; [|assumption]. apply stat_None. rewrite <- Q2. rewrite P6. reflexivity. }
          split; [assumption|]. rewrite <- app_assoc in P8. assumption.
      + intros X. exfalso. apply X. cbn. rewrite K. reflexivity. }
  induction path as [|p IH|p H0 H1 H2|p i H1 H2 H3 H4 IH] using path_ind;
    intros [|fuel] root loc nm t l Hf W A C; try lia.
  - right. split; [intros (q & x & r & E & _); destruct q; discriminate|].
    exists root, loc. split; [reflexivity|]. split; [eapply done; eauto|auto].
  - cbn [length] in Hf. rewrite parts_slash in *.
    replace (mkdir_f (S fuel) now root loc (x2f :: p)) with (mkdir_f fuel now root loc p).
    + apply IH; try assumption. lia.
    + change (mkdir_f (S fuel) now root loc (x2f :: p)) with (mkdir_f fuel now root loc (drop 1 (x2f :: p))).
      rewrite drop_skipn. reflexivity.
  - rewrite H2 in *. apply (step _ _ _ _ _ _ _ (fun r l => (r, Ret l)) (now p)); auto.
    + inversion C; assumption.
    + cbn [mkdir_f]. destruct p as [|c p]; [congruence|]. rewrite H1.
      rewrite (at_loc_get _ _ _ W A). cbn [child create]. destruct (find_child l (c :: p)); reflexivity.
    + intros r lo nm' t' l' W' A'. right. split; [intros (q & x & r' & E & _); destruct q; discriminate|].
      exists r, lo. split; [reflexivity|]. split; [eapply done; eauto|auto].
  - rewrite H4 in *. inversion C as [|? ? C1 C2]; subst.
    apply (step _ _ _ _ _ _ _ (fun r lo => mkdir_f fuel now r lo (drop (i + 1) p)) (now p)); auto.
    + cbn [mkdir_f]. destruct p as [|c p]; [rewrite len_nil in H3; lia|]. rewrite H1.
      destruct i as [|i]; [lia|]. rewrite (at_loc_get _ _ _ W A). cbn [child create].
      destruct (find_child l _); reflexivity.
    + intros r lo nm' t' l' W' A'. apply IH; auto.
      rewrite drop_skipn, skipn_length. unfold len in H3. lia.
Qed.

Lemma mkdir_spec now root path : wf root -> is_dir (Some root) -> Forall clean (parts path) ->
  (hits_file root (parts path) -> mkdir now root path = (root, Throw VfsFileExists)) /\
  (~ hits_file root (parts path) -> exists root' loc d,
     mkdir now root path = (root', Ret loc) /\
     get_at loc root' = Some d /\ resolve root' path = Ret (Some d) /\ is_dir (Some d) /\ wf root' /\
     (forall q, stat (lookup root' q) = stat (lookup root q) \/
                (lookup root q = None /\ is_dir (lookup root' q) /\ at_or_below q (parts path))) /\
     (lookup root (parts path) <> None -> root' = root)).
Proof.
  intros W (nm & t & l & E) C. injection E as ->. unfold mkdir.
  destruct (mkdir_f_ok now path (S (length path)) (NDir nm t l) [] nm t l) as [[H R]|(H & root' & loc' & R & P & Q)];
    try assumption; try lia; try constructor.
  - intros _. assumption.
  - intros X; contradiction.
  - intros X; contradiction.
  - intros _. destruct P as (P1 & (d & P2 & P3 & P4) & P5). exists root', loc', d.
    split; [assumption|]. split; [apply at_loc_get; assumption|]. cbn [app] in *.
    assert (N : names path = parts path).
    { unfold names. clear - C. induction C; cbn; [reflexivity|]. rewrite clean_trim by assumption. congruence. }
    split.
    + rewrite resolve_ok; [rewrite N; congruence|assumption|]. rewrite N. eapply lookup_not_through; eassumption.
    + split; [destruct d; [discriminate|repeat eexists]|]. auto.
Qed.

(* ------------------------------------------------------------------ *)
(** * create *)

Lemma create_spec nm t l k : wf (NDir nm t l) -> clean (nname k) ->
  exists n', create (NDir nm t l) k = Ret n' /\
    (forall x, lower (trim x) = lower (nname k) -> child n' x = Ret (Some k)) /\
    (forall x, lower (trim x) <> lower (nname k) -> child n' x = child (NDir nm t l) x).
Proof.
  intros W C. pose proof (wf_kids _ _ _ W) as [S F]. eexists. split; [reflexivity|].
  pose proof (create_kid_sorted l k S) as S'.
  split; intros x E; cbn [child]; rewrite !find_child_kid by assumption;
    rewrite kid_create_kid by assumption.
  - rewrite (proj2 (same_spec _ _)) by congruence. reflexivity.
  - rewrite (proj2 (same_false _ _)) by congruence. reflexivity.
Qed.

(* ------------------------------------------------------------------ *)
(** * remove *)

Lemma split_app a : forall cur b, split cur (a ++ x2f :: b) = split cur a ++ split [] b.
Proof.
  induction a as [|c a IH]; intros cur b; cbn [app split].
  - rewrite beq_refl. destruct cur; reflexivity.
  - destruct (beq c x2f); [|apply IH]. destruct cur; rewrite IH; reflexivity.
Qed.
Lemma find_slash_spec p j : find_slash p = Some j -> exists a b, p = a ++ x2f :: b /\ len a = j /\ find_slash a = None.
Proof.
  revert j; induction p as [|c p IH]; intros j H; cbn [find_slash] in H; [discriminate|].
  destruct (beqP c x2f) as [->|Hc].
  - injection H as <-. exists [], p. auto.
  - destruct (find_slash p) as [i|]; [|discriminate]. injection H as <-.
    destruct (IH i eq_refl) as (a & b & -> & E & F). exists (c :: a), b. split; [reflexivity|].
    rewrite len_cons. split; [lia|]. cbn [find_slash].
    destruct (beqP c x2f); [contradiction|]. rewrite F. reflexivity.
Qed.
Lemma find_slash_In p : find_slash p = None <-> ~ In x2f p.
Proof.
  induction p as [|c p IH]; cbn [find_slash In]; [intuition|].
  destruct (beqP c x2f) as [->|H]; [intuition congruence|]. destruct (find_slash p); intuition congruence.
Qed.

Lemma rfind_parts path : path <> [] -> ~ ends_with_slash path ->
  let '(parent, name) := split_parent path in
  names path = names parent ++ [trim name].
Proof.
  intros H E. unfold split_parent, rfind_slash. destruct (find_slash (rev path)) as [j|] eqn:F.
  - apply find_slash_spec in F. destruct F as (a & b & F & L & N).
    apply (f_equal (@rev byte)) in F. rewrite rev_involutive, rev_app_distr in F. cbn in F.
    rewrite <- app_assoc in F. cbn in F. subst path.
    assert (X : len (rev b ++ x2f :: rev a) - 1 - j = len (rev b)).
    { rewrite len_app, len_cons, !len_rev. lia. }
    rewrite X. rewrite take_app_exact by reflexivity.
    rewrite drop_app_r by lia. replace (len (rev b) + 1 - len (rev b)) with 1 by lia.
    rewrite drop_skipn. cbn [N.to_nat Pos.to_nat Pos.iter_op skipn].
    change (skipn (Pos.to_nat 1) (x2f :: rev a)) with (rev a).
    unfold names, parts. rewrite split_app, map_app. f_equal.
    rewrite split_none.
    + cbn [app]. destruct (rev a) eqn:R; [|reflexivity]. exfalso. apply E. exists (rev b). reflexivity.
    + apply find_slash_In. intros I. apply in_rev in I. apply find_slash_In in N. contradiction.
  - assert (N : find_slash path = None).
    { apply find_slash_In. intros I. apply in_rev in I. apply find_slash_In in F. contradiction. }
    unfold names, parts. rewrite split_none by assumption. cbn [app]. destruct path; [congruence|reflexivity].
Qed.

Lemma remove_spec root path : wf root -> path <> [] -> ~ ends_with_slash path ->
  ~ through_file root (names path) ->
  exists b root', vfs_remove root path = Ret (b, root') /\ wf root' /\
    (b = true <-> lookup root (names path) <> None) /\
    resolve root' path = Ret None /\
    (forall q, ~ at_or_below (names path) q -> stat (lookup root' q) = stat (lookup root q)).
Proof.
  intros W H E T. pose proof (rfind_parts path H E) as N. unfold vfs_remove.
  destruct (split_parent path) as [parent name].
  set (P := names parent) in *. rewrite N in *.
  assert (T1 : ~ through_file root P).
  { intros (q & x & r & F & L). apply T. exists q, x, (r ++ [trim name]). rewrite F, <- app_assoc. auto. }
  rewrite resolve_loc_walk by assumption. fold P. rewrite walk_lookup by assumption.
  destruct (lookup root P) as [m|] eqn:L; cbn [obind].
  2:{ exists false, root. split; [reflexivity|]. split; [assumption|]. rewrite lookup_app, L.
      split; [intuition congruence|]. split; [|auto].
      rewrite resolve_ok by (rewrite ?N; assumption). rewrite N, lookup_app, L. reflexivity. }
  assert (exists nm t l, m = NDir nm t l) as (nm & t & l & ->).
  { destruct m as [nm t fd|nm t l]; [|repeat eexists]. exfalso. apply T. exists P, (trim name), [].
    split; [reflexivity|]. rewrite L. repeat eexists. }
  pose proof (lookup_wf _ _ _ W L) as Wm. pose proof (wf_kids _ _ _ Wm) as [S F].
  cbn [remove_child]. destruct (remove_kid l name) as [b l'] eqn:R. cbn [obind fst snd].
  pose proof (remove_kid_found l name S) as Fb. rewrite R in Fb. cbn in Fb.
  assert (K : forall y, kid l' y = if same (trim name) y then None else kid l y).
  { intros y. pose proof (kid_remove_kid l name y S) as K. rewrite R in K. exact K. }
  pose proof (at_loc_trail _ _ _ L) as A.
  pose proof (trail_lower _ _ _ L) as TL.
  assert (W1 : wf (NDir nm t l')).
  { pose proof (remove_kid_sorted l name S) as S1. rewrite R in S1. constructor; [assumption|].
    rewrite Forall_forall in *. intros c Hc. apply F. eapply remove_kid_In. rewrite R. eassumption. }
  set (root' := upd_at (trail root P) (fun _ => NDir nm t l') root).
  assert (W2 : wf root') by (eapply upd_at_wf; eauto).
  exists b, root'. split; [reflexivity|]. split; [assumption|].
  assert (B : forall r, lookup root' (P ++ r) = lookup (NDir nm t l') r).
  { intros r. rewrite (lookup_lower _ _ (trail root P ++ r)).
    - apply upd_at_lookup_below with (m := NDir nm t l); auto.
    - rewrite !map_app. congruence. }
  split; [|split].
  - rewrite lookup_app, L. cbn [lookup]. rewrite Fb. destruct (kid l (trim name)); intuition congruence.
  - assert (X : lookup root' (P ++ [trim name]) = None).
    { rewrite B. cbn [lookup]. rewrite K, same_refl. reflexivity. }
    rewrite resolve_ok; [rewrite N, X; reflexivity|assumption|]. rewrite N.
    intros (q & x & r & Eq & Lf).
    destruct r as [|y r] using rev_ind.
    + change (q ++ [x]) with (q ++ [x]) in Eq. apply app_inj_tail in Eq. destruct Eq as [<- _].
      rewrite <- (app_nil_r P), B in Lf. destruct Lf as (? & ? & ? & Lf). discriminate.
    + clear IHr. rewrite app_comm_cons, app_assoc in Eq. apply app_inj_tail in Eq. destruct Eq as [Eq _].
      destruct Lf as (a1 & a2 & a3 & Lf).
      assert (lookup root' P = None). { rewrite Eq, lookup_app, Lf. reflexivity. }
      rewrite <- (app_nil_r P), B in H0. discriminate.
  - intros q Nq. destruct (below_dec P q) as [Bq|Bq].
    + destruct (below_split _ _ Bq) as [r Er]. rewrite (lookup_lower _ _ _ Er), (lookup_lower root _ _ Er).
      rewrite B, lookup_app, L. destruct r as [|y r]; [reflexivity|]. cbn [lookup]. rewrite K.
      destruct (same (trim name) y) eqn:G; [|reflexivity]. exfalso. apply Nq. apply same_spec in G.
      exists (map lower r). rewrite Er, !map_app. cbn. rewrite <- app_assoc. cbn. congruence.
    + apply upd_at_stat_other with (m := NDir nm t l); auto.
      intros X. apply Bq. destruct X as [r X]. exists r. congruence.
Qed.

(* ------------------------------------------------------------------ *)
(** * find *)

Definition total (l : list node) : N := fold_right (fun c s => count_nodes c + s) 0 l.
Lemma total_cons c a : total (c :: a) = count_nodes c + total a.
Proof. reflexivity. Qed.
Lemma total_app a b : total (a ++ b) = total a + total b.
Proof. induction a; cbn [app]; [reflexivity|]. rewrite !total_cons. lia. Qed.
Lemma total_rev a : total (rev a) = total a.
Proof. induction a; cbn [rev]; [reflexivity|]. rewrite total_app, !total_cons, IHa. cbn [total fold_right]. lia. Qed.
Lemma total_filter f a : total (filter f a) <= total a.
Proof. induction a as [|c a IH]; cbn [filter]; [lia|]. destruct (f c); rewrite ?total_cons; lia. Qed.

Lemma find_f_ok name : forall fuel stack, Forall wf stack -> Forall (fun d => is_file d = false) stack ->
  (N.to_nat (total stack) < fuel)%nat ->
  (exists c d, find_f fuel name stack = Ret (Some c) /\ In d stack /\ somewhere c d /\
               lower (nname c) = lower (trim name)) \/
  (find_f fuel name stack = Ret None /\
   forall c d, In d stack -> somewhere c d -> lower (nname c) <> lower (trim name)).
Proof.
  induction fuel as [|fuel IH]; intros stack W D Hf; [lia|].
  destruct stack as [|d stack]; [right; split; [reflexivity|contradiction]|].
  inversion W as [|? ? W1 W2]; subst. inversion D as [|? ? D1 D2]; subst.
  destruct d as [|nm t l]; [discriminate|]. cbn [find_f].
  pose proof (wf_kids _ _ _ W1) as [S F].
  rewrite find_child_kid by assumption. destruct (kid l (trim name)) as [c|] eqn:K.
  - apply kid_In in K. destruct K as [K1 K2]. left. exists c, (NDir nm t l). split; [reflexivity|].
    split; [left; reflexivity|]. split; [constructor; assumption|assumption].
  - pose proof (proj1 (kid_None _ _) K) as K'.
    set (sub := filter (fun c => negb (is_file c)) l).
    destruct (IH (rev sub ++ stack)) as [(c & d & R & I & Sw & E)|(R & N)].
    + apply Forall_app. split; [|assumption]. apply Forall_rev. rewrite Forall_forall in *.
      intros c Hc. apply filter_In in Hc. apply F, Hc.
    + apply Forall_app. split; [|assumption]. apply Forall_rev. rewrite Forall_forall.
      intros c Hc. apply filter_In in Hc. destruct Hc as [_ Hc]. destruct (is_file c); [discriminate|reflexivity].
    + rewrite total_app, total_rev. pose proof (total_filter (fun c => negb (is_file c)) l).
      fold sub in H. cbn in Hf. fold (total l) in Hf. fold (total stack) in Hf. lia.
    + left. exists c. apply in_app_or in I. destruct I as [I|I].
      * exists (NDir nm t l). split; [assumption|]. split; [left; reflexivity|]. split; [|assumption].
        apply in_rev in I. apply filter_In in I. eapply S_below; [apply I|assumption].
      * exists d. split; [assumption|]. split; [right; assumption|]. auto.
    + right. split; [assumption|]. intros c d I Sw. destruct I as [<-|I].
      * inversion Sw as [? ? ? I|? ? ? d I Sd]; subst; [auto|].
        apply (N c d); [|assumption]. apply in_or_app. left. apply in_rev. rewrite rev_involutive.
        apply filter_In. split; [assumption|]. inversion Sd; reflexivity.
      * apply (N c d); [|assumption]. apply in_or_app. auto.
Qed.
Lemma find_spec root name : wf root -> is_dir (Some root) ->
  (exists c, vfs_find root name = Ret (Some c) /\ somewhere c root /\ lower (nname c) = lower (trim name)) \/
  (vfs_find root name = Ret None /\ forall c, somewhere c root -> lower (nname c) <> lower (trim name)).
Proof.
  intros W (nm & t & l & E). injection E as E. subst root. unfold vfs_find.
  destruct (find_f_ok name (S (N.to_nat (count_nodes (NDir nm t l)))) [NDir nm t l]) as [(c & d & R & I & Sw & E)|(R & N)].
  - constructor; [assumption|constructor].
  - constructor; [reflexivity|constructor].
  - unfold total. cbn [fold_right]. lia.
  - left. exists c. destruct I as [<-|[]]. auto.
  - right. split; [assumption|]. intros c. apply N. left. reflexivity.
Qed.
