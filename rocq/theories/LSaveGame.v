(** Proofs about save game directories. *)

From Coq Require Import String Lia.
From Verif Require Import MBase MStream MText MClasses MArchive SArchive MVob MCutscene MWorld MLib MSave MTexture MSaveGame SSaveGame LBase.
From Verif Require MVfs.
Local Open Scope N_scope.

(* ------------------------------------------------------------------ *)
(** * Places *)
Lemma loc_eqb_spec a b : loc_eqb a b = true <-> a = b.
Proof.
  revert b; induction a as [|x a IH]; intros [|y b]; cbn; try (split; congruence).
  rewrite andb_true_iff, IH, bytes_eqb_spec. split; [intros [-> ->]; reflexivity | intros E; injection E as -> ->; auto].
Qed.
Lemma loc_eqb_refl a : loc_eqb a a = true.
Proof. apply loc_eqb_spec; reflexivity. Qed.
Lemma loc_eqP a b : BoolSpec (a = b) (a <> b) (loc_eqb a b).
Proof.
  destruct (loc_eqb a b) eqn:E; constructor; [apply loc_eqb_spec; exact E|].
  intros ->. rewrite loc_eqb_refl in E. discriminate.
Qed.
Lemma below_spec p l r : below p l = Some r <-> l = p ++ r.
Proof.
  revert l; induction p as [|x p IH]; intros l; cbn; [split; congruence|].
  destruct l as [|y l]; [split; discriminate|].
  destruct (bytes_eqb x y) eqn:E.
  - apply bytes_eqb_spec in E; subst. rewrite IH. split; [intros ->; reflexivity | intros H; injection H; auto].
  - split; [discriminate|]. intros H. injection H as -> ->.
    assert (bytes_eqb x x = true) by (apply bytes_eqb_spec; reflexivity). congruence.
Qed.
Lemma below_app p r : below p (p ++ r) = Some r.
Proof. apply below_spec; reflexivity. Qed.
Lemma below_self p : below p p = Some [].
Proof. apply below_spec. symmetry. apply app_nil_r. Qed.
Lemma below_none p l : below p l = None <-> ~ under p l.
Proof.
  split.
  - intros E [r ->]. rewrite below_app in E. discriminate.
  - intros H. destruct (below p l) eqn:E; [|reflexivity]. exfalso. apply H. eexists. apply below_spec. exact E.
Qed.
Lemma under_dec p l : {under p l} + {~ under p l}.
Proof.
  destruct (below p l) eqn:E; [left; eexists; apply below_spec; exact E | right; apply below_none; exact E].
Qed.
Lemma comparable (p q : loc) : forall a b, p ++ a = q ++ b -> under p q \/ under q p.
Proof.
  revert q; induction p as [|x p IH]; intros q a b E; [left; exists q; reflexivity|].
  destruct q as [|y q]; [right; exists (x :: p); reflexivity|].
  cbn in E. injection E as -> E. destruct (IH _ _ _ E) as [[r ->]|[r ->]]; [left | right]; exists r; reflexivity.
Qed.

Lemma dget_nil d : dget d [] = Some DDir. Proof. reflexivity. Qed.
Lemma dget_assoc d l : l <> [] -> dget d l = assoc d l.
Proof. destruct l; [congruence | reflexivity]. Qed.
Lemma assoc_dset d l e k : assoc (dset d l e) k = if loc_eqb l k then Some e else assoc d k.
Proof.
  induction d as [|(m, x) d IH]; cbn.
  - reflexivity.
  - destruct (loc_eqP m l) as [->|N]; cbn.
    + destruct (loc_eqb l k); reflexivity.
    + rewrite IH. destruct (loc_eqP m k) as [->|]; [|reflexivity].
      destruct (loc_eqP l k); [congruence | reflexivity].
Qed.
Lemma dget_dset d l e k : l <> [] -> dget (dset d l e) k = if loc_eqb l k then Some e else dget d k.
Proof.
  intros N. destruct k as [|a k]; [destruct l; [congruence | reflexivity]|].
  rewrite !dget_assoc by discriminate. apply assoc_dset.
Qed.
Lemma assoc_app d1 d2 k : assoc (d1 ++ d2) k = match assoc d1 k with Some e => Some e | None => assoc d2 k end.
Proof.
  induction d1 as [|(m, x) d IH]; cbn; [reflexivity|]. destruct (loc_eqb m k); [reflexivity | apply IH].
Qed.
Lemma dget_snoc d l e k : l <> [] -> dget d l = None -> dget (d ++ [(l, e)]) k = if loc_eqb l k then Some e else dget d k.
Proof.
  intros N E. destruct k as [|a k]; [destruct l; [congruence | reflexivity]|].
  rewrite !dget_assoc by discriminate. rewrite assoc_app. cbn. rewrite dget_assoc in E by exact N.
  destruct (loc_eqP l (a :: k)) as [->|]; [rewrite E; reflexivity|]. destruct (assoc d (a :: k)); reflexivity.
Qed.
Lemma assoc_filter (f : loc -> bool) d k : f k = true -> assoc (filter (fun p => f (fst p)) d) k = assoc d k.
Proof.
  intros F. induction d as [|(m, x) d IH]; cbn; [reflexivity|].
  destruct (f m) eqn:E; cbn.
  - rewrite IH. reflexivity.
  - destruct (loc_eqP m k) as [->|]; [congruence | exact IH].
Qed.
Lemma assoc_filter_out (f : loc -> bool) d k : f k = false -> assoc (filter (fun p => f (fst p)) d) k = None.
Proof.
  intros F. induction d as [|(m, x) d IH]; cbn; [reflexivity|].
  destruct (f m) eqn:E; cbn; [|exact IH].
  destruct (loc_eqP m k) as [->|]; [congruence | exact IH].
Qed.
Lemma dget_ddel d l k : l <> [] -> dget (ddel d l) k = if loc_eqb l k then None else dget d k.
Proof.
  intros N. destruct k as [|a k]; [destruct l; [congruence | reflexivity]|].
  rewrite !dget_assoc by discriminate. unfold ddel.
  destruct (loc_eqP l (a :: k)) as [->|M].
  - apply (assoc_filter_out (fun m => negb (loc_eqb m (a :: k)))). rewrite loc_eqb_refl. reflexivity.
  - apply (assoc_filter (fun m => negb (loc_eqb m l))). destruct (loc_eqP (a :: k) l); [congruence | reflexivity].
Qed.

(* ------------------------------------------------------------------ *)
(** * Disks *)
Lemma removelast_snoc {A} (l : list A) x : removelast (l ++ [x]) = l.
Proof. rewrite removelast_app by discriminate. cbn. apply app_nil_r. Qed.
Lemma removelast_below (p r : loc) : r <> [] -> removelast (p ++ r) = p ++ removelast r.
Proof. apply removelast_app. Qed.

Lemma made_get seen rest : made seen rest ->
  (forall k n, dget seen (k ++ [n]) <> None -> dget seen k = Some DDir) ->
  forall k n, dget (seen ++ rest) (k ++ [n]) <> None -> dget (seen ++ rest) k = Some DDir.
Proof.
  revert seen; induction rest as [|(l, e) rest IH]; intros seen M H k n E.
  - rewrite app_nil_r in *. eauto.
  - destruct M as (N & E1 & E2 & M). change (seen ++ (l, e) :: rest) with (seen ++ [(l, e)] ++ rest) in *.
    rewrite app_assoc in *. refine (IH _ M _ k n E). clear - N E1 E2 H. intros k n.
    rewrite !dget_snoc by assumption.
    destruct (loc_eqP l (k ++ [n])) as [->|].
    + rewrite removelast_snoc in E2. intros _. destruct (loc_eqP (k ++ [n]) k) as [X|]; [|exact E2].
      exfalso. apply (f_equal (@length _)) in X. rewrite app_length in X. cbn in X. lia.
    + intros X. apply H in X. destruct (loc_eqP l k) as [->|]; [congruence | exact X].
Qed.
Lemma parent_dir d k n : disk_ok d -> dget d (k ++ [n]) <> None -> dget d k = Some DDir.
Proof.
  intros M. apply (made_get [] d M). intros k' n' H. exfalso. apply H. destruct k'; reflexivity.
Qed.
Lemma parents_dir d r : forall k, disk_ok d -> r <> [] -> dget d (k ++ r) <> None -> dget d k = Some DDir.
Proof.
  induction r as [|a r IH]; intros k M N E; [congruence|]. destruct r as [|b r].
  - eapply parent_dir; eassumption.
  - change (a :: b :: r) with ([a] ++ b :: r) in E. rewrite app_assoc in E.
    apply parent_dir with (n := a); [exact M|]. rewrite (IH (k ++ [a]) M ltac:(discriminate) E). discriminate.
Qed.
Definition away (l k : loc) : bool := match below l k with Some _ => false | None => true end.
Lemma away_spec l k : away l k = true <-> ~ under l k.
Proof. unfold away. rewrite <- below_none. destruct (below l k); split; congruence. Qed.
Lemma away_false l k : away l k = false <-> under l k.
Proof.
  unfold away. destruct (below l k) eqn:E.
  - split; [|reflexivity]. intros _. eexists. apply below_spec. exact E.
  - split; [discriminate|]. intros U. apply below_none in E. contradiction.
Qed.
Definition without (l : loc) (d : disk) : disk := filter (fun p => away l (fst p)) d.
Lemma dget_without l d k : dget (without l d) k = match k with [] => Some DDir | _ => if away l k then dget d k else None end.
Proof.
  destruct k as [|a k]; [reflexivity|]. rewrite !dget_assoc by discriminate.
  destruct (away l (a :: k)) eqn:E; [apply assoc_filter | apply assoc_filter_out]; exact E.
Qed.
Lemma away_parent l k : k <> [] -> away l k = true -> away l (removelast k) = true.
Proof.
  intros N. rewrite !away_spec. intros H [r E]. apply H. destruct (exists_last N) as (k' & x & ->).
  rewrite removelast_snoc in E. subst k'. exists (r ++ [x]). rewrite app_assoc. reflexivity.
Qed.
Lemma made_without l rest : forall seen, made seen rest -> made (without l seen) (without l rest).
Proof.
  induction rest as [|(k, e) rest IH]; intros seen M; cbn; [exact I|].
  destruct M as (N & E1 & E2 & M). apply IH in M. unfold without in M. rewrite filter_app in M. cbn in M.
  destruct (away l k) eqn:A; cbn [made].
  - split; [exact N|]. split; [|split; [|exact M]].
    + fold (without l seen). rewrite dget_without. destruct k; [congruence|]. rewrite A. exact E1.
    + fold (without l seen). rewrite dget_without. destruct (removelast k) eqn:R; [reflexivity|]. rewrite <- R.
      rewrite (away_parent _ _ N A), R. exact E2.
  - rewrite app_nil_r in M. exact M.
Qed.
Lemma run_removes ls : forall d, run_steps d (map SRemove ls) = filter (fun p => negb (existsb (loc_eqb (fst p)) ls)) d.
Proof.
  induction ls as [|l ls IH]; intros d; cbn.
  - induction d as [|p d IH]; cbn; [reflexivity | rewrite <- IH; reflexivity].
  - unfold run_steps in IH. rewrite IH. unfold ddel. induction d as [|p d IHd]; cbn; [reflexivity|].
    destruct (loc_eqb (fst p) l); cbn; [exact IHd|].
    destruct (existsb (loc_eqb (fst p)) ls); cbn; rewrite IHd; reflexivity.
Qed.
Lemma run_removal d l : run_steps d (removal d l) = without l d.
Proof.
  unfold removal.
  rewrite <- map_map, <- map_rev, run_removes. unfold without. apply filter_ext_in. intros p I.
  unfold away. destruct (below l (fst p)) as [r|] eqn:E.
  - apply negb_false_iff, existsb_exists. exists (fst p). split; [|apply loc_eqb_refl].
    rewrite <- in_rev. apply in_map, filter_In. split; [exact I|]. rewrite E. reflexivity.
  - apply negb_true_iff. destruct (existsb _ _) eqn:X; [|reflexivity]. exfalso.
    apply existsb_exists in X. destruct X as (k & J & K). apply loc_eqb_spec in K. subst k.
    rewrite <- in_rev in J. apply in_map_iff in J. destruct J as (q & Q1 & Q2). apply filter_In in Q2. destruct Q2 as (_ & Q2).
    rewrite Q1, E in Q2. discriminate.
Qed.

(* ------------------------------------------------------------------ *)
(** * Copying *)
Definition copy_step (src dst : loc) (p : loc * dent) : list step :=
  match below src (fst p) with
  | None | Some [] => []
  | Some r => [match snd p with DDir => SMkdir (dst ++ r) | DFile b => SWrite (dst ++ r) b end]
  end.
Lemma is_dir_spec d l : is_dir d l = true <-> dget d l = Some DDir.
Proof. unfold is_dir. destruct (dget d l) as [[]|]; split; congruence. Qed.
Definition copied (d : disk) (seen : disk) (src dst : loc) (D : disk) : Prop :=
  forall k, dget D k = match below dst k with Some [] => Some DDir | Some r => dget seen (src ++ r) | None => dget d k end.
Lemma copy_run d src dst : src <> [] -> dst <> [] -> ~ under src dst -> ~ under dst src ->
  forall rest seen D, made seen rest -> copied d seen src dst D ->
    copied d (seen ++ rest) src dst (run_steps D (flat_map (copy_step src dst) rest)).
Proof.
  intros NS ND N1 N2. induction rest as [|(l, e) rest IH]; intros seen D M C.
  - cbn. rewrite app_nil_r. exact C.
  - destruct M as (N & E1 & E2 & M). change (seen ++ (l, e) :: rest) with (seen ++ [(l, e)] ++ rest). rewrite app_assoc.
    cbn [flat_map]. unfold run_steps. rewrite fold_left_app. apply IH; [exact M|].
    unfold copy_step. cbn [fst snd]. destruct (below src l) as [r|] eqn:B.
    + apply below_spec in B. subst l. destruct r as [|a r].
      * cbn [fold_left]. intros k. rewrite C. destruct (below dst k) as [[|b q]|]; try reflexivity.
        rewrite dget_snoc by assumption. destruct (loc_eqP (src ++ []) (src ++ b :: q)) as [X|]; [|reflexivity].
        apply app_inv_head in X. discriminate.
      * set (r' := a :: r) in *. assert (R : r' <> []) by discriminate. cbn [fold_left].
        assert (W : dget D (dst ++ r') = None) by (rewrite C, below_app; exact E1).
        assert (P : dget D (removelast (dst ++ r')) = Some DDir).
        { rewrite removelast_below by exact R. rewrite C, below_app. rewrite removelast_below in E2 by exact R.
          destruct (removelast r'); [reflexivity | exact E2]. }
        assert (NN : dst ++ r' <> []) by (destruct dst; discriminate).
        assert (Q : run_step D (match e with DDir => SMkdir (dst ++ r') | DFile b => SWrite (dst ++ r') b end) = dset D (dst ++ r') e).
        { destruct e; cbn.
          - unfold exists_at. rewrite W. reflexivity.
          - unfold writable, is_dir. rewrite W, P. reflexivity. }
        rewrite Q. intros k. rewrite dget_dset by exact NN. rewrite C.
        destruct (loc_eqP (dst ++ r') k) as [<-|K].
        { rewrite below_app. unfold r' at 1. rewrite dget_snoc by assumption. rewrite loc_eqb_refl. reflexivity. }
        destruct (below dst k) as [[|b q]|] eqn:B; try reflexivity. apply below_spec in B. subst k.
        rewrite dget_snoc by assumption. destruct (loc_eqP (src ++ r') (src ++ b :: q)) as [X|]; [|reflexivity].
        exfalso. apply app_inv_head in X. apply K. rewrite X. reflexivity.
    + cbn [fold_left]. intros k. rewrite C. destruct (below dst k) as [[|b q]|]; try reflexivity.
      rewrite dget_snoc by assumption. destruct (loc_eqP l (src ++ b :: q)) as [->|]; [|reflexivity].
      rewrite below_app in B. discriminate.
Qed.

(* ------------------------------------------------------------------ *)
(** * Making directories *)
Lemma making_ok d l : forall done, (forall p q, l = p ++ q -> p <> [] -> forall b, dget d (done ++ p) <> Some (DFile b)) ->
  exists ls, making d done l = (map SMkdir ls, Ret tt) /\ Forall (fun k => exists p, p <> [] /\ (exists q, l = p ++ q) /\ k = done ++ p /\ dget d k = None) ls /\
    (l <> [] -> dget d (done ++ l) = None -> In (done ++ l) ls).
Proof.
  induction l as [|n l IH]; intros done H; cbn [making].
  - exists []. split; [reflexivity|]. split; [constructor | congruence].
  - assert (IH' := IH (done ++ [n])). destruct IH' as (ls & E & F & I).
    { intros p q -> N b. rewrite <- app_assoc. apply (H (n :: p) q); [reflexivity | discriminate]. }
    assert (L : Forall (fun k => exists p, p <> [] /\ (exists q, n :: l = p ++ q) /\ k = done ++ p /\ dget d k = None) ls).
    { eapply Forall_impl; [|exact F]. intros k (p & P & (q & ->) & -> & X). exists (n :: p).
      split; [discriminate|]. split; [exists q; reflexivity|]. rewrite <- app_assoc in *. split; [reflexivity | exact X]. }
    assert (J : l <> [] -> dget d (done ++ n :: l) = None -> In (done ++ n :: l) ls).
    { intros NL X. change (n :: l) with ([n] ++ l) in *. rewrite app_assoc in *. apply I; assumption. }
    destruct (dget d (done ++ [n])) as [[|b]|] eqn:X.
    + exists ls. split; [exact E|]. split; [exact L|]. intros _ Y. destruct l as [|m l]; [congruence|]. apply J; [discriminate | exact Y].
    + exfalso. apply (H [n] l eq_refl ltac:(discriminate) b X).
    + rewrite E. exists ((done ++ [n]) :: ls). split; [reflexivity|]. split.
      * constructor; [|exact L]. exists [n]. split; [discriminate|]. split; [exists l; reflexivity|]. split; [reflexivity | exact X].
      * intros _ Y. destruct l as [|m l]; [left; reflexivity | right; apply J; [discriminate | exact Y]].
Qed.
Lemma run_mkdirs ls : forall D k, dget (run_steps D (map SMkdir ls)) k =
  match dget D k with Some e => Some e | None => if existsb (loc_eqb k) ls then Some DDir else None end.
Proof.
  induction ls as [|l ls IH]; intros D k; cbn.
  - destruct (dget D k); reflexivity.
  - unfold run_steps in IH. rewrite IH. unfold exists_at. destruct (dget D l) eqn:E.
    + destruct (dget D k) eqn:F; [reflexivity|]. destruct (loc_eqP k l) as [->|]; [congruence|]. reflexivity.
    + assert (N : l <> []) by (intros ->; discriminate E). rewrite dget_dset by exact N.
      destruct (loc_eqP l k) as [<-|].
      * rewrite E, loc_eqb_refl. reflexivity.
      * destruct (loc_eqP k l); [congruence|]. reflexivity.
Qed.

(* ------------------------------------------------------------------ *)
(** * Writing the files *)
Lemma run_writes lt ws : forall D, dget D lt = Some DDir -> (forall p, In p ws -> dget D (lt ++ [fst p]) <> Some DDir) ->
  NoDup (map fst ws) ->
  let D' := run_steps D (map (fun p => SWrite (lt ++ [fst p]) (snd p)) ws) in
  (forall p, In p ws -> dget D' (lt ++ [fst p]) = Some (DFile (snd p))) /\
  (forall k, ~ In k (map (fun p => lt ++ [fst p]) ws) -> dget D' k = dget D k).
Proof.
  induction ws as [|(n, b) ws IH]; intros D E H ND; cbn [map].
  - split; [intros p [] | reflexivity].
  - inversion ND as [|? ? NI ND']; subst. cbn [map fst snd run_steps fold_left run_step].
    assert (NN : lt ++ [n] <> []) by (destruct lt; discriminate).
    assert (W : writable D (lt ++ [n]) = true).
    { unfold writable. rewrite removelast_snoc. rewrite (proj2 (is_dir_spec _ _) E). cbn.
      destruct (is_dir D (lt ++ [n])) eqn:X; [|reflexivity]. apply is_dir_spec in X. exfalso. exact (H (n, b) (or_introl eq_refl) X). }
    rewrite W. destruct (IH (dset D (lt ++ [n]) (DFile b))) as (A & B).
    + rewrite dget_dset by exact NN. destruct (loc_eqP (lt ++ [n]) lt) as [X|]; [|exact E].
      apply (f_equal (@length _)) in X. rewrite app_length in X. cbn in X. lia.
    + intros p I. rewrite dget_dset by exact NN. destruct (loc_eqb _ _); [discriminate|]. apply H. right. exact I.
    + exact ND'.
    + split.
      * intros p [<-|I]; [|exact (A p I)]. cbn [fst snd]. unfold run_steps in B. rewrite B.
        -- rewrite dget_dset by exact NN. rewrite loc_eqb_refl. reflexivity.
        -- intros J. apply in_map_iff in J. destruct J as (q & Q & J). apply app_inv_head in Q. injection Q as Q. apply NI.
           rewrite <- Q. apply in_map. exact J.
      * intros k NK. cbn [In] in NK. unfold run_steps in B. rewrite B by tauto.
        rewrite dget_dset by exact NN. destruct (loc_eqP (lt ++ [n]) k); [tauto | reflexivity].
Qed.

(* ------------------------------------------------------------------ *)
(** * Paths *)
Lemma pieces_slash p : forall cur q, pieces_from cur (p ++ x2f :: q) = pieces_from cur p ++ pieces q.
Proof.
  induction p as [|c p IH]; intros cur q; cbn [pieces_from app].
  - rewrite (proj2 (beq_spec x2f x2f) eq_refl). destruct cur; reflexivity.
  - destruct (beq c x2f); [destruct cur; [apply IH | cbn; rewrite IH; reflexivity] | apply IH].
Qed.
Lemma pieces_plain n : forall cur, ~ In x2f n -> pieces_from cur n = match cur ++ n with [] => [] | l => [l] end.
Proof.
  induction n as [|c n IH]; intros cur H; cbn [pieces_from].
  - rewrite app_nil_r. destruct cur; reflexivity.
  - destruct (beq c x2f) eqn:E; [apply beq_spec in E; subst; exfalso; apply H; left; reflexivity|].
    rewrite IH by (intros I; apply H; right; exact I). rewrite <- app_assoc. reflexivity.
Qed.
Lemma ends_slash_spec p : ends_slash p = true -> exists p', p = p' ++ [x2f].
Proof.
  unfold ends_slash, starts_slash. destruct (rev p) as [|c r] eqn:E; [discriminate|]. intros B.
  apply beq_spec in B. subst c. exists (rev r). rewrite <- (rev_involutive p), E. reflexivity.
Qed.
Lemma starts_plain n : ~ In x2f n -> starts_slash n = false.
Proof.
  destruct n as [|c n]; [reflexivity|]. intros H. cbn. destruct (beq c x2f) eqn:E; [|reflexivity].
  apply beq_spec in E. subst. exfalso. apply H. left. reflexivity.
Qed.
Lemma join_cases p n : ~ In x2f n -> join p n = n /\ p = [] \/ exists p', join p n = p' ++ x2f :: n /\ pieces p' = pieces p /\ p <> [] /\ starts_slash (p' ++ x2f :: n) = starts_slash p.
Proof.
  intros H. unfold join. rewrite (starts_plain n H). destruct p as [|c p]; [left; auto|]. right.
  destruct (ends_slash (c :: p)) eqn:E.
  - destruct (ends_slash_spec _ E) as (p' & Q). exists p'. rewrite Q. rewrite <- app_assoc. split; [reflexivity|]. split.
    + unfold pieces. rewrite pieces_slash. cbn. rewrite app_nil_r. reflexivity.
    + split; [destruct p'; discriminate|]. destruct p'; reflexivity.
  - exists (c :: p). split; [reflexivity|]. split; [reflexivity|]. split; [discriminate | reflexivity].
Qed.
Definition file_name (n : bytes) : Prop := n <> [] /\ ~ In x2f n /\ n <> lit "." /\ n <> lit "..".
Lemma locate_join cwd p n : file_name n -> locate cwd (join p n) = locate cwd p ++ [n].
Proof.
  intros (N & H & N1 & N2). unfold locate.
  assert (W : forall l, walk l n = l ++ [n]).
  { intros l. unfold walk. destruct (bytes_eqb n (lit ".")) eqn:E; [apply bytes_eqb_spec in E; congruence|].
    destruct (bytes_eqb n (lit "..")) eqn:F; [apply bytes_eqb_spec in F; congruence | reflexivity]. }
  assert (P : pieces n = [n]).
  { unfold pieces. rewrite pieces_plain by exact H. cbn. destruct n; [congruence | reflexivity]. }
  destruct (join_cases p n H) as [(-> & ->) | (p' & -> & Q & NP & S)].
  - rewrite P, (starts_plain n H). cbn. apply W.
  - rewrite S. unfold pieces at 1. rewrite pieces_slash. fold (pieces p'). rewrite Q, P, fold_left_app. cbn. apply W.
Qed.
Lemma join_there d cwd p n : file_name n -> there d cwd (join p n) = exists_at d (locate cwd p ++ [n]).
Proof.
  intros F. rewrite <- (locate_join cwd p n F). unfold there. destruct (join p n) eqn:E; [|reflexivity].
  exfalso. destruct F as (N & H & _). destruct (join_cases p n H) as [(Q & _) | (p' & Q & _)]; rewrite Q in E; [congruence | destruct p'; discriminate].
Qed.
Lemma sav_name n : ~ In x2f n -> file_name (n ++ lit ".SAV").
Proof.
  intros H. split; [destruct n; discriminate|]. split.
  - intros I. apply in_app_or in I. destruct I as [I|I]; [exact (H I)|]. revert I. cbn. intuition discriminate.
  - split; intros E; apply (f_equal (@length _)) in E; rewrite app_length in E; cbn in E; lia.
Qed.
Lemma cut_none c s : ~ In c s -> cut_last c s = None.
Proof.
  induction s as [|x s IH]; intros H; cbn; [reflexivity|]. rewrite IH by (intros I; apply H; right; exact I).
  destruct (beq x c) eqn:E; [apply beq_spec in E; subst; exfalso; apply H; left; reflexivity | reflexivity].
Qed.
Lemma cut_at c a b : ~ In c b -> cut_last c (a ++ c :: b) = Some (a, b).
Proof.
  intros H. induction a as [|x a IH]; cbn.
  - rewrite (cut_none c b H), (proj2 (beq_spec c c) eq_refl). reflexivity.
  - rewrite IH. reflexivity.
Qed.
Lemma with_ext_join p n ext : ~ In x2f n -> ~ In x2f (name_with_ext n ext) -> with_ext (join p n) ext = join p (name_with_ext n ext).
Proof.
  intros H H'. unfold with_ext.
  assert (J : join p n = n /\ join p (name_with_ext n ext) = name_with_ext n ext \/
    exists p', join p n = p' ++ x2f :: n /\ join p (name_with_ext n ext) = p' ++ x2f :: name_with_ext n ext).
  { unfold join. rewrite (starts_plain _ H), (starts_plain _ H'). destruct p as [|c p]; [left; auto|]. right.
    destruct (ends_slash (c :: p)) eqn:E.
    - destruct (ends_slash_spec _ E) as (p' & ->). exists p'. rewrite <- !app_assoc. auto.
    - exists (c :: p). auto. }
  destruct J as [(-> & ->) | (p' & -> & ->)].
  - rewrite cut_none by exact H. reflexivity.
  - rewrite cut_at by exact H. reflexivity.
Qed.
Lemma name_ext n a b ext : n = a ++ x2e :: b -> ~ In x2e b -> a <> [] -> n <> lit ".." -> name_with_ext n ext = a ++ x2e :: ext.
Proof.
  intros -> H N D. unfold name_with_ext. destruct (bytes_eqb _ (lit "..")) eqn:E; [apply bytes_eqb_spec in E; congruence|].
  rewrite cut_at by exact H. destruct a; [congruence | reflexivity].
Qed.

(* ------------------------------------------------------------------ *)
(** * The directory before the files are written *)
Lemma exists_spec d l : exists_at d l = true <-> dget d l <> None.
Proof. unfold exists_at. destruct (dget d l); split; congruence. Qed.
Lemma gone_below d l r : disk_ok d -> dget d l = None -> r <> [] -> dget d (l ++ r) = None.
Proof.
  intros M E N. destruct (dget d (l ++ r)) eqn:X; [|reflexivity]. exfalso.
  assert (dget d l = Some DDir) by (apply (parents_dir d r l M N); congruence). congruence.
Qed.
Lemma cleared d cwd to : disk_ok d -> to <> [] ->
  exists rm, (if there d cwd to then removal d (locate cwd to) else []) = rm /\
    disk_ok (run_steps d rm) /\
    (forall k, ~ under (locate cwd to) k -> dget (run_steps d rm) k = dget d k) /\
    (forall r, locate cwd to ++ r <> [] -> dget (run_steps d rm) (locate cwd to ++ r) = None) /\
    (forall k, dget (run_steps d rm) k <> None -> dget d k <> None).
Proof.
  intros M N. set (lt := locate cwd to). eexists. split; [reflexivity|].
  unfold there. destruct to as [|c to']; [congruence|]. fold lt. clearbody lt. clear N c to'.
  destruct (exists_at d lt) eqn:E.
  - rewrite run_removal. split; [exact (made_without lt d [] M)|]. split; [|split].
    + intros k H. rewrite dget_without. apply away_spec in H. rewrite H. destruct k; reflexivity.
    + intros r H. rewrite dget_without. destruct (lt ++ r) eqn:X; [congruence|]. rewrite <- X.
      unfold away. rewrite below_app. reflexivity.
    + intros k. rewrite dget_without. destruct k; [discriminate|]. destruct (away lt (b :: k)); [tauto | congruence].
  - cbn. split; [exact M|]. split; [reflexivity|]. split; [|tauto]. intros r _.
    assert (X : dget d lt = None) by (unfold exists_at in E; destruct (dget d lt); congruence).
    destruct r; [rewrite app_nil_r; exact X | apply gone_below; [exact M | exact X | discriminate]].
Qed.
Lemma prepared d cwd from to K : disk_ok d -> begins_with d cwd from to K ->
  exists s, prepare d cwd from to = (s, Ret tt) /\
    dget (run_steps d s) (locate cwd to) = Some DDir /\
    (forall r, r <> [] -> dget (run_steps d s) (locate cwd to ++ r) = K r).
Proof.
  intros M B. destruct B as [S D | S N TO D N1 N2 P | S T N H]; unfold prepare; rewrite S.
  - exists []. split; [reflexivity|]. split; [apply is_dir_spec; exact D | reflexivity].
  - destruct (cleared d cwd to M TO) as (rm & E & A1 & A2 & A3 & _). rewrite E. clear E.
    set (ls := locate cwd from) in *. set (lt := locate cwd to) in *.
    assert (NT : lt <> []) by (intros X; apply N2; rewrite X; exists ls; reflexivity).
    assert (NS : ls <> []) by (intros X; apply N1; rewrite X; exists lt; reflexivity).
    set (d1 := run_steps d rm) in *.
    assert (D1 : dget d1 ls = Some DDir) by (rewrite A2 by exact N2; apply is_dir_spec; exact D).
    assert (TH : there d1 cwd from = true).
    { unfold there. destruct from; [congruence|]. apply exists_spec. fold ls. rewrite D1. discriminate. }
    rewrite TH. unfold copying.
    assert (P1 : is_dir d1 (removelast lt) = true).
    { apply is_dir_spec. rewrite A2; [apply is_dir_spec; exact P|]. intros [r X].
      apply (f_equal (@length _)) in X. rewrite app_length in X.
      destruct (exists_last NT) as (l' & x & X'). rewrite X' in X. rewrite removelast_snoc, app_length in X. cbn in X. lia. }
    rewrite P1. cbn [negb]. rewrite (proj2 (below_none ls lt) N1), D1.
    fold (copy_step ls lt). change (fun p : loc * dent => match below ls (fst p) with
      | Some (x :: l0) => [match snd p with DDir => SMkdir (lt ++ x :: l0) | DFile b => SWrite (lt ++ x :: l0) b end] | _ => [] end) with (copy_step ls lt).
    eexists. split; [reflexivity|].
    assert (C : copied d1 d1 ls lt (run_steps d (rm ++ SMkdir lt :: flat_map (copy_step ls lt) d1))).
    { unfold run_steps. rewrite fold_left_app. fold (run_steps d rm). fold d1. cbn [fold_left].
      apply (copy_run d1 ls lt NS NT N1 N2 d1 []); [exact A1|].
      assert (Z : dget d1 lt = None) by (rewrite <- (app_nil_r lt); apply A3; rewrite app_nil_r; exact NT).
      cbn. unfold exists_at. rewrite Z. intros k. rewrite dget_dset by exact NT.
      destruct (loc_eqP lt k) as [<-|K1].
      - rewrite below_self. reflexivity.
      - destruct (below lt k) as [r|] eqn:B; [|reflexivity]. apply below_spec in B. subst k.
        destruct r as [|a r]; [rewrite app_nil_r in K1; congruence|].
        rewrite A3 by (destruct lt; discriminate). destruct ls; [congruence | reflexivity]. }
    split.
    + rewrite C, below_self. reflexivity.
    + intros r R. rewrite C, below_app. destruct r; [congruence|]. apply A2. intros [q Q].
      destruct (comparable _ _ _ _ Q); contradiction.
  - destruct (cleared d cwd to M N) as (rm & E & A1 & A2 & A3 & A4). rewrite E. clear E.
    set (lt := locate cwd to) in *. set (d1 := run_steps d rm) in *.
    assert (TH : there d1 cwd from = false).
    { unfold there in *. destruct from; [reflexivity|]. destruct (exists_at d1 _) eqn:X; [|reflexivity].
      apply exists_spec in X. apply A4 in X. apply exists_spec in X. congruence. }
    rewrite TH. destruct (making_ok d1 lt []) as (ls & E & F & I).
    { intros p q X NP b. cbn. destruct (loc_eqP p lt) as [->|NE].
      - rewrite <- (app_nil_r lt) at 1. rewrite A3 by (rewrite app_nil_r; exact NP). discriminate.
      - rewrite A2; [apply H; [exact NE | exists q; exact X]|]. intros [r Y]. apply NE.
        rewrite X in Y. apply (f_equal (@length _)) in Y as Z. rewrite !app_length in Z. destruct q; [|cbn in Z; lia].
        rewrite app_nil_r in X. symmetry. exact X. }
    rewrite E. eexists. split; [reflexivity|]. unfold run_steps. rewrite fold_left_app. fold (run_steps d rm). fold d1.
    change (fold_left run_step (map SMkdir ls) d1) with (run_steps d1 (map SMkdir ls)).
    split.
    + rewrite run_mkdirs. destruct lt as [|a l] eqn:EL; [reflexivity|]. rewrite <- EL in *.
      assert (Z : dget d1 lt = None) by (rewrite <- (app_nil_r lt); apply A3; rewrite app_nil_r, EL; discriminate).
      rewrite Z. assert (J : In lt ls) by (apply I; [rewrite EL; discriminate | exact Z]).
      replace (existsb (loc_eqb lt) ls) with true; [reflexivity|]. symmetry. apply existsb_exists. exists lt. split; [exact J | apply loc_eqb_refl].
    + intros r R. rewrite run_mkdirs, A3 by (destruct lt, r; [congruence | discriminate | discriminate | discriminate]).
      destruct (existsb _ ls) eqn:X; [|reflexivity]. exfalso. apply existsb_exists in X. destruct X as (k & J & Y).
      apply loc_eqb_spec in Y. subst k. rewrite Forall_forall in F. destruct (F _ J) as (p & _ & (q & Q) & Y & _).
      cbn in Y. subst p. apply (f_equal (@length _)) in Q. rewrite !app_length in Q. destruct r; [congruence | cbn in Q; lia].
Qed.

(* ------------------------------------------------------------------ *)
(** * Crashes *)
Definition inside (lt : loc) (s : step) : Prop :=
  match s with SRemove l | SWrite l _ => under lt l | SMkdir l => under lt l \/ under l lt end.
Lemma nil_under lt : under lt [] -> lt = [].
Proof. intros [r E]. symmetry in E. apply app_eq_nil in E. tauto. Qed.
Lemma step_outside lt s d l : inside lt s -> ~ under lt l ->
  dget (run_step d s) l = dget d l \/ dget d l = None /\ dget (run_step d s) l = Some DDir /\ under l lt.
Proof.
  intros I N. assert (ND : forall k, under lt k -> k <> [] /\ k <> l).
  { intros k U. split; [|intros ->; contradiction]. intros ->. apply nil_under in U. subst. apply N. exists l. reflexivity. }
  destruct s as [k | k | k b]; cbn in *.
  - left. destruct (ND k I). rewrite dget_ddel by assumption. destruct (loc_eqP k l); [congruence | reflexivity].
  - unfold exists_at. destruct (dget d k) eqn:E; [left; reflexivity|].
    assert (NK : k <> []) by (intros ->; discriminate). rewrite dget_dset by exact NK.
    destruct (loc_eqP k l) as [->|]; [|left; reflexivity]. right. split; [exact E|]. split; [reflexivity|].
    destruct I; [contradiction | assumption].
  - left. destruct (ND k I). destruct (writable d k); [|reflexivity]. rewrite dget_dset by assumption.
    destruct (loc_eqP k l); [congruence | reflexivity].
Qed.
Lemma crashed_outside lt ss d d' : crashed ss d d' -> Forall (inside lt) ss -> forall l, ~ under lt l ->
  dget d' l = dget d l \/ dget d l = None /\ dget d' l = Some DDir /\ under l lt.
Proof.
  intros C. induction C as [ss d | s ss d d' C IH | k b any ss d]; intros F l N.
  - left. reflexivity.
  - inversion F; subst. destruct (IH ltac:(assumption) l N) as [E | (E1 & E2 & E3)];
      destruct (step_outside lt s d l ltac:(assumption) N) as [X | (X1 & X2 & X3)].
    + left. congruence.
    + right. split; [exact X1|]. split; [congruence | exact X3].
    + right. split; [congruence|]. split; [exact E2 | exact E3].
    + congruence.
  - inversion F; subst. apply (step_outside lt (SWrite k any) d l); assumption.
Qed.
Definition place (s : step) : loc := match s with SRemove l | SMkdir l | SWrite l _ => l end.
Lemma step_elsewhere s d l : place s <> l -> place s <> [] -> dget (run_step d s) l = dget d l.
Proof.
  intros N NN. destruct s as [k | k | k b]; cbn in *.
  - rewrite dget_ddel by exact NN. destruct (loc_eqP k l); [congruence | reflexivity].
  - destruct (exists_at d k); [reflexivity|]. rewrite dget_dset by exact NN. destruct (loc_eqP k l); [congruence | reflexivity].
  - destruct (writable d k); [|reflexivity]. rewrite dget_dset by exact NN. destruct (loc_eqP k l); [congruence | reflexivity].
Qed.
Lemma crashed_elsewhere ss d d' l : crashed ss d d' -> Forall (fun s => place s <> l /\ place s <> []) ss -> dget d' l = dget d l.
Proof.
  intros C. induction C as [ss d | s ss d d' C IH | k b any ss d]; intros F; [reflexivity | |].
  - inversion F as [|? ? (H1 & H2) H3]; subst. rewrite (IH H3). apply step_elsewhere; assumption.
  - inversion F as [|? ? (H1 & H2) H3]; subst. apply (step_elsewhere (SWrite k any)); assumption.
Qed.
Lemma crashed_done ss : forall d, crashed ss d (run_steps d ss).
Proof. induction ss as [|s ss IH]; intros d; [constructor | apply crash_later, IH]. Qed.

Lemma making_inside d lt l : forall done o s, making d done l = (s, o) -> lt = done ++ l -> Forall (inside lt) s.
Proof.
  induction l as [|n l IH]; intros done o s E X; cbn in E; [injection E as <- <-; constructor|].
  assert (X' : lt = (done ++ [n]) ++ l) by (rewrite <- app_assoc; exact X).
  destruct (dget d (done ++ [n])) as [[|b]|].
  - eapply IH; eassumption.
  - injection E as <- <-. constructor.
  - destruct (making d (done ++ [n]) l) as (s', o') eqn:Y. injection E as <- <-. constructor; [|eapply IH; eassumption].
    right. exists l. exact X'.
Qed.
Lemma prepare_inside d cwd from to : Forall (inside (locate cwd to)) (fst (prepare d cwd from to)).
Proof.
  unfold prepare. destruct (same_path from to); [constructor|]. set (lt := locate cwd to).
  set (rm := if there d cwd to then removal d lt else []).
  assert (R : Forall (inside lt) rm).
  { unfold rm. destruct (there d cwd to); [|constructor]. unfold removal. apply Forall_rev, Forall_forall. intros s I.
    apply in_map_iff in I. destruct I as (p & <- & I). apply filter_In in I. destruct I as (_ & I). cbn.
    destruct (below lt (fst p)) eqn:B; [|discriminate]. eexists. apply below_spec. exact B. }
  clearbody rm. destruct (there (run_steps d rm) cwd from).
  - unfold copying. destruct (negb _); [cbn; rewrite app_nil_r; exact R|].
    destruct (below _ lt); [cbn; rewrite app_nil_r; exact R|].
    assert (U : forall r, under lt (lt ++ r)) by (intros r; exists r; reflexivity).
    assert (U0 : under lt lt) by (exists []; rewrite app_nil_r; reflexivity).
    destruct (dget _ (locate cwd from)) as [[|b]|]; cbn [fst]; apply Forall_app; (split; [exact R|]).
    + constructor; [left; exact U0|]. apply Forall_flat_map, Forall_forall. intros p _. cbv beta.
      destruct (below _ (fst p)) as [[|a r]|]; [constructor| |constructor]. constructor; [|constructor].
      destruct (snd p); cbn; [left|]; apply U.
    + constructor; [exact U0 | constructor].
    + constructor; [left; exact U0|]. apply Forall_flat_map, Forall_forall. intros p _. cbv beta.
      destruct (below _ (fst p)) as [[|a r]|]; [constructor| |constructor]. constructor; [|constructor].
      destruct (snd p); cbn; [left|]; apply U.
  - destruct (making (run_steps d rm) [] lt) as (s, o) eqn:E. cbn. apply Forall_app. split; [exact R|].
    eapply making_inside; [exact E | reflexivity].
Qed.
Lemma write_files_places l : Forall (fun s => In (place s) (map fst l)) (fst (write_files l)).
Proof.
  induction l as [|(p, o) l IH]; cbn; [constructor|].
  destruct o; cbn; try (constructor; [left; reflexivity | constructor]).
  destruct (write_files l) as (s, o'). cbn in *. constructor; [left; reflexivity|].
  eapply Forall_impl; [|exact IH]. intros s' H. right. exact H.
Qed.
Lemma write_files_writes l : Forall (fun s => exists p b, s = SWrite p b) (fst (write_files l)).
Proof.
  induction l as [|(p, o) l IH]; cbn; [constructor|].
  destruct o; cbn; try (constructor; [eauto | constructor]).
  destruct (write_files l) as (s, o'). cbn in *. constructor; eauto.
Qed.

Lemma fixed_file n : In n fixed_names -> file_name n.
Proof. intros [<-|[<-|[<-|[<-|[]]]]]; (split; [discriminate|]; split; [cbn; intuition discriminate | split; discriminate]). Qed.
Lemma five_file name n : ~ In x2f name -> In n (five name) -> file_name n.
Proof.
  intros H I. apply in_app_or in I. destruct I as [I|[<-|[]]]; [apply fixed_file; exact I | apply sav_name; exact H].
Qed.
Lemma files_names c e fuel g W root name : map fst (files c e fuel g W root name) = five name.
Proof. reflexivity. Qed.
Definition placed (cwd : loc) (to : path) (l : list (bytes * outcome bytes)) : list (loc * outcome bytes) :=
  map (fun p => (locate cwd (join to (fst p)), snd p)) l.
Lemma placed_eq cwd to l : Forall (fun p => file_name (fst p)) l -> placed cwd to l = map (fun p => (locate cwd to ++ [fst p], snd p)) l.
Proof.
  intros F. unfold placed. apply map_ext_in. intros p I. rewrite Forall_forall in F. rewrite locate_join by (apply F; exact I). reflexivity.
Qed.
Lemma files_ok c e fuel g W root name : ~ In x2f name -> Forall (fun p => file_name (fst p)) (files c e fuel g W root name).
Proof.
  intros H. apply Forall_forall. intros p I. apply (five_file name); [exact H|]. rewrite <- (files_names c e fuel g W root name).
  apply in_map. exact I.
Qed.
Lemma files_steps c e fuel g W root name cwd to : ~ In x2f name ->
  Forall (fun s => exists n b, In n (five name) /\ s = SWrite (locate cwd to ++ [n]) b)
    (fst (write_files (placed cwd to (files c e fuel g W root name)))).
Proof.
  intros H. rewrite (placed_eq _ _ _ (files_ok c e fuel g W root name H)). apply Forall_forall. intros s I.
  pose proof (write_files_places (map (fun p => (locate cwd to ++ [fst p], snd p)) (files c e fuel g W root name))) as P.
  pose proof (write_files_writes (map (fun p => (locate cwd to ++ [fst p], snd p)) (files c e fuel g W root name))) as Q.
  rewrite Forall_forall in P, Q. apply P in I as J. apply Q in I. destruct I as (p & b & ->). cbn [place] in J.
  apply in_map_iff in J. destruct J as (q & <- & J). apply in_map_iff in J. destruct J as (x & <- & J). cbn [fst].
  exists (fst x), b. split; [|reflexivity]. rewrite <- (files_names c e fuel g W root name). apply in_map. exact J.
Qed.
Lemma save_inside d cwd c e fuel g to W root name : ~ In x2f name ->
  Forall (inside (locate cwd to)) (fst (sg_save d cwd c e fuel g to W root name)).
Proof.
  intros H. unfold sg_save. pose proof (prepare_inside d cwd (sg_path g) to) as P.
  destruct (prepare d cwd (sg_path g) to) as (s, o). cbn [fst] in P. destruct o; try exact P.
  fold (placed cwd to (files c e fuel g W root name)).
  pose proof (files_steps c e fuel g W root name cwd to H) as Q.
  destruct (write_files _) as (s', o'). cbn [fst] in *. apply Forall_app. split; [exact P|].
  eapply Forall_impl; [|exact Q]. intros x (n & b & _ & ->). exists [n]. reflexivity.
Qed.
