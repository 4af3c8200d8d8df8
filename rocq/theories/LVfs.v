(** Names, directories and paths of the virtual file system. *)

From Coq Require Import Sorted Lia.
From Verif Require Import MBase MStream MZipped MVfs SStream SVfs LBase.
Local Open Scope N_scope.

(* ------------------------------------------------------------------ *)
(** * The name order *)

Definition keys (s : bytes) : list Z := map tolower s.
Fixpoint lexlt (a b : list Z) : bool :=
  match a, b with
  | _, [] => false
  | [], _ :: _ => true
  | x :: a', y :: b' => if (x <? y)%Z then true else if (y <? x)%Z then false else lexlt a' b'
  end.

Lemma tolower_key c : tolower c = sint 8 (b2n (lc c)).
Proof. destruct c; vm_compute; reflexivity. Qed.
Lemma tolower_inj a b : tolower a = tolower b <-> lc a = lc b.
Proof.
  rewrite !tolower_key. split; [|congruence]. intros H.
  apply b2n_inj. pose proof (b2n_bound (lc a)). pose proof (b2n_bound (lc b)).
  rewrite <- (uint_sint 8 (b2n (lc a))), <- (uint_sint 8 (b2n (lc b))); try reflexivity; try assumption.
  congruence.
Qed.
Lemma keys_lower a b : keys a = keys b <-> lower a = lower b.
Proof.
  revert b; induction a as [|x a IH]; intros [|y b]; cbn; try (split; congruence).
  specialize (IH b). pose proof (tolower_inj x y). unfold keys, lower in *.
  split; intros E; injection E; intros; f_equal; intuition.
Qed.
Lemma icompare_lex a b : icompare a b = lexlt (keys a) (keys b).
Proof.
  revert b; induction a as [|x a IH]; intros [|y b]; cbn; try reflexivity.
  rewrite IH. reflexivity.
Qed.
Lemma iequals_keys a b : iequals a b = true <-> keys a = keys b.
Proof.
  revert b; induction a as [|x a IH]; intros [|y b]; cbn; try (split; congruence).
  rewrite andb_true_iff, Z.eqb_eq, IH. unfold keys. split; [intros [-> ->]; reflexivity|].
  intros E; injection E; auto.
Qed.
Lemma iequals_lower a b : iequals a b = true <-> lower a = lower b.
Proof. rewrite iequals_keys. apply keys_lower. Qed.

Lemma lexlt_irrefl a : lexlt a a = false.
Proof. induction a; cbn; [reflexivity|]. rewrite Z.ltb_irrefl. assumption. Qed.
Lemma lexlt_trans a b c : lexlt a b = true -> lexlt b c = true -> lexlt a c = true.
Proof.
  revert b c; induction a as [|x a IH]; intros [|y b] [|z c]; cbn; try congruence; auto.
  destruct (Z.ltb_spec x y), (Z.ltb_spec y z), (Z.ltb_spec x z), (Z.ltb_spec y x),
    (Z.ltb_spec z y), (Z.ltb_spec z x); try congruence; try lia; eauto.
Qed.
Lemma lexlt_total a b : lexlt a b = false -> lexlt b a = false -> a = b.
Proof.
  revert b; induction a as [|x a IH]; intros [|y b]; cbn; try congruence.
  destruct (Z.ltb_spec x y), (Z.ltb_spec y x); try congruence; try lia.
  intros. f_equal; [lia|auto].
Qed.
Lemma lexlt_asym a b : lexlt a b = true -> lexlt b a = false.
Proof.
  intros H. destruct (lexlt b a) eqn:E; [|reflexivity].
  pose proof (lexlt_trans _ _ _ H E). rewrite lexlt_irrefl in *. congruence.
Qed.

Lemma icompare_irrefl a : icompare a a = false.
Proof. rewrite icompare_lex. apply lexlt_irrefl. Qed.
Lemma icompare_trans a b c : icompare a b = true -> icompare b c = true -> icompare a c = true.
Proof. rewrite !icompare_lex. apply lexlt_trans. Qed.
Lemma icompare_equiv a b : (icompare a b = false /\ icompare b a = false) <-> lower a = lower b.
Proof.
  rewrite !icompare_lex, <- keys_lower. split; [intros [? ?]; apply lexlt_total; assumption|].
  intros ->. split; apply lexlt_irrefl.
Qed.
Lemma icompare_asym a b : icompare a b = true -> icompare b a = false.
Proof. rewrite !icompare_lex. apply lexlt_asym. Qed.
Lemma icompare_lower_l a a' b : lower a = lower a' -> icompare a b = icompare a' b.
Proof. intros H. rewrite !icompare_lex. f_equal. apply keys_lower. assumption. Qed.
Lemma icompare_lower_r a b b' : lower b = lower b' -> icompare a b = icompare a b'.
Proof. intros H. rewrite !icompare_lex. f_equal. apply keys_lower. assumption. Qed.

Lemma same_spec a b : same a b = true <-> lower a = lower b.
Proof. apply bytes_eqb_spec. Qed.
Lemma same_refl a : same a a = true.
Proof. apply same_spec. reflexivity. Qed.
Lemma same_false a b : same a b = false <-> lower a <> lower b.
Proof. apply bytes_eqb_false. Qed.
Lemma same_sym a b : same a b = same b a.
Proof.
  unfold same. destruct (bytes_eqP (lower a) (lower b)) as [E|E], (bytes_eqP (lower b) (lower a)); congruence.
Qed.
Lemma same_lower_r a b b' : lower b = lower b' -> same a b = same a b'.
Proof. unfold same. intros ->. reflexivity. Qed.
Lemma same_lower_l a a' b : lower a = lower a' -> same a b = same a' b.
Proof. unfold same. intros ->. reflexivity. Qed.
Lemma iequals_same a b : iequals a b = same a b.
Proof.
  destruct (same a b) eqn:E.
  - apply iequals_lower, same_spec. assumption.
  - destruct (iequals a b) eqn:F; [|reflexivity]. apply iequals_lower, same_spec in F. congruence.
Qed.
(** The three-way case analysis of the set operations. *)
Lemma icompare_cases a b :
  (icompare a b = true /\ icompare b a = false /\ same a b = false) \/
  (icompare a b = false /\ icompare b a = true /\ same a b = false) \/
  (icompare a b = false /\ icompare b a = false /\ same a b = true).
Proof.
  destruct (icompare a b) eqn:E, (icompare b a) eqn:F.
  - apply icompare_asym in E. congruence.
  - left. repeat split. apply same_false. intros H.
    apply icompare_equiv in H. destruct H; congruence.
  - right; left. repeat split. apply same_false. intros H.
    apply icompare_equiv in H. destruct H; congruence.
  - right; right. repeat split. apply same_spec, icompare_equiv. auto.
Qed.

(* ------------------------------------------------------------------ *)
(** * Trailing white space *)

Lemma trim_rev_nil_or r : trim_rev r = [] \/ exists c r', trim_rev r = c :: r' /\ isspace c = false.
Proof.
  induction r as [|c r IH]; cbn; [auto|]. destruct (isspace c) eqn:E; [assumption|].
  right. eauto.
Qed.
Lemma trim_clean s : clean (trim s).
Proof.
  unfold clean, trim. intros s' c H. apply (f_equal (@rev byte)) in H.
  rewrite rev_involutive, rev_app_distr in H. cbn in H.
  destruct (trim_rev_nil_or (rev s)) as [E|(c' & r' & E & F)]; rewrite E in H; congruence.
Qed.
Lemma clean_trim s : clean s -> trim s = s.
Proof.
  unfold clean, trim. intros H. destruct (rev s) as [|c r] eqn:E.
  - apply (f_equal (@rev byte)) in E. rewrite rev_involutive in E. rewrite E. reflexivity.
  - cbn. assert (s = rev r ++ [c]).
    { rewrite <- (rev_involutive s), E. reflexivity. }
    rewrite (H _ _ H0). rewrite <- E. apply rev_involutive.
Qed.
Lemma trim_trim s : trim (trim s) = trim s.
Proof. apply clean_trim, trim_clean. Qed.

(* ------------------------------------------------------------------ *)
(** * Directories as sorted sets *)

Global Arguments kid : simpl never.
Global Arguments same : simpl never.
Global Arguments lower : simpl never.
Definition sorted (l : list node) : Prop := StronglySorted before l.

Lemma sorted_cons c l : sorted (c :: l) <-> sorted l /\ Forall (before c) l.
Proof.
  split; [apply StronglySorted_inv | intros [? ?]; constructor; assumption].
Qed.

Lemma kid_nil x : kid [] x = None.
Proof. reflexivity. Qed.
Lemma kid_cons c l x : kid (c :: l) x = if same (nname c) x then Some c else kid l x.
Proof. reflexivity. Qed.
Lemma kid_lower l x y : lower x = lower y -> kid l x = kid l y.
Proof.
  intros H. induction l as [|c l IH]; [reflexivity|]. rewrite !kid_cons, IH.
  rewrite (same_lower_r _ _ _ H). reflexivity.
Qed.
Lemma kid_In l x c : kid l x = Some c -> In c l /\ lower (nname c) = lower x.
Proof.
  intros H. apply find_some in H. destruct H as [? H]. apply same_spec in H. auto.
Qed.
Lemma kid_None l x : kid l x = None <-> forall c, In c l -> lower (nname c) <> lower x.
Proof.
  split.
  - intros H c Hc. apply same_false. apply (find_none _ _ H c Hc).
  - intros H. destruct (kid l x) eqn:E; [|reflexivity]. apply kid_In in E. destruct E.
    exfalso. eapply H; eassumption.
Qed.
Lemma before_absent l c x : Forall (before c) l -> icompare x (nname c) = true \/ same (nname c) x = true ->
  kid l x = None.
Proof.
  intros H K. apply kid_None. intros d Hd E. rewrite Forall_forall in H. specialize (H d Hd).
  unfold before in H. rewrite (icompare_lower_r _ _ _ E) in H. destruct K as [K|K].
  - apply icompare_asym in H. congruence.
  - apply same_spec in K. rewrite (icompare_lower_l _ _ _ K), icompare_irrefl in H. congruence.
Qed.

Lemma set_find_kid l x : sorted l -> set_find x l = kid l x.
Proof.
  induction l as [|c l IH]; intros H; [reflexivity|]. apply sorted_cons in H. destruct H as [H1 H2].
  cbn [set_find]. rewrite kid_cons.
  destruct (icompare_cases (nname c) x) as [(A&B&C)|[(A&B&C)|(A&B&C)]]; rewrite A, C; try rewrite B; auto.
  symmetry. eapply before_absent; eauto.
Qed.
Lemma find_child_kid l x : sorted l -> find_child l x = kid l (trim x).
Proof.
  intros H. unfold find_child. rewrite set_find_kid by assumption.
  destruct (kid l (trim x)) as [c|] eqn:E; [|reflexivity].
  apply kid_In in E. destruct E as [_ E]. rewrite iequals_same.
  apply same_spec in E. rewrite E. reflexivity.
Qed.

Lemma set_insert_In n l c : In c (set_insert n l) -> c = n \/ In c l.
Proof.
  induction l as [|d l IH]; cbn; [intuition|].
  destruct (icompare (nname d) (nname n)); cbn; [intuition|].
  destruct (icompare (nname n) (nname d)); cbn; intuition.
Qed.
Lemma set_insert_sorted n l : sorted l -> sorted (set_insert n l).
Proof.
  induction l as [|d l IH]; intros H; cbn.
  - constructor; constructor.
  - pose proof H as H0. apply sorted_cons in H. destruct H as [H1 H2].
    destruct (icompare (nname d) (nname n)) eqn:A.
    + apply sorted_cons. split; [auto|]. apply Forall_forall. intros c Hc.
      apply set_insert_In in Hc. destruct Hc as [->|Hc]; [assumption|].
      rewrite Forall_forall in H2. auto.
    + destruct (icompare (nname n) (nname d)) eqn:B; [|assumption].
      apply sorted_cons. split; [assumption|]. constructor; [assumption|].
      apply Forall_forall. intros c Hc. rewrite Forall_forall in H2. specialize (H2 c Hc).
      unfold before in *. eapply icompare_trans; eassumption.
Qed.
Lemma kid_set_insert n l x : sorted l -> kid (set_insert n l) x =
  if same (nname n) x then match kid l x with Some c => Some c | None => Some n end else kid l x.
Proof.
  induction l as [|d l IH]; intros H; cbn [set_insert].
  - rewrite kid_cons, kid_nil. reflexivity.
  - apply sorted_cons in H. destruct H as [H1 H2]. specialize (IH H1).
    destruct (icompare_cases (nname d) (nname n)) as [(A&B&C)|[(A&B&C)|(A&B&C)]]; rewrite A; try rewrite B.
    + rewrite !kid_cons, IH. destruct (same (nname d) x) eqn:E; [|reflexivity].
      destruct (same (nname n) x) eqn:F; reflexivity.
    + rewrite !kid_cons. destruct (same (nname n) x) eqn:F; [|reflexivity].
      apply same_spec in F. assert (G : same (nname d) x = false).
      { rewrite <- (same_lower_r _ _ _ F). assumption. }
      rewrite G. rewrite (before_absent _ d); [reflexivity|assumption|].
      left. rewrite <- (icompare_lower_l _ _ _ F). assumption.
    + rewrite !kid_cons. destruct (same (nname n) x) eqn:F; [|reflexivity].
      apply same_spec in F. rewrite <- (same_lower_r _ _ _ F), C. reflexivity.
Qed.

Lemma set_erase_In x l c : In c (set_erase x l) -> In c l.
Proof.
  induction l as [|d l IH]; cbn; [intuition|].
  destruct (icompare (nname d) x); cbn; [intuition|].
  destruct (icompare x (nname d)); cbn; intuition.
Qed.
Lemma set_erase_sorted x l : sorted l -> sorted (set_erase x l).
Proof.
  induction l as [|d l IH]; intros H; cbn; [constructor|].
  pose proof H as H0. apply sorted_cons in H. destruct H as [H1 H2].
  destruct (icompare (nname d) x).
  - apply sorted_cons. split; [auto|]. apply Forall_forall. intros c Hc. apply set_erase_In in Hc.
    rewrite Forall_forall in H2. auto.
  - destruct (icompare x (nname d)); assumption.
Qed.
Lemma kid_set_erase x l y : sorted l -> kid (set_erase x l) y = if same x y then None else kid l y.
Proof.
  induction l as [|d l IH]; intros H; cbn [set_erase].
  - rewrite kid_nil. destruct (same x y); reflexivity.
  - apply sorted_cons in H. destruct H as [H1 H2]. specialize (IH H1).
    destruct (icompare_cases (nname d) x) as [(A&B&C)|[(A&B&C)|(A&B&C)]]; rewrite A; try rewrite B.
    + rewrite !kid_cons, IH. destruct (same (nname d) y) eqn:E; [|reflexivity].
      destruct (same x y) eqn:F; [|reflexivity]. apply same_spec in F.
      rewrite <- (same_lower_r _ _ _ F) in E. congruence.
    + destruct (same x y) eqn:F; [|reflexivity]. apply same_spec in F.
      rewrite kid_cons. rewrite <- (same_lower_r _ _ _ F), C.
      apply (before_absent _ d); [assumption|]. left. rewrite <- (icompare_lower_l _ _ _ F). assumption.
    + destruct (same x y) eqn:F.
      * apply (before_absent _ d); [assumption|]. right. apply same_spec in F.
        rewrite <- (same_lower_r _ _ _ F). assumption.
      * rewrite kid_cons. apply same_spec in C. rewrite (same_lower_l _ _ _ C), F. reflexivity.
Qed.

Lemma remove_kid_sorted l x : sorted l -> sorted (snd (remove_kid l x)).
Proof. intros H. unfold remove_kid. destruct (find_child l x); cbn; [apply set_erase_sorted|]; assumption. Qed.
Lemma kid_remove_kid l x y : sorted l ->
  kid (snd (remove_kid l x)) y = if same (trim x) y then None else kid l y.
Proof.
  intros H. unfold remove_kid. rewrite find_child_kid by assumption.
  destruct (kid l (trim x)) eqn:E; cbn [snd].
  - apply kid_set_erase. assumption.
  - destruct (same (trim x) y) eqn:F; [|reflexivity]. apply same_spec in F.
    rewrite <- (kid_lower _ _ _ F). assumption.
Qed.
Lemma remove_kid_found l x : sorted l ->
  fst (remove_kid l x) = match kid l (trim x) with Some _ => true | None => false end.
Proof.
  intros H. unfold remove_kid. rewrite find_child_kid by assumption.
  destruct (kid l (trim x)); reflexivity.
Qed.
Lemma remove_kid_In l x c : In c (snd (remove_kid l x)) -> In c l.
Proof. unfold remove_kid. destruct (find_child l x); cbn; [apply set_erase_In | auto]. Qed.
Lemma create_kid_sorted l k : sorted l -> sorted (create_kid l k).
Proof. intros. apply set_insert_sorted, remove_kid_sorted. assumption. Qed.
Lemma create_kid_In l k c : In c (create_kid l k) -> c = k \/ In c l.
Proof. intros H. apply set_insert_In in H. destruct H; [auto|]. right. eapply remove_kid_In; eassumption. Qed.
Lemma kid_create_kid l k y : sorted l -> clean (nname k) ->
  kid (create_kid l k) y = if same (nname k) y then Some k else kid l y.
Proof.
  intros H C. unfold create_kid. rewrite kid_set_insert by (apply remove_kid_sorted; assumption).
  rewrite kid_remove_kid by assumption. rewrite (clean_trim _ C).
  destruct (same (nname k) y); reflexivity.
Qed.
Lemma kid_create_kid_any l k : sorted l -> exists c, kid (create_kid l k) (nname k) = Some c.
Proof.
  intros H. unfold create_kid. rewrite kid_set_insert by (apply remove_kid_sorted; assumption).
  rewrite same_refl. destruct (kid _ _); eauto.
Qed.

(** Replacing a child through a pointer. *)
Lemma upd_first_In x f l c : In c (upd_first x f l) -> In c l \/ exists d, In d l /\ nname d = x /\ c = f d.
Proof.
  induction l as [|d l IH]; cbn; [intuition|].
  destruct (bytes_eqP (nname d) x); cbn; intros [<-|H]; eauto 6.
  destruct (IH H) as [?|(d' & ? & ? & ?)]; eauto 6.
Qed.
Lemma upd_first_names x f l : (forall c, nname (f c) = nname c) -> map nname (upd_first x f l) = map nname l.
Proof.
  intros H. induction l as [|d l IH]; cbn; [reflexivity|].
  destruct (bytes_eqb (nname d) x); cbn; [rewrite H; reflexivity | rewrite IH; reflexivity].
Qed.
Lemma sorted_names l l' : map nname l = map nname l' -> sorted l -> sorted l'.
Proof.
  revert l'; induction l as [|c l IH]; intros [|c' l'] E H; try discriminate; [constructor|].
  cbn in E. injection E; intros E1 E2. apply sorted_cons in H. destruct H as [H1 H2].
  apply sorted_cons. split; [auto|]. clear - E1 E2 H2. revert l' E1. induction H2; intros [|d l'] E1; try discriminate.
  - constructor.
  - cbn in E1. injection E1; intros. constructor; [unfold before in *; congruence | auto].
Qed.
Lemma upd_first_sorted x f l : (forall c, nname (f c) = nname c) -> sorted l -> sorted (upd_first x f l).
Proof. intros H. apply sorted_names. symmetry. apply upd_first_names. assumption. Qed.
Lemma kid_upd_first x f l y c : sorted l -> In c l -> nname c = x -> nname (f c) = x ->
  kid (upd_first x f l) y = if same x y then Some (f c) else kid l y.
Proof.
  induction l as [|d l IH]; cbn; [intuition|]. intros H Hc Hx Hf.
  apply sorted_cons in H. destruct H as [H1 H2].
  destruct (bytes_eqP (nname d) x) as [E|E].
  - assert (d = c).
    { destruct Hc as [?|Hc]; [assumption|]. exfalso. rewrite Forall_forall in H2. specialize (H2 c Hc).
      unfold before in H2. rewrite E, Hx, icompare_irrefl in H2. discriminate. }
    subst d. rewrite !kid_cons, Hf. destruct (same x y) eqn:F; [reflexivity|].
    destruct (same (nname c) y) eqn:G; [|reflexivity]. congruence.
  - destruct Hc as [?|Hc]; [subst; congruence|]. rewrite !kid_cons.
    destruct (same (nname d) y) eqn:F.
    + destruct (same x y) eqn:G; [|reflexivity]. exfalso.
      rewrite Forall_forall in H2. specialize (H2 c Hc). unfold before in H2. rewrite Hx in H2.
      apply same_spec in F, G. rewrite (icompare_lower_r _ _ (nname d)), icompare_irrefl in H2; congruence.
    + rewrite IH by assumption. reflexivity.
Qed.

(* ------------------------------------------------------------------ *)
(** * Paths *)

Lemma split_none p : forall cur, find_slash p = None ->
  split cur p = match cur ++ p with [] => [] | x => [x] end.
Proof.
  induction p as [|c p IH]; intros cur H; cbn [split find_slash] in *.
  - rewrite app_nil_r. destruct cur; reflexivity.
  - destruct (beq c x2f); [discriminate|]. destruct (find_slash p); [discriminate|].
    rewrite IH by reflexivity. rewrite <- app_assoc. cbn. destruct cur; reflexivity.
Qed.
Lemma split_some p : forall cur i, find_slash p = Some i ->
  split cur p = match cur ++ take i p with [] => parts (drop (i + 1) p) | x => x :: parts (drop (i + 1) p) end.
Proof.
  induction p as [|c p IH]; intros cur i H; cbn [split find_slash] in *; [discriminate|].
  destruct (beq c x2f).
  - injection H as <-. rewrite take_0, app_nil_r. rewrite !drop_skipn. cbn.
    destruct cur; reflexivity.
  - destruct (find_slash p) as [j|] eqn:E; [|discriminate]. injection H as <-.
    rewrite (IH (cur ++ [c]) j) by reflexivity.
    rewrite <- app_assoc.
    rewrite !take_firstn, !drop_skipn, !N2Nat.inj_add. replace (N.to_nat 1) with 1%nat by reflexivity.
    rewrite !Nat.add_1_r. cbn [firstn skipn].
    destruct cur; reflexivity.
Qed.
Lemma find_slash_lt p i : find_slash p = Some i -> i < len p.
Proof.
  revert i; induction p as [|c p IH]; intros i H; cbn [find_slash] in *; [discriminate|].
  rewrite len_cons. destruct (beq c x2f); [injection H as <-; lia|].
  destruct (find_slash p) as [j|]; [|discriminate]. injection H as <-. specialize (IH j eq_refl). lia.
Qed.
Lemma find_slash_0 p : find_slash p = Some 0 -> exists p', p = x2f :: p'.
Proof.
  destruct p as [|c p]; cbn; [discriminate|]. destruct (beqP c x2f) as [->|]; [eauto|].
  destruct (find_slash p); [|discriminate]. intros H. injection H. lia.
Qed.
Lemma find_slash_app a b : find_slash (a ++ x2f :: b) <> None.
Proof.
  induction a as [|c a IH]; cbn [find_slash app]; [cbn; congruence|].
  destruct (beq c x2f); [congruence|]. destruct (find_slash (a ++ x2f :: b)); congruence.
Qed.

Lemma path_ind (P : list byte -> Prop) :
  P [] ->
  (forall p, P p -> P (x2f :: p)) ->
  (forall p, p <> [] -> find_slash p = None -> parts p = [p] -> P p) ->
  (forall p i, find_slash p = Some i -> 0 < i -> i < len p ->
     parts p = take i p :: parts (drop (i + 1) p) -> P (drop (i + 1) p) -> P p) ->
  forall p : list byte, P p.
Proof.
  intros H0 H1 H2 H3 p. remember (length p) as n. revert p Heqn.
  induction n as [n IH] using lt_wf_ind. intros p Hn.
  destruct p as [|c p]; [assumption|].
  destruct (find_slash (c :: p)) as [i|] eqn:E.
  - destruct (N.eq_0_gt_0_cases i) as [->|Hi].
    + apply find_slash_0 in E. destruct E as [p' E]. injection E as -> ->.
      apply H1. apply (IH (length p')); [cbn in Hn; lia|reflexivity].
    + pose proof (find_slash_lt _ _ E). apply (H3 _ i); auto.
      * unfold parts at 1. rewrite (split_some _ _ _ E). cbn [app].
        destruct (take i (c :: p)) eqn:F; [|reflexivity].
        apply (f_equal (@len byte)) in F. rewrite len_take, len_nil in F. lia.
      * apply (IH (length (drop (i + 1) (c :: p)))); [|reflexivity].
        rewrite drop_skipn, skipn_length. unfold len in *. cbn [length] in *. lia.
  - apply H2; [congruence|assumption|]. unfold parts. rewrite split_none by assumption. reflexivity.
Qed.

(** [resolve] on the list of names. *)
Fixpoint walk (loc : list bytes) (n : node) (p : list bytes) : outcome (option (list bytes * node)) :=
  match p with
  | [] => Ret (Some (loc, n))
  | x :: p' =>
      match n with
      | NFile _ _ _ => Undef
      | NDir _ _ l => match kid l x with Some c => walk (loc ++ [nname c]) c p' | None => Ret None end
      end
  end.

Lemma wf_kids nm t l : wf (NDir nm t l) -> sorted l /\ Forall wf l.
Proof. inversion 1; auto. Qed.
Lemma wf_kid nm t l x c : wf (NDir nm t l) -> kid l x = Some c -> wf c.
Proof.
  intros H E. apply wf_kids in H. destruct H as [_ H]. apply kid_In in E. destruct E as [E _].
  rewrite Forall_forall in H. auto.
Qed.

Lemma parts_slash p : parts (x2f :: p) = parts p.
Proof. reflexivity. Qed.
Lemma names_slash p : names (x2f :: p) = names p.
Proof. reflexivity. Qed.

Lemma resolve_f_walk (path : list byte) : forall fuel loc n, (length path < fuel)%nat -> wf n ->
  resolve_f fuel loc n path = walk loc n (names path).
Proof.
  induction path as [|p IH|p H0 H1 H2|p i H1 H2 H3 H4 IH] using path_ind; intros [|fuel] loc n Hf Hw; try lia.
  - reflexivity.
  - cbn [length] in Hf. rewrite names_slash. rewrite <- (IH fuel) by (assumption || lia).
    change (resolve_f fuel loc n (drop 1 (x2f :: p)) = resolve_f fuel loc n p). rewrite drop_skipn. reflexivity.
  - cbn [resolve_f]. destruct p as [|c p]; [congruence|]. rewrite H1.
    unfold names. rewrite H2. cbn [map walk]. destruct n as [|nm t l]; [reflexivity|].
    cbn [child]. apply wf_kids in Hw. rewrite find_child_kid by apply Hw.
    destruct (kid l (trim (c :: p))); reflexivity.
  - cbn [resolve_f]. destruct p as [|c p]; [rewrite len_nil in H3; lia|]. rewrite H1.
    destruct i as [|i]; [lia|].
    unfold names. rewrite H4. cbn [map walk]. destruct n as [|nm t l]; [reflexivity|].
    cbn [child]. rewrite find_child_kid by apply (wf_kids _ _ _ Hw).
    destruct (kid l (trim (take (N.pos i) (c :: p)))) eqn:E; [|reflexivity].
    rewrite IH; [reflexivity| |eapply wf_kid; eassumption].
    rewrite drop_skipn, skipn_length. cbn [length] in *. lia.
Qed.
Lemma resolve_loc_walk n path : wf n -> resolve_loc n path = walk [] n (names path).
Proof. intros H. apply resolve_f_walk; [lia|assumption]. Qed.

Lemma lookup_app n p q : lookup n (p ++ q) = match lookup n p with Some m => lookup m q | None => None end.
Proof.
  revert n; induction p as [|x p IH]; intros n; [reflexivity|]. cbn.
  destruct n; [reflexivity|]. destruct (kid children x); [apply IH|reflexivity].
Qed.
Lemma lookup_lower n p q : map lower p = map lower q -> lookup n p = lookup n q.
Proof.
  revert n q; induction p as [|x p IH]; intros n [|y q] H; try discriminate; [reflexivity|].
  cbn in *. injection H; intros H1 H2. destruct n; [reflexivity|].
  rewrite (kid_lower _ _ _ H2). destruct (kid children y); auto.
Qed.
Lemma lookup_wf n p m : wf n -> lookup n p = Some m -> wf m.
Proof.
  revert n; induction p as [|x p IH]; intros n H E; cbn in E; [congruence|].
  destruct n; [discriminate|]. destruct (kid children x) eqn:F; [|discriminate].
  eapply IH; [|eassumption]. eapply wf_kid; eassumption.
Qed.

Lemma through_cons nm t l x p c : kid l x = Some c -> through_file c p -> through_file (NDir nm t l) (x :: p).
Proof.
  intros H (q & y & r & -> & F). exists (x :: q), y, r. split; [reflexivity|]. cbn. rewrite H. assumption.
Qed.
Lemma not_through_cons nm t l x p c : kid l x = Some c -> ~ through_file (NDir nm t l) (x :: p) -> ~ through_file c p.
Proof. intros H N K. apply N. eapply through_cons; eassumption. Qed.
Lemma not_through_file nm t fd x p : ~ through_file (NFile nm t fd) (x :: p) -> False.
Proof. intros H. apply H. exists [], x, p. split; [reflexivity|]. cbn. repeat eexists. Qed.

(** The stored names along a path. *)
Fixpoint trail (n : node) (p : list bytes) : list bytes :=
  match p with
  | [] => []
  | x :: p' =>
      match n with
      | NFile _ _ _ => []
      | NDir _ _ l => match kid l x with Some c => nname c :: trail c p' | None => [] end
      end
  end.
Lemma walk_lookup p : forall loc n, ~ through_file n p ->
  walk loc n p = Ret (match lookup n p with Some m => Some (loc ++ trail n p, m) | None => None end).
Proof.
  induction p as [|x p IH]; intros loc n H.
  - cbn. rewrite app_nil_r. reflexivity.
  - destruct n as [|nm t l]; [exfalso; eapply not_through_file; eassumption|].
    cbn. destruct (kid l x) eqn:E; [|reflexivity].
    rewrite IH by (eapply not_through_cons; eassumption).
    destruct (lookup n p); [|reflexivity]. rewrite <- app_assoc. reflexivity.
Qed.
Lemma lookup_not_through n p m : lookup n p = Some m -> ~ through_file n p.
Proof.
  intros H (q & x & r & -> & (nm & t & fd & F)). rewrite lookup_app, F in H. discriminate.
Qed.
Lemma through_file_undef p : forall loc n, through_file n p -> walk loc n p = Undef.
Proof.
  induction p as [|x p IH]; intros loc n (q & y & r & E & L).
  - destruct q; discriminate.
  - destruct n as [|nm t l]; [reflexivity|]. destruct q as [|z q].
    + destruct L as (? & ? & ? & L). cbn in L. discriminate.
    + cbn in E. injection E as -> ->. cbn. cbn in L. destruct (kid l z) eqn:F.
      * apply IH. exists q, y, r. auto.
      * destruct L as (? & ? & ? & L). discriminate.
Qed.

Lemma resolve_ok n path : wf n -> ~ through_file n (names path) ->
  resolve n path = Ret (lookup n (names path)).
Proof.
  intros H K. unfold resolve. rewrite resolve_loc_walk by assumption. rewrite walk_lookup by assumption.
  cbn. destruct (lookup n (names path)); reflexivity.
Qed.
Lemma resolve_through n path : wf n -> through_file n (names path) -> resolve n path = Undef.
Proof.
  intros H K. unfold resolve. rewrite resolve_loc_walk, through_file_undef by assumption. reflexivity.
Qed.

(** Following stored names. *)
Lemma find_In_sorted l c : sorted l -> In c l -> find (fun d => bytes_eqb (nname d) (nname c)) l = Some c.
Proof.
  induction l as [|d l IH]; intros H Hc; [contradiction|].
  apply sorted_cons in H. destruct H as [H1 H2]. cbn. destruct (bytes_eqP (nname d) (nname c)) as [E|E].
  - destruct Hc as [->|Hc]; [reflexivity|]. rewrite Forall_forall in H2. specialize (H2 c Hc).
    unfold before in H2. rewrite E, icompare_irrefl in H2. discriminate.
  - destruct Hc as [->|Hc]; [congruence|]. auto.
Qed.
Lemma get_at_app p q n : get_at (p ++ q) n = match get_at p n with Some m => get_at q m | None => None end.
Proof.
  revert n; induction p as [|x p IH]; intros n; [reflexivity|]. cbn. destruct n; [reflexivity|].
  destruct (find _ _); [apply IH|reflexivity].
Qed.
Lemma get_at_trail p : forall n m, wf n -> lookup n p = Some m -> get_at (trail n p) n = Some m.
Proof.
  induction p as [|x p IH]; intros n m H E; cbn in *; [assumption|].
  destruct n as [|nm t l]; [discriminate|]. destruct (kid l x) as [c|] eqn:F; [|discriminate].
  cbn. pose proof (wf_kids _ _ _ H) as [H1 H2]. rewrite find_In_sorted; [|assumption|apply (kid_In _ _ _ F)].
  apply IH; [|assumption]. eapply wf_kid; eassumption.
Qed.

(** A location that denotes a node of the tree, found with its own names. *)
Inductive at_loc : list bytes -> node -> node -> Prop :=
| At_nil : forall n, at_loc [] n n
| At_cons : forall nm t l c loc m, In c l -> at_loc loc c m -> at_loc (nname c :: loc) (NDir nm t l) m.
Lemma at_loc_trail p : forall n m, lookup n p = Some m -> at_loc (trail n p) n m.
Proof.
  induction p as [|x p IH]; intros n m E; cbn in *; [injection E as ->; constructor|].
  destruct n as [|nm t l]; [discriminate|]. destruct (kid l x) as [c|] eqn:F; [|discriminate].
  constructor; [apply (kid_In _ _ _ F)|auto].
Qed.
Lemma at_loc_get loc n m : wf n -> at_loc loc n m -> get_at loc n = Some m.
Proof.
  intros H K. induction K as [|nm t l c loc m Hc K IH]; [reflexivity|]. cbn.
  pose proof (wf_kids _ _ _ H) as [H1 H2]. rewrite find_In_sorted by assumption.
  apply IH. rewrite Forall_forall in H2. auto.
Qed.
Lemma kid_self l c : sorted l -> In c l -> kid l (nname c) = Some c.
Proof.
  induction l as [|d l IH]; intros H Hc; [contradiction|].
  apply sorted_cons in H. destruct H as [H1 H2]. rewrite kid_cons.
  destruct (same (nname d) (nname c)) eqn:E.
  - destruct Hc as [->|Hc]; [reflexivity|]. rewrite Forall_forall in H2. specialize (H2 c Hc).
    unfold before in H2. apply same_spec in E.
    rewrite (icompare_lower_l _ _ _ E), icompare_irrefl in H2. discriminate.
  - destruct Hc as [->|Hc]; [rewrite same_refl in E; discriminate|]. auto.
Qed.
Lemma at_loc_lookup loc n m : wf n -> at_loc loc n m -> lookup n loc = Some m.
Proof.
  intros H K. induction K as [|nm t l c loc m Hc K IH]; [reflexivity|]. cbn.
  pose proof (wf_kids _ _ _ H) as [H1 H2]. rewrite kid_self by assumption.
  apply IH. rewrite Forall_forall in H2. auto.
Qed.
Lemma at_loc_wf loc n m : wf n -> at_loc loc n m -> wf m.
Proof. intros H K. eapply lookup_wf; [exact H|]. apply at_loc_lookup; eassumption. Qed.
Lemma at_loc_snoc loc n nm t l c : at_loc loc n (NDir nm t l) -> In c l -> at_loc (loc ++ [nname c]) n c.
Proof.
  intros K. remember (NDir nm t l) as m eqn:E. induction K; intros Hc; subst; cbn.
  - constructor; [assumption|constructor].
  - constructor; auto.
Qed.

(** The tree after replacing the node at a location. *)
Lemma upd_at_name loc f n : (forall m, nname (f m) = nname m) -> nname (upd_at loc f n) = nname n.
Proof. destruct loc as [|x loc]; intros H; cbn; [apply H|]. destruct n; reflexivity. Qed.
Lemma upd_at_name' loc n m m' : at_loc loc n m -> nname m' = nname m ->
  nname (upd_at loc (fun _ => m') n) = nname n.
Proof. inversion 1; subst; cbn; auto. Qed.

(** Looking below a replaced node, and elsewhere. *)
Lemma upd_at_wf loc n m m' : wf n -> at_loc loc n m -> nname m' = nname m -> wf m' ->
  wf (upd_at loc (fun _ => m') n).
Proof.
  intros H K. revert m'. induction K as [|nm t l c loc m Hc K IH]; intros m' E W; cbn; [assumption|].
  pose proof (wf_kids _ _ _ H) as [H1 H2]. constructor.
  - apply (sorted_names l); [|assumption]. clear IH H H1 H2.
    induction l as [|d l IHl]; [contradiction|]. cbn. destruct (bytes_eqP (nname d) (nname c)) as [F|F].
    + cbn. f_equal. destruct loc as [|x loc].
      * cbn. inversion K; subst. congruence.
      * cbn. destruct d; reflexivity.
    + cbn. f_equal. destruct Hc as [->|Hc]; [congruence|auto].
  - rewrite Forall_forall in *. intros d Hd. apply upd_first_In in Hd.
    destruct Hd as [Hd|(e & He & E1 & ->)]; [auto|].
    assert (e = c).
    { pose proof (kid_self _ _ H1 He). pose proof (kid_self _ _ H1 Hc). rewrite E1 in *. congruence. }
    subst e. apply IH; auto.
Qed.
Lemma upd_at_lookup_below loc n m m' q : wf n -> at_loc loc n m -> nname m' = nname m ->
  lookup (upd_at loc (fun _ => m') n) (loc ++ q) = lookup m' q.
Proof.
  intros H K E. induction K as [|nm t l c loc m Hc K IH]; [reflexivity|]. cbn.
  pose proof (wf_kids _ _ _ H) as [H1 H2].
  rewrite (kid_upd_first _ _ _ _ c); [|assumption|assumption|reflexivity|].
  - rewrite same_refl. apply IH; [|assumption]. rewrite Forall_forall in H2. auto.
  - eapply upd_at_name'; eassumption.
Qed.
(** A path that leaves the location, or stops above it. *)
Lemma upd_at_stat_other loc n m m' q : wf n -> at_loc loc n m -> nname m' = nname m ->
  ~ at_or_below loc q -> stat (lookup (upd_at loc (fun _ => m') n) q) = stat (lookup n q).
Proof.
  intros H K E. revert q. induction K as [|nm t l c loc m Hc K IH]; intros q N.
  - exfalso. apply N. exists (map lower q). reflexivity.
  - destruct q as [|y q]; [reflexivity|]. cbn. pose proof (wf_kids _ _ _ H) as [H1 H2].
    rewrite (kid_upd_first _ _ _ _ c); [|assumption|assumption|reflexivity|eapply upd_at_name'; eassumption].
    destruct (same (nname c) y) eqn:F; [|reflexivity]. apply same_spec in F.
    rewrite <- (kid_lower _ _ _ F), kid_self by assumption. apply IH; [|assumption|].
    + rewrite Forall_forall in H2. auto.
    + intros [r Hr]. apply N. exists r. cbn. rewrite F, Hr. reflexivity.
Qed.
Lemma at_loc_app loc n m q k : at_loc loc n m -> at_loc q m k -> at_loc (loc ++ q) n k.
Proof. induction 1; cbn; [auto|]. intros. constructor; auto. Qed.
Lemma trail_lower p : forall n m, lookup n p = Some m -> map lower (trail n p) = map lower p.
Proof.
  induction p as [|x p IH]; intros n m E; cbn in *; [reflexivity|].
  destruct n as [|nm t l]; [discriminate|]. destruct (kid l x) as [c|] eqn:F; [|discriminate].
  cbn. f_equal; [apply (kid_In _ _ _ F)|eauto].
Qed.
