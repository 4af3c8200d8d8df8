(** Mounting a tree merges it according to the policy. *)

From Coq Require Import Sorted Lia.
From Verif Require Import MBase MStream MZipped MVfs SStream SVfs LBase LVfs LVfsOps LVfsHist.
Local Open Scope N_scope.

(** ** Names that are clean stay clean under case folding *)
Lemma isspace_lc c : isspace (lc c) = isspace c.
Proof. destruct c; reflexivity. Qed.
Lemma lower_app a b : lower (a ++ b) = lower a ++ lower b.
Proof. apply map_app. Qed.
Lemma clean_lower a b : lower a = lower b -> clean a -> clean b.
Proof.
  intros E C s c ->. rewrite lower_app in E. change (lower [c]) with [lc c] in E.
  destruct a as [|x a _] using rev_ind.
  - apply (f_equal (@length byte)) in E. rewrite app_length in E. cbn [length] in E. change (lower []) with (@nil byte) in E. cbn [length] in E. lia.
  - rewrite lower_app in E. change (lower [x]) with [lc x] in E. apply app_inj_tail in E. destruct E as [_ E].
    rewrite <- isspace_lc, <- E, isspace_lc. eapply C. reflexivity.
Qed.

(** ** The recursive form of the loop *)
Fixpoint merge (pol : policy) (l : list node) (s : node) {struct s} : list node :=
  match kid l (nname s) with
  | None => create_kid l s
  | Some e =>
      match e, s with
      | NDir nm t k, NDir _ _ k' =>
          upd_first nm (fun _ => NDir nm t ((fix go (ks : list node) : list node :=
             match ks with [] => k | c :: ks' => merge pol (go ks') c end) k')) l
      | _, _ => if keeps pol (ntime e) (ntime s) then l else create_kid (snd (remove_kid l (nname e))) s
      end
  end.
Fixpoint merges (pol : policy) (k : list node) (ks : list node) : list node :=
  match ks with [] => k | c :: ks' => merge pol (merges pol k ks') c end.
Lemma merge_eq pol l s : merge pol l s =
  match kid l (nname s) with
  | None => create_kid l s
  | Some e =>
      match e, s with
      | NDir nm t k, NDir _ _ k' => upd_first nm (fun _ => NDir nm t (merges pol k k')) l
      | _, _ => if keeps pol (ntime e) (ntime s) then l else create_kid (snd (remove_kid l (nname e))) s
      end
  end.
Proof.
  destruct s; cbn [merge]; [reflexivity|]. destruct (kid l _) as [[|nm t k]|]; try reflexivity.
  assert (E : (fix go (ks : list node) : list node :=
             match ks with [] => k | c :: ks' => merge pol (go ks') c end) children = merges pol k children).
  { induction children as [|c ks IH]; [reflexivity|]. cbn [merges]. rewrite <- IH. reflexivity. }
  rewrite E. reflexivity.
Qed.

(** The node that ends up at a name. *)
Definition comb (pol : policy) (e : option node) (s : node) : node :=
  match e with
  | None => s
  | Some e =>
      match e, s with
      | NDir nm t k, NDir _ _ k' => NDir nm t (merges pol k k')
      | _, _ => if keeps pol (ntime e) (ntime s) then e else s
      end
  end.

Lemma good_merge pol s : clean_tree s -> wf s -> forall l, good l -> good (merge pol l s).
Proof.
  induction s as [nm t fd|nm t l' IH] using node_ind'; intros C W l G; rewrite merge_eq; cbn [nname].
  - destruct (kid l nm) as [[]|]; [| |auto with vfs]; destruct (keeps pol _ _); auto with vfs.
  - destruct (kid l nm) as [[nm' t' fd'|nm' t' k]|] eqn:K.
    + destruct (keeps pol _ _); auto with vfs.
    + assert (Gk : good k).
      { eapply good_wf with (nm := nm') (t := t'). apply kid_In in K. destruct G as [_ F]. rewrite Forall_forall in F. apply F, K. }
      assert (Gm : good (merges pol k l')).
      { inversion C as [|? ? ? _ C']; subst. apply wf_kids in W. destruct W as [_ W].
        clear - IH C' W Gk. induction IH as [|c ks Hc Hks IHks]; cbn [merges]; [assumption|].
        inversion C'; inversion W; subst. auto. }
      destruct G as [S F]. split.
      * apply (sorted_names l); [|assumption]. symmetry. clear. induction l as [|d l IH]; [reflexivity|].
        cbn. destruct (bytes_eqP (nname d) nm'); cbn; congruence.
      * rewrite Forall_forall in *. intros c Hc. apply upd_first_In in Hc.
        destruct Hc as [Hc|(d & Hd & _ & ->)]; auto. apply good_wf. assumption.
    + apply good_create; auto.
Qed.

Lemma kid_merge pol l s y : good l -> clean (nname s) ->
  kid (merge pol l s) y = if same (nname s) y then Some (comb pol (kid l (nname s)) s) else kid l y.
Proof.
  intros [S F] C. rewrite merge_eq. destruct (kid l (nname s)) as [e|] eqn:K.
  2:{ rewrite kid_create_kid by assumption. reflexivity. }
  pose proof (kid_In _ _ _ K) as [I E].
  assert (Kept : forall y, (if same (nname s) y then Some e else kid l y) = kid l y).
  { intros z. destruct (same (nname s) z) eqn:G; [|reflexivity]. apply same_spec in G.
    rewrite <- (kid_lower _ _ _ G). symmetry. assumption. }
  assert (Repl : kid (create_kid (snd (remove_kid l (nname e))) s) y = if same (nname s) y then Some s else kid l y).
  { rewrite kid_create_kid by (auto; apply remove_kid_sorted; assumption).
    destruct (same (nname s) y) eqn:G; [reflexivity|]. rewrite kid_remove_kid by assumption.
    rewrite clean_trim by (eapply clean_lower; [symmetry; eassumption|assumption]).
    rewrite (same_lower_l _ _ _ E), G. reflexivity. }
  destruct e as [nm t fd|nm t k]; cbn [comb].
  - destruct (keeps pol _ _); [rewrite Kept; reflexivity|assumption].
  - destruct s as [nm' t' fd'|nm' t' k'].
    + destruct (keeps pol _ _); [rewrite Kept; reflexivity|assumption].
    + rewrite (kid_upd_first _ _ _ _ (NDir nm t k)) by auto.
      cbn [nname] in *. rewrite (same_lower_l _ _ _ E). destruct (same nm' y); reflexivity.
Qed.
Lemma kid_merges pol k ks y : good k -> sorted ks -> Forall clean_tree ks -> Forall wf ks ->
  kid (merges pol k ks) y = match kid ks y with Some c => Some (comb pol (kid k y) c) | None => kid k y end.
Proof.
  intros G S C W. revert y. induction ks as [|c ks IH]; intros y; cbn [merges]; [reflexivity|].
  apply sorted_cons in S. destruct S as [S F]. inversion C as [|? ? C1 C2]; inversion W as [|? ? W1 W2]; subst.
  specialize (IH S C2 W2).
  assert (Gm : good (merges pol k ks)).
  { clear IH S F. induction ks as [|d ks IHk]; cbn [merges]; [assumption|].
    inversion C2; inversion W2; subst. apply good_merge; auto. }
  rewrite kid_merge by (auto; inversion C1; assumption). rewrite kid_cons.
  destruct (same (nname c) y) eqn:E; [|apply IH].
  rewrite IH. rewrite (before_absent ks c) by (auto; right; apply same_refl).
  apply same_spec in E. rewrite (kid_lower k _ _ E). reflexivity.
Qed.

Lemma keeps_replaces pol a b : (keeps pol a b = true -> ~ replaces pol a b) /\ (keeps pol a b = false -> replaces pol a b).
Proof.
  destruct pol; cbn; split; intros; try discriminate; auto.
  - apply Z.leb_le in H. lia.
  - apply Z.leb_gt in H. lia.
  - apply Z.leb_le in H. lia.
  - apply Z.leb_gt in H. lia.
Qed.

Lemma comb_overlay pol q : forall e s, match e with Some e => wf e | None => True end -> clean_tree s -> wf s ->
  overlay pol e (Some s) q (stat (lookup (comb pol e s) q)).
Proof.
  assert (conf : forall e s q, is_file e || is_file s = true ->
    overlay pol (Some e) (Some s) q (stat (lookup (if keeps pol (ntime e) (ntime s) then e else s) q))).
  { intros e s q' H. destruct (keeps_replaces pol (ntime e) (ntime s)) as [A B].
    destruct (keeps pol (ntime e) (ntime s)); [apply O_lose|apply O_win]; auto. }
  induction q as [|x q IH]; intros e s We C W; (destruct e as [e|]; [|apply O_new]).
  - destruct e as [|nm t k]; [apply conf; reflexivity|]. destruct s as [|nm' t' k']; [apply conf; reflexivity|].
    cbn. constructor.
  - destruct e as [|nm t k]; [apply conf; reflexivity|]. destruct s as [|nm' t' k']; [apply conf; reflexivity|].
    cbn [comb lookup]. apply O_merge. inversion C as [|? ? ? _ C']; subst.
    pose proof (wf_kids _ _ _ W) as [S' F']. pose proof (proj2 (good_wf _ _ _) We) as G.
    rewrite kid_merges by assumption. destruct (kid k' x) as [c|] eqn:K'.
    + apply IH.
      * destruct (kid k x) eqn:K; [|trivial]. apply kid_In in K. destruct G as [_ F]. rewrite Forall_forall in F. apply F, K.
      * apply kid_In in K'. rewrite Forall_forall in C'. apply C', K'.
      * apply kid_In in K'. rewrite Forall_forall in F'. apply F', K'.
    + destruct (kid k x); constructor.
Qed.

(** ** The loop computes it *)
Lemma mount_f_mono pol fuel : forall root work r k, mount_f fuel pol root work = Ret r -> mount_f (k + fuel) pol root work = Ret r.
Proof.
  induction fuel as [|fuel IH]; intros root work r k E; [discriminate|].
  rewrite Nat.add_succ_r. cbn [mount_f] in *. destruct work as [|[src loc] rest]; [assumption|].
  destruct (get_at loc root) as [dest|]; [|discriminate].
  destruct (child dest (nname src)) as [[e|]| | |]; cbn [obind] in *; try discriminate.
  - destruct (is_file e || is_file src).
    + destruct (keeps pol (ntime e) (ntime src)); [auto|].
      destruct (remove_child dest (nname e)) as [d| | |]; cbn [obind] in *; try discriminate.
      destruct (create (snd d) src); cbn [obind] in *; try discriminate. auto.
    + destruct src; [discriminate|]. auto.
  - destruct (create dest src); cbn [obind] in *; try discriminate. auto.
Qed.

Lemma upd_at_twice loc a b n m : wf n -> at_loc loc n m -> nname a = nname m ->
  upd_at loc (fun _ => b) (upd_at loc (fun _ => a) n) = upd_at loc (fun _ => b) n.
Proof.
  intros W K E. induction K as [|nm t l c loc m Hc K IH]; [reflexivity|]. cbn. f_equal.
  pose proof (wf_kids _ _ _ W) as [S F].
  assert (N : forall d, In d l -> nname d = nname c -> d = c).
  { intros d Hd Ed. pose proof (kid_self _ _ S Hd). pose proof (kid_self _ _ S Hc). congruence. }
  assert (Wc : wf c) by (rewrite Forall_forall in F; auto). specialize (IH Wc E).
  pose proof (upd_at_name' _ _ _ a K E) as Nc.
  clear S F Hc W. induction l as [|d l IHl]; [reflexivity|]. cbn.
  destruct (bytes_eqP (nname d) (nname c)) as [H|H].
  - assert (d = c) by (apply N; [left; reflexivity|assumption]). subst d.
    cbn. rewrite Nc, bytes_eqb_refl. f_equal. assumption.
  - cbn. destruct (bytes_eqP (nname d) (nname c)); [congruence|]. f_equal. apply IHl. intros. apply N; [right|]; assumption.
Qed.
Lemma upd_at_same loc n m : wf n -> at_loc loc n m -> upd_at loc (fun _ => m) n = n.
Proof.
  intros W K. induction K as [|nm t l c loc m Hc K IH]; [reflexivity|]. cbn. f_equal.
  pose proof (wf_kids _ _ _ W) as [S F].
  assert (N : forall d, In d l -> nname d = nname c -> d = c).
  { intros d Hd Ed. pose proof (kid_self _ _ S Hd). pose proof (kid_self _ _ S Hc). congruence. }
  assert (Wc : wf c) by (rewrite Forall_forall in F; auto). specialize (IH Wc).
  clear S F Hc W. induction l as [|d l IHl]; [reflexivity|]. cbn.
  destruct (bytes_eqP (nname d) (nname c)) as [H|H].
  - assert (d = c) by (apply N; [left; reflexivity|assumption]). subst d. rewrite IH. reflexivity.
  - f_equal. apply IHl. intros. apply N; [right|]; assumption.
Qed.
Lemma upd_at_snoc loc n nm t l x m' : wf n -> at_loc loc n (NDir nm t l) ->
  upd_at (loc ++ [x]) (fun _ => m') n = upd_at loc (fun _ => NDir nm t (upd_first x (fun _ => m') l)) n.
Proof.
  intros W K. remember (NDir nm t l) as m eqn:E. induction K as [|nm' t' l' c loc m Hc K IH]; subst; [reflexivity|].
  cbn. f_equal. pose proof (wf_kids _ _ _ W) as [S F].
  assert (N : forall d, In d l' -> nname d = nname c -> d = c).
  { intros d Hd Ed. pose proof (kid_self _ _ S Hd). pose proof (kid_self _ _ S Hc). congruence. }
  assert (Wc : wf c) by (rewrite Forall_forall in F; auto). specialize (IH Wc eq_refl).
  clear S F Hc W K. induction l' as [|d l' IHl]; [reflexivity|]. cbn.
  destruct (bytes_eqP (nname d) (nname c)) as [H|H].
  - assert (d = c) by (apply N; [left; reflexivity|assumption]). subst d. rewrite IH. reflexivity.
  - f_equal. apply IHl. intros. apply N; [right|]; assumption.
Qed.

Lemma mount_f_ok pol s : clean_tree s -> wf s -> forall fuel root loc nm t l rest r,
  wf root -> at_loc loc root (NDir nm t l) ->
  mount_f fuel pol (upd_at loc (fun _ => NDir nm t (merge pol l s)) root) rest = Ret r ->
  mount_f (N.to_nat (count_nodes s) + fuel) pol root ((s, loc) :: rest) = Ret r.
Proof.
  induction s as [snm st fd|snm st ks IH] using node_ind'; intros C Ws fuel root loc nm t l rest r W A E.
  - (* a file *)
    rewrite merge_eq in E. cbn [count_nodes]. change (N.to_nat 1) with 1%nat. cbn [Nat.add mount_f].
    pose proof (at_loc_wf _ _ _ W A) as Wd. pose proof (wf_kids _ _ _ Wd) as [S F].
    rewrite (at_loc_get _ _ _ W A). cbn [child nname] in *. rewrite find_child_kid by assumption.
    inversion C as [? ? ? C1|]; subst. rewrite clean_trim by assumption. cbn [obind].
    destruct (kid l snm) as [e|] eqn:K.
    + rewrite orb_true_r. destruct (keeps pol (ntime e) (ntime (NFile snm st fd))) eqn:Kp.
      * assert (E' : mount_f fuel pol (upd_at loc (fun _ => NDir nm t l) root) rest = Ret r).
        { destruct e; exact E. }
        rewrite (upd_at_same _ _ _ W A) in E'. assumption.
      * cbn [remove_child]. destruct (remove_kid l (nname e)) as [b l1]. cbn [obind snd create].
        destruct e; exact E.
    + cbn [create obind]. exact E.
  - (* a directory *)
    assert (Hn : exists n, (N.to_nat (count_nodes (NDir snm st ks)) = S n /\ n = N.to_nat (total ks))%nat).
    { exists (N.to_nat (total ks)). cbn [count_nodes]. fold (total ks). split; [lia|reflexivity]. }
    destruct Hn as (n & Hn & Hn'). rewrite Hn. cbn [Nat.add mount_f].
    rewrite merge_eq in E.
    pose proof (at_loc_wf _ _ _ W A) as Wd. pose proof (wf_kids _ _ _ Wd) as [S F].
    rewrite (at_loc_get _ _ _ W A). cbn [child nname] in *. rewrite find_child_kid by assumption.
    inversion C as [|? ? ? C1 C2]; subst. rewrite clean_trim by assumption. cbn [obind].
    destruct (kid l snm) as [e|] eqn:K.
    2:{ cbn [create obind]. apply mount_f_mono. exact E. }
    destruct e as [enm et efd|enm et k]; cbn [is_file orb].
    + destruct (keeps pol (ntime (NFile enm et efd)) (ntime (NDir snm st ks))) eqn:Kp.
      * rewrite (upd_at_same _ _ _ W A) in E. apply mount_f_mono. assumption.
      * cbn [remove_child nname] in *. destruct (remove_kid l enm) as [b l1]. cbn [obind snd create] in *.
        apply mount_f_mono. exact E.
    + cbn [nname]. pose proof (kid_In _ _ _ K) as [I Ek].
      pose proof (at_loc_snoc _ _ _ _ _ _ A I) as A2. cbn [nname] in A2.
      rewrite <- (upd_at_snoc _ _ _ _ _ enm _ W A) in E.
      pose proof (wf_kids _ _ _ Ws) as [Ss Fs].
      assert (Gk : good k) by (eapply good_wf; eapply at_loc_wf; [exact W|exact A2]).
      remember (loc ++ [enm]) as loc2. clear Heqloc2 Hn A K I Ek Ss Ws C C1 Wd S F.
      (* the children, last first *)
      revert fuel rest r E. induction IH as [|c ks Hc Hks IHks]; intros fuel rest r E; cbn [map rev].
      * cbn [merges app] in *. rewrite (upd_at_same _ _ _ W A2) in E. apply mount_f_mono. assumption.
      * inversion C2; inversion Fs; subst. rewrite <- app_assoc. cbn [app].
        rewrite total_cons. replace (N.to_nat (count_nodes c + total ks) + fuel)%nat
          with (N.to_nat (total ks) + (N.to_nat (count_nodes c) + fuel))%nat by lia.
        apply IHks; auto.
        assert (Gm : good (merges pol k ks)).
        { clear - H2 H6 Gk. induction ks as [|d ks IHk]; cbn [merges]; [assumption|].
          inversion H2; inversion H6; subst. apply good_merge; auto. }
        eapply Hc; auto.
        -- eapply upd_at_wf; eauto. apply good_wf. assumption.
        -- eapply at_loc_upd; eauto.
        -- rewrite (upd_at_twice _ _ _ _ _ W A2) by reflexivity. exact E.
Qed.

Lemma mount_spec root src parent pol : wf root -> wf src -> clean_tree src ->
  ~ through_file root (names parent) ->
  match lookup root (names parent) with
  | None => mount root src parent pol = Throw VfsNotFound
  | Some (NFile _ _ _) => mount root src parent pol = Throw VfsFileExists
  | Some (NDir _ _ _) => exists root', mount root src parent pol = Ret root' /\ wf root' /\
      let P := names parent ++ [nname src] in
      (forall q, ~ at_or_below P q -> stat (lookup root' q) = stat (lookup root q)) /\
      (forall q, overlay pol (lookup root P) (Some src) q (stat (lookup root' (P ++ q))))
  end.
Proof.
  intros W Ws C T. unfold mount. rewrite resolve_loc_walk by assumption. rewrite walk_lookup by assumption.
  destruct (lookup root (names parent)) as [[|nm t l]|] eqn:L; try reflexivity. cbn [obind is_file].
  set (Q := names parent) in *.
  pose proof (at_loc_trail _ _ _ L) as A. pose proof (trail_lower _ _ _ L) as TL.
  pose proof (lookup_wf _ _ _ W L) as Wd. pose proof (proj2 (good_wf _ _ _) Wd) as G.
  assert (Cs : clean (nname src)) by (inversion C; assumption).
  set (root' := upd_at (trail root Q) (fun _ => NDir nm t (merge pol l src)) root).
  exists root'. split.
  { rewrite <- Nat.add_1_r. cbn [app]. eapply mount_f_ok; eauto. }
  assert (W' : wf root') by (eapply upd_at_wf; eauto; apply good_wf, good_merge; assumption).
  split; [assumption|]. cbn zeta.
  assert (B : forall r, lookup root' (Q ++ r) = lookup (NDir nm t (merge pol l src)) r).
  { intros r. rewrite (lookup_lower _ _ (trail root Q ++ r)).
    - apply upd_at_lookup_below with (m := NDir nm t l); auto.
    - rewrite !map_app. congruence. }
  split.
  - intros q Nq. destruct (below_dec Q q) as [Bq|Bq].
    + destruct (below_split _ _ Bq) as [r Er]. rewrite (lookup_lower _ _ _ Er), (lookup_lower root _ _ Er).
      rewrite B, lookup_app, L. destruct r as [|y r]; [reflexivity|]. cbn [lookup].
      rewrite kid_merge by assumption.
      destruct (same (nname src) y) eqn:E; [|reflexivity]. exfalso. apply Nq. apply same_spec in E.
      exists (map lower r). rewrite Er, !map_app. cbn. rewrite <- app_assoc. cbn. congruence.
    + apply upd_at_stat_other with (m := NDir nm t l); auto.
      intros X. apply Bq. destruct X as [r X]. exists r. congruence.
  - intros q. rewrite <- app_assoc, B. cbn [app lookup]. rewrite kid_merge, same_refl by assumption.
    rewrite lookup_app, L. cbn [lookup].
    replace (match kid l (nname src) with Some c => Some c | None => None end) with (kid l (nname src)) by (destruct (kid l (nname src)); reflexivity).
    apply comb_overlay; auto. destruct (kid l (nname src)) eqn:K; [|trivial]. eapply wf_kid; eassumption.
Qed.
