(** Sibling names stay unique after every history. *)

From Coq Require Import Sorted Lia.
From Verif Require Import MBase MStream MZipped MVfs SStream SVfs LBase LVfs LVfsOps.
Local Open Scope N_scope.

Definition good (l : list node) : Prop := sorted l /\ Forall wf l.

Lemma good_wf nm t l : good l <-> wf (NDir nm t l).
Proof. split; [intros [? ?]; constructor; assumption | apply wf_kids]. Qed.
Lemma good_nil : good [].
Proof. split; constructor. Qed.
Lemma good_create l k : good l -> wf k -> good (create_kid l k).
Proof.
  intros [S F] W. split; [apply create_kid_sorted; assumption|]. rewrite Forall_forall in *.
  intros c Hc. apply create_kid_In in Hc. destruct Hc as [->|Hc]; auto.
Qed.
Lemma good_remove l x : good l -> good (snd (remove_kid l x)).
Proof.
  intros [S F]. split; [apply remove_kid_sorted; assumption|]. rewrite Forall_forall in *.
  intros c Hc. apply F. eapply remove_kid_In; eassumption.
Qed.
Lemma good_upd_first x f l : (forall c, In c l -> wf c -> wf (f c)) -> (forall c, nname (f c) = nname c) ->
  good l -> good (upd_first x f l).
Proof.
  intros H N [S F]. split; [apply upd_first_sorted; assumption|]. rewrite Forall_forall in *.
  intros c Hc. apply upd_first_In in Hc. destruct Hc as [Hc|(d & Hd & _ & ->)]; auto.
Qed.
Lemma wf_dir nm t : wf (directory nm t).
Proof. constructor; constructor. Qed.
Lemma wf_nfile nm t fd : wf (NFile nm t fd).
Proof. constructor. Qed.
#[export] Hint Resolve good_nil good_create good_remove wf_dir wf_nfile : vfs.

Lemma get_at_loc loc : forall n m, get_at loc n = Some m -> at_loc loc n m.
Proof.
  induction loc as [|x loc IH]; intros n m H; cbn in H; [injection H as ->; constructor|].
  destruct n as [|nm t l]; [discriminate|]. destruct (find _ l) as [c|] eqn:F; [|discriminate].
  apply find_some in F. destruct F as [I E]. apply bytes_eqb_spec in E. subst x.
  constructor; auto.
Qed.

Lemma create_wf n k n' : wf n -> wf k -> create n k = Ret n' -> wf n' /\ nname n' = nname n.
Proof.
  intros W K E. destruct n as [|nm t l]; [discriminate|]. cbn in E. injection E as <-.
  split; [|reflexivity]. apply good_wf, good_create; [|assumption]. eapply good_wf; eassumption.
Qed.
Lemma remove_child_wf n x b n' : wf n -> remove_child n x = Ret (b, n') -> wf n' /\ nname n' = nname n.
Proof.
  intros W E. destruct n as [|nm t l]; [discriminate|]. cbn in E.
  pose proof (good_remove l x (proj2 (good_wf nm t l) W)) as G. destruct (remove_kid l x). injection E as <- <-.
  split; [|reflexivity]. apply good_wf. assumption.
Qed.
Lemma put_wf loc root d d' : wf root -> get_at loc root = Some d -> wf d' -> nname d' = nname d ->
  wf (upd_at loc (fun _ => d') root).
Proof. intros W G W' N. eapply upd_at_wf; eauto. apply get_at_loc. assumption. Qed.
Lemma get_wf loc root d : wf root -> get_at loc root = Some d -> wf d.
Proof. intros W G. eapply at_loc_wf; [exact W|]. apply get_at_loc. eassumption. Qed.

Lemma mkdir_f_wf now fuel : forall root loc path root' r,
  wf root -> mkdir_f fuel now root loc path = (root', r) -> wf root'.
Proof.
  induction fuel as [|fuel IH]; intros root loc path root' r W E; cbn [mkdir_f] in E; [congruence|].
  destruct path as [|b p]; [congruence|].
  assert (step : forall name (go : node -> list bytes -> node * outcome (list bytes)),
    (forall r1 l1 r2 q, wf r1 -> go r1 l1 = (r2, q) -> wf r2) ->
    match get_at loc root with
    | None => (root, Undef)
    | Some ctx =>
        match child ctx name with
        | Ret (Some it) => if is_file it then (root, Throw VfsFileExists) else go root (loc ++ [nname it])
        | Ret None =>
            match create ctx (directory name (now (b :: p))) with
            | Ret (NDir nm t l) =>
                match set_find name l with
                | Some it => go (upd_at loc (fun _ => NDir nm t l) root) (loc ++ [nname it])
                | None => (root, Undef)
                end
            | Ret (NFile _ _ _) => (root, Undef)
            | Throw e => (root, Throw e)
            | Undef => (root, Undef)
            | Fuel => (root, Fuel)
            end
        | Throw e => (root, Throw e)
        | Undef => (root, Undef)
        | Fuel => (root, Fuel)
        end
    end = (root', r) -> wf root').
  { intros name go Hgo H. destruct (get_at loc root) as [ctx|] eqn:G; [|congruence].
    destruct (child ctx name) as [[it|]| | |]; try congruence.
    - destruct (is_file it); [congruence|]. eapply Hgo; eassumption.
    - destruct (create ctx (directory name (now (b :: p)))) as [[|nm t l]| | |] eqn:C; try congruence.
      pose proof (get_wf _ _ _ W G) as Wc.
      destruct (create_wf _ _ _ Wc (wf_dir _ _) C) as [W1 N1].
      destruct (set_find name l); [|congruence]. eapply Hgo; [|eassumption]. eapply put_wf; eassumption. }
  destruct (find_slash (b :: p)) as [[|i]|].
  - eapply IH; eassumption.
  - eapply (step _ (fun r1 l1 => mkdir_f fuel now r1 l1 (drop (N.pos i + 1) (b :: p)))); [|exact E].
    intros. eapply IH; eassumption.
  - eapply (step _ (fun r1 l1 => (r1, Ret l1))); [|exact E]. congruence.
Qed.
Lemma mkdir_wf now root path root' r : wf root -> mkdir now root path = (root', r) -> wf root'.
Proof. apply mkdir_f_wf. Qed.

Lemma resolve_f_get root (fuel : nat) : forall path loc n r, get_at loc root = Some n ->
  wf root -> resolve_f fuel loc n path = Ret (Some r) -> get_at (fst r) root = Some (snd r).
Proof.
  intros path loc n [l m] G W E. cbn. apply (at_loc_get _ _ _ W). apply get_at_loc in G.
  revert fuel loc n G E. induction path as [|p IH|p H0 H1 H2|p i H1 H2 H3 H4 IH] using path_ind; intros [|fuel] loc n G E;
    try discriminate; cbn [resolve_f] in E.
  - injection E as <- <-. assumption.
  - eapply (IH fuel loc n); [assumption|].
    change (resolve_f fuel loc n (drop 1 (x2f :: p)) = Ret (Some (l, m))) in E. rewrite drop_skipn in E. exact E.
  - destruct p as [|c p]; [congruence|]. rewrite H1 in E. destruct n as [|nm t k]; [discriminate|].
    cbn [child] in E. pose proof (at_loc_wf _ _ _ W G) as Wn. rewrite find_child_kid in E by apply (wf_kids _ _ _ Wn).
    destruct (kid k _) as [d|] eqn:K; [|discriminate]. injection E as <- <-.
    eapply at_loc_snoc; [eassumption|]. apply (kid_In _ _ _ K).
  - destruct p as [|c p]; [rewrite len_nil in H3; lia|]. rewrite H1 in E. destruct i as [|i]; [lia|].
    destruct n as [|nm t k]; [discriminate|].
    cbn [child] in E. pose proof (at_loc_wf _ _ _ W G) as Wn. rewrite find_child_kid in E by apply (wf_kids _ _ _ Wn).
    destruct (kid k _) as [d|] eqn:K; [|discriminate].
    eapply IH; [|exact E]. eapply at_loc_snoc; [eassumption|]. apply (kid_In _ _ _ K).
Qed.
Lemma resolve_loc_get root path loc n : wf root -> resolve_loc root path = Ret (Some (loc, n)) ->
  get_at loc root = Some n.
Proof.
  intros W E. apply (resolve_f_get root (S (length path)) path [] root (loc, n)); auto.
Qed.

Lemma obind_Ret {A B} (m : outcome A) (f : A -> outcome B) b : obind m f = Ret b -> exists a, m = Ret a /\ f a = Ret b.
Proof. destruct m; cbn; try discriminate. eauto. Qed.

Lemma vfs_remove_wf root path b root' : wf root -> vfs_remove root path = Ret (b, root') -> wf root'.
Proof.
  intros W E. unfold vfs_remove in E. destruct (split_parent path) as [parent name].
  apply obind_Ret in E. destruct E as ([[loc p]|] & R & E); [|congruence].
  apply obind_Ret in E. destruct E as ([b' p'] & Rm & E). injection E as <- <-. cbn.
  pose proof (resolve_loc_get _ _ _ _ W R) as G.
  destruct (remove_child_wf _ _ _ _ (get_wf _ _ _ W G) Rm) as [W1 N1]. eapply put_wf; eassumption.
Qed.

Lemma mount_f_wf pol fuel : forall root work root', wf root -> Forall (fun w => wf (fst w)) work ->
  mount_f fuel pol root work = Ret root' -> wf root'.
Proof.
  induction fuel as [|fuel IH]; intros root work root' W F E; cbn [mount_f] in E; [discriminate|].
  destruct work as [|[src loc] rest]; [congruence|]. inversion F as [|? ? F1 F2]; subst. cbn in F1.
  destruct (get_at loc root) as [dest|] eqn:G; [|discriminate]. pose proof (get_wf _ _ _ W G) as Wd.
  apply obind_Ret in E. destruct E as ([e|] & C & E).
  - destruct (is_file e || is_file src).
    + destruct (keeps pol (ntime e) (ntime src)); [eapply IH; [exact W|exact F2|exact E]|].
      apply obind_Ret in E. destruct E as ([b d1] & R & E). apply obind_Ret in E. destruct E as (d2 & Cr & E).
      destruct (remove_child_wf _ _ _ _ Wd R) as [W1 N1]. cbn in Cr.
      destruct (create_wf _ _ _ W1 F1 Cr) as [W2 N2].
      eapply IH; [|exact F2|exact E]. eapply put_wf; try eassumption. congruence.
    + destruct src as [|nm t l]; [discriminate|]. eapply IH; [exact W| |exact E].
      apply Forall_app. split; [|assumption]. apply Forall_rev. apply wf_kids in F1. destruct F1 as [_ F1].
      rewrite Forall_forall in *. intros w Hw. apply in_map_iff in Hw. destruct Hw as (c & <- & Hc). cbn. auto.
  - apply obind_Ret in E. destruct E as (d2 & Cr & E). destruct (create_wf _ _ _ Wd F1 Cr) as [W2 N2].
    eapply IH; [|exact F2|exact E]. eapply put_wf; eassumption.
Qed.
Lemma mount_wf root src parent pol root' : wf root -> wf src -> mount root src parent pol = Ret root' -> wf root'.
Proof.
  intros W Ws E. unfold mount in E. apply obind_Ret in E. destruct E as ([[loc p]|] & R & E); [|discriminate].
  destruct (is_file p); [discriminate|]. eapply mount_f_wf; [exact W| |exact E]. constructor; [assumption|constructor].
Qed.

Lemma host_ind' (P : host -> Prop) :
  (forall n t d, P (HFile n t d)) -> (forall n t hs, Forall P hs -> P (HDir n t hs)) -> forall h, P h.
Proof.
  intros H1 H2. fix IH 1. intros [n t d|n t hs]; [apply H1|]. apply H2.
  induction hs as [|h hs IHl]; constructor; auto.
Qed.
Lemma load_host_good h : forall l, good l -> good (load_host l h).
Proof.
  induction h as [n t d|n t hs IH] using host_ind'; intros l G; cbn [load_host].
  - destruct (0 <? len d); auto with vfs.
  - assert (G' : good (create_kid l (directory n t))) by auto with vfs.
    destruct (set_find n _) as [it|]; [|assumption].
    apply good_upd_first; [|intros []; reflexivity|assumption].
    intros [nm tm fd|nm tm k] _ Wc; [assumption|]. apply good_wf. apply good_wf in Wc.
    clear G'. revert k Wc. induction IH as [|h hs Hh Hs IHs]; intros k Wc; cbn; auto.
Qed.
Lemma mount_host_wf root hs parent pol root' : wf root -> mount_host root hs parent pol = Ret root' -> wf root'.
Proof.
  intros W E. unfold mount_host in E.
  assert (G : Forall wf (fold_left load_host hs [])).
  { assert (G : good (fold_left load_host hs [])); [|apply G].
    clear E. generalize good_nil. generalize (@nil node). induction hs as [|h hs IH]; intros l G; cbn; [assumption|].
    apply IH. apply load_host_good. assumption. }
  revert root W E. induction G as [|c l Wc Wl IH]; intros root W E; cbn [fold_left] in E; [congruence|].
  cbn [obind] in E. destruct (mount root c parent pol) as [r1| | |] eqn:M.
  - eapply IH; [|exact E]. eapply mount_wf; [exact W|exact Wc|exact M].
  - exfalso. clear - E. induction l; cbn in E; [discriminate|auto].
  - exfalso. clear - E. induction l; cbn in E; [discriminate|auto].
  - exfalso. clear - E. induction l; cbn in E; [discriminate|auto].
Qed.

(** Disks: whatever the bytes, the tables are loaded into sorted directories. *)
Lemma load_entry_good pol co ts z buf rec l s b l' s' :
  (forall k s0 k' s1, good k -> rec k s0 = Ret (k', s1) -> good k') ->
  good l -> load_entry pol co ts z buf rec l s = Ret ((b, l'), s') -> good l'.
Proof.
  intros Hrec G E. unfold load_entry in E.
  apply bind_Ret in E. destruct E as (raw & s1 & _ & E).
  apply bind_Ret in E. destruct E as (off & s2 & _ & E).
  apply bind_Ret in E. destruct E as (size & s3 & _ & E).
  apply bind_Ret in E. destruct E as (ty & s4 & _ & E).
  apply bind_Ret in E. destruct E as (at_ & s5 & _ & E).
  set (name := entry_name raw) in *.
  set (pos := u32 (co + u32 (off * 80))) in *. set (last := negb (N.land ty 1073741824 =? 0)) in *.
  assert (He : forall l0 it r, good l0 -> wf it -> enter_dir rec pos last l0 it s5 = Ret r -> good (snd (fst r))).
  { intros l0 [|nm t k] [[b0 l1] s6] G0 W0 E0; cbn [enter_dir] in E0; [discriminate|].
    apply bind_Ret in E0. destruct E0 as (self & s7 & _ & E0).
    apply bind_Ret in E0. destruct E0 as (u & s8 & _ & E0).
    apply bind_Ret in E0. destruct E0 as (k' & s9 & R & E0).
    apply bind_Ret in E0. destruct E0 as (u' & s10 & _ & E0). injection E0 as <- <- <-. cbn.
    assert (W1 : wf (NDir nm t k')).
    { apply good_wf. eapply Hrec; [|exact R]. eapply good_wf; exact W0. }
    destruct G0 as [S0 F0]. split.
    - apply (sorted_names l0); [|assumption]. symmetry.
      clear. unfold put_kid. induction l0 as [|d l0 IH]; [reflexivity|]. cbn. destruct (bytes_eqP (nname d) nm); cbn; congruence.
    - rewrite Forall_forall in *. intros c Hc. apply upd_first_In in Hc.
      destruct Hc as [Hc|(d & Hd & _ & ->)]; auto. }
  assert (Hm : forall l0 r, good l0 -> make_dir rec pos last ts name l0 s5 = Ret r -> good (snd (fst r))).
  { intros l0 r G0 E0. unfold make_dir in E0.
    assert (G1 : good (create_kid l0 (directory name ts))) by auto with vfs.
    destruct (set_find name (create_kid l0 (directory name ts))) as [it|] eqn:K; [|discriminate].
    eapply He; [exact G1| |exact E0]. rewrite set_find_kid in K by apply G1. apply kid_In in K.
    destruct G1 as [_ F1]. rewrite Forall_forall in F1. apply F1, K. }
  destruct (negb (N.land ty 2147483648 =? 0)).
  - destruct (find_child l name) as [e|] eqn:K.
    + destruct (is_file e).
      * destruct (keeps pol (ntime e) ts); [injection E as <- <- <-; assumption|].
        apply (Hm (snd (remove_kid l name)) ((b, l'), s')); auto with vfs.
      * apply (He l e ((b, l'), s')); auto. rewrite find_child_kid in K by apply G. apply kid_In in K.
        destruct G as [_ F]. rewrite Forall_forall in F. apply F, K.
    + apply (Hm l ((b, l'), s')); auto.
  - destruct (if z then _ else _); [injection E as <- <- <-; assumption|].
    destruct (find_child l name) as [e|].
    + destruct (keeps pol (ntime e) ts); injection E as <- <- <-; auto with vfs.
    + injection E as <- <- <-. auto with vfs.
Qed.
Lemma load_table_good fuel pol co ts z buf : forall l s l' s', good l ->
  load_table fuel pol co ts z buf l s = Ret (l', s') -> good l'.
Proof.
  induction fuel as [|fuel IH]; intros l s l' s' G E; cbn [load_table] in E; [discriminate|].
  apply bind_Ret in E. destruct E as ([b l1] & s1 & R & E). cbn in E.
  assert (G1 : good l1) by (eapply load_entry_good; [exact IH|exact G|exact R]).
  destruct b; [injection E as <- <-; assumption|]. eapply IH; eassumption.
Qed.
Lemma mount_disk_wf fuel k pol root buf root' : wf root -> mount_disk fuel k pol root buf = Ret root' -> wf root'.
Proof.
  intros W E. unfold mount_disk in E. destruct root as [|nm t l]; [discriminate|].
  match type of E with context [match ?m (r_from buf) with _ => _ end] => destruct (m (r_from buf)) as [[l' s']| | |] eqn:R end;
    try discriminate. injection E as <-.
  do 8 (apply bind_Ret in R; destruct R as (? & ? & _ & R)).
  match type of R with context [if ?c then _ else _] => destruct c end; [discriminate|].
  do 2 (apply bind_Ret in R; destruct R as (? & ? & _ & R)).
  apply good_wf. eapply load_table_good; [|exact R]. eapply good_wf. exact W.
Qed.

Lemma built_wf n : built n -> wf n.
Proof.
  induction 1; auto with vfs.
  - eapply create_wf; [exact IHbuilt1|exact IHbuilt2|eassumption].
  - eapply remove_child_wf; [exact IHbuilt|eassumption].
Qed.
Lemma vfs_step_wf n o n' : wf n -> op_ok o -> vfs_step n o = Some n' -> wf n'.
Proof.
  intros W K E. destruct o as [now p|now p k|p|src parent pol|hs parent pol|fuel k pol buf]; cbn [vfs_step op_ok] in E, K.
  - destruct (mkdir now n p) as [r q] eqn:M. pose proof (mkdir_wf _ _ _ _ _ W M).
    destruct q; congruence.
  - destruct (mkdir now n p) as [r q] eqn:M. pose proof (mkdir_wf _ _ _ _ _ W M) as Wr.
    destruct q as [loc| | |]; try congruence.
    destruct (get_at loc r) as [d|] eqn:G; [|discriminate].
    destruct (create d k) as [d'| | |] eqn:C; try congruence. injection E as <-.
    destruct (create_wf _ _ _ (get_wf _ _ _ Wr G) (built_wf _ K) C). eapply put_wf; eassumption.
  - destruct (vfs_remove n p) as [[b r]| | |] eqn:R; cbn in E; try congruence. injection E as <-.
    eapply vfs_remove_wf; eassumption.
  - destruct (mount n src parent pol) eqn:R; try congruence. injection E as <-.
    eapply mount_wf; [exact W|apply built_wf; exact K|exact R].
  - destruct (mount_host n hs parent pol) eqn:R; try congruence. injection E as <-.
    eapply mount_host_wf; eassumption.
  - destruct (mount_disk fuel k pol n buf) as [r|e| |] eqn:R; try discriminate.
    + injection E as <-. eapply mount_disk_wf; eassumption.
    + destruct e; congruence.
Qed.
Lemma reach_wf n : reach n -> wf n.
Proof. induction 1; [constructor; constructor|]. eapply vfs_step_wf; eassumption. Qed.

Lemma node_ind' (P : node -> Prop) :
  (forall n t fd, P (NFile n t fd)) -> (forall n t l, Forall P l -> P (NDir n t l)) -> forall n, P n.
Proof.
  intros H1 H2. fix IH 1. intros [n t d|n t hs]; [apply H1|]. apply H2.
  induction hs as [|h hs IHl]; constructor; auto.
Qed.
Lemma sorted_NoDup l : sorted l -> NoDup (map (fun c => lower (nname c)) l).
Proof.
  induction l as [|c l IH]; intros S; cbn; [constructor|]. apply sorted_cons in S. destruct S as [S F].
  constructor; [|auto]. intros I. apply in_map_iff in I. destruct I as (d & E & I).
  rewrite Forall_forall in F. specialize (F d I). unfold before in F.
  rewrite (icompare_lower_r _ _ _ E), icompare_irrefl in F. discriminate.
Qed.
Lemma wf_unique n : wf n -> unique n.
Proof.
  induction n as [|nm t l IH] using node_ind'; intros W; [constructor|]. apply wf_kids in W. destruct W as [S F].
  constructor; [apply sorted_NoDup; assumption|]. rewrite Forall_forall in *. auto.
Qed.
Lemma reach_unique n : reach n -> unique n.
Proof. intros H. apply wf_unique, reach_wf. assumption. Qed.

(** The root stays a directory. *)
Lemma upd_at_dir loc m root : is_file root = false -> is_file m = false -> is_file (upd_at loc (fun _ => m) root) = false.
Proof. destruct loc; cbn; [auto|]. destruct root; auto. Qed.
Lemma create_dir n k n' : create n k = Ret n' -> is_file n' = false.
Proof. destruct n; cbn; [discriminate|]. intros E; injection E as <-. reflexivity. Qed.
Lemma remove_child_dir n x b n' : remove_child n x = Ret (b, n') -> is_file n' = false.
Proof. destruct n; cbn; [discriminate|]. destruct (remove_kid children x). intros E; injection E as <- <-. reflexivity. Qed.
Lemma mkdir_f_dir now fuel : forall root loc path root' r, is_file root = false ->
  mkdir_f fuel now root loc path = (root', r) -> is_file root' = false.
Proof.
  induction fuel as [|fuel IH]; intros root loc path root' r W E; cbn [mkdir_f] in E; [congruence|].
  destruct path as [|b p]; [congruence|].
  destruct (find_slash (b :: p)) as [[|i]|]; [eapply IH; eassumption| |].
  all: destruct (get_at loc root) as [ctx|] eqn:G; [|congruence].
  all: match type of E with context [child ?c ?n] => destruct (child c n) as [[it|]| | |]; try congruence end.
  1, 3: destruct (is_file it); try congruence; eapply IH; eassumption.
  all: destruct (create _ _) as [[|nm t l]| | |]; try congruence; destruct (set_find _ _); try congruence.
  - eapply IH; [|exact E]. apply upd_at_dir; auto.
  - injection E as <- <-. apply upd_at_dir; auto.
Qed.
Lemma mount_f_dir pol fuel : forall root work root', is_file root = false ->
  mount_f fuel pol root work = Ret root' -> is_file root' = false.
Proof.
  induction fuel as [|fuel IH]; intros root work root' W E; cbn [mount_f] in E; [discriminate|].
  destruct work as [|[src loc] rest]; [congruence|].
  destruct (get_at loc root) as [dest|] eqn:G; [|discriminate].
  apply obind_Ret in E. destruct E as ([e|] & C & E).
  - destruct (is_file e || is_file src).
    + destruct (keeps pol (ntime e) (ntime src)); [eapply IH; eassumption|].
      apply obind_Ret in E. destruct E as ([b d1] & R & E). apply obind_Ret in E. destruct E as (d2 & Cr & E).
      eapply IH; [|exact E]. apply upd_at_dir; [assumption|]. eapply create_dir; eassumption.
    + destruct src as [|nm t l]; [discriminate|]. eapply IH; [exact W|exact E].
  - apply obind_Ret in E. destruct E as (d2 & Cr & E).
    eapply IH; [|exact E]. apply upd_at_dir; [assumption|]. eapply create_dir; eassumption.
Qed.
Lemma mount_dir root src parent pol root' : is_file root = false -> mount root src parent pol = Ret root' -> is_file root' = false.
Proof.
  intros W E. unfold mount in E. apply obind_Ret in E. destruct E as ([[loc p]|] & R & E); [|discriminate].
  destruct (is_file p); [discriminate|]. eapply mount_f_dir; eassumption.
Qed.
Lemma vfs_step_dir n o n' : is_file n = false -> vfs_step n o = Some n' -> is_file n' = false.
Proof.
  intros W E. destruct o as [now p|now p k|p|src parent pol|hs parent pol|fuel k pol buf]; cbn [vfs_step] in E.
  - destruct (mkdir now n p) as [r q] eqn:M. pose proof (mkdir_f_dir _ _ _ _ _ _ _ W M).
    destruct q; congruence.
  - destruct (mkdir now n p) as [r q] eqn:M. pose proof (mkdir_f_dir _ _ _ _ _ _ _ W M) as Wr.
    destruct q as [loc| | |]; try congruence.
    destruct (get_at loc r) as [d|] eqn:G; [|discriminate].
    destruct (create d k) as [d'| | |] eqn:C; try congruence. injection E as <-.
    apply upd_at_dir; [assumption|]. eapply create_dir; eassumption.
  - destruct (vfs_remove n p) as [[b r]| | |] eqn:R; cbn in E; try congruence. injection E as <-.
    unfold vfs_remove in R. destruct (split_parent p) as [parent name].
    apply obind_Ret in R. destruct R as ([[loc q]|] & R & E); [|congruence].
    apply obind_Ret in E. destruct E as ([b' p'] & Rm & E). injection E as <- <-.
    apply upd_at_dir; [assumption|]. cbn. eapply remove_child_dir; eassumption.
  - destruct (mount n src parent pol) eqn:R; try congruence. injection E as <-. eapply mount_dir; eassumption.
  - destruct (mount_host n hs parent pol) eqn:R; try congruence. injection E as <-.
    unfold mount_host in R. revert n W R. generalize (fold_left load_host hs []).
    induction l as [|c l IH]; intros n W R; cbn [fold_left] in R; [congruence|]. cbn [obind] in R.
    destruct (mount n c parent pol) as [r1| | |] eqn:M.
    + eapply IH; [|exact R]. eapply mount_dir; eassumption.
    + exfalso. clear - R. induction l; cbn in R; [discriminate|auto].
    + exfalso. clear - R. induction l; cbn in R; [discriminate|auto].
    + exfalso. clear - R. induction l; cbn in R; [discriminate|auto].
  - destruct (mount_disk fuel k pol n buf) as [r|e| |] eqn:R; try discriminate.
    + injection E as <-. unfold mount_disk in R. destruct n; [discriminate|].
      match type of R with context [match ?m (r_from buf) with _ => _ end] => destruct (m (r_from buf)) as [[l' s']| | |] end;
        try discriminate. injection R as <-. reflexivity.
    + destruct e; congruence.
Qed.
Lemma reach_dir n : reach n -> is_dir (Some n).
Proof.
  intros H. assert (D : is_file n = false).
  { induction H; [reflexivity|]. eapply vfs_step_dir; eassumption. }
  destruct n; [discriminate|repeat eexists].
Qed.
