From Coq Require Import Lia ZifyN ZifyBool ZifyNat Permutation.
From Verif Require Import MBase MMmap SMmap LBase.
Local Open Scope N_scope.

Lemma filter_none {A} (f : A -> bool) l : (forall x, In x l -> f x = true) -> filter f l = l.
Proof.
  induction l as [|x l IH]; intros H; [reflexivity|]. cbn [filter]. rewrite (H x (or_introl eq_refl)). f_equal. apply IH. intros y Hy. apply H. right. exact Hy.
Qed.
Lemma take_out (l : list (N * (mapped * target))) i x : NoDup (map fst l) -> find (fun y => fst y =? i) l = Some x ->
  fst x = i /\ Permutation l (x :: removed i l) /\ ~ In i (map fst (removed i l)).
Proof.
  induction l as [|y l IH]; intros Hn Hf; [discriminate|]. cbn [find] in Hf. inversion Hn as [|? ? Ny Nl]; subst. unfold removed. cbn [filter].
  destruct (N.eqb_spec (fst y) i) as [E|E].
  - injection Hf as <-. cbn [negb]. split; [exact E|].
    assert (F : filter (fun z => negb (fst z =? i)) l = l).
    { apply filter_none. intros z Hz. destruct (N.eqb_spec (fst z) i) as [E'|E']; [|reflexivity]. exfalso. apply Ny. rewrite E, <- E'. apply in_map. exact Hz. }
    rewrite F. split; [reflexivity|]. rewrite <- E. exact Ny.
  - cbn [negb]. destruct (IH Nl Hf) as (A & B & C). split; [exact A|]. split.
    + rewrite perm_swap. apply perm_skip. exact B.
    + cbn [map]. intros [X|X]; [exact (E X) | exact (C X)].
Qed.
Lemma obj_taken s i m t : NoDup (map fst (ms_objs s)) -> obj_at s i = Some (m, t) ->
  Permutation (ms_objs s) ((i, (m, t)) :: removed i (ms_objs s)) /\ ~ In i (map fst (removed i (ms_objs s))).
Proof.
  intros Hn H. unfold obj_at in H. destruct (find _ (ms_objs s)) as [[j x]|] eqn:F; [|discriminate]. injection H as ->.
  destruct (take_out _ _ _ Hn F) as (A & B & C). cbn [fst] in A. subst j. split; assumption.
Qed.
Lemma obj_free s i : obj_at s i = None -> ~ In i (map fst (ms_objs s)).
Proof.
  unfold obj_at. destruct (find _ (ms_objs s)) as [y|] eqn:F; [discriminate|]. intros _ H. apply in_map_iff in H. destruct H as (x & Hx & H).
  pose proof (find_none _ _ F x H) as E. cbn in E. lia.
Qed.

Record minv (s : mstate) : Prop := {
  mi_places : NoDup (map fst (ms_objs s));
  mi_objs : forall i m t, In (i, (m, t)) (ms_objs s) -> m_size m = sys_size t /\ m_data m <> PNull /\
     forall id, m_data m = PMap id -> exists b, t = TFile b /\ In (id, b) (os_maps (ms_os s));
  mi_ids : NoDup (map fst (os_maps (ms_os s)));
  mi_fresh : forall x, In x (os_maps (ms_os s)) -> fst x < os_next (ms_os s);
  mi_held : Permutation (map fst (os_maps (ms_os s))) (held (ms_objs s));
  mi_fds : forall d, In d (os_fds (ms_os s)) -> d < os_next (ms_os s) }.

Lemma held_perm l l' : Permutation l l' -> Permutation (held l) (held l').
Proof. intros H. unfold held. apply Permutation_flat_map. exact H. Qed.
Lemma minv_new : minv ms_new.
Proof. split; cbn; try constructor; intros; contradiction. Qed.

Lemma unmapped_perm id (l : list (N * bytes)) r : NoDup (map fst l) -> Permutation (map fst l) (id :: r) -> Permutation (map fst (unmapped id l)) r.
Proof.
  intros Hn Hp.
  assert (E : map fst (unmapped id l) = filter (fun x => negb (x =? id)) (map fst l)).
  { clear. induction l as [|y l IH]; [reflexivity|]. unfold unmapped in *. cbn [filter map]. destruct (fst y =? id); cbn [negb map]; rewrite IH; reflexivity. }
  rewrite E. assert (Q : Permutation (filter (fun x => negb (x =? id)) (map fst l)) (filter (fun x => negb (x =? id)) (id :: r))).
  { clear - Hp. induction Hp as [|x a b H IH|x y a|a b c H1 IH1 H2 IH2].
    - constructor.
    - cbn [filter]. destruct (negb (x =? id)); [apply perm_skip|]; exact IH.
    - cbn [filter]. destruct (negb (x =? id)), (negb (y =? id)); try apply perm_swap; reflexivity.
    - etransitivity; eassumption. }
  rewrite Q. cbn [filter]. rewrite N.eqb_refl. cbn [negb]. rewrite filter_none; [reflexivity|].
  intros x Hx. destruct (N.eqb_spec x id) as [->|]; [|reflexivity]. exfalso.
  pose proof (Permutation_NoDup Hp Hn) as Hd. inversion Hd. contradiction.
Qed.
Lemma unmapped_In id l x : In x (unmapped id l) <-> In x l /\ fst x <> id.
Proof. unfold unmapped. rewrite filter_In. split; intros [A B]; split; try exact A; lia. Qed.
Lemma NoDup_unmapped id (l : list (N * bytes)) : NoDup (map fst l) -> NoDup (map fst (unmapped id l)).
Proof.
  intros H. unfold unmapped. induction l as [|y l IH]; [constructor|]. inversion H as [|? ? A B]; subst. cbn [filter].
  destruct (negb (fst y =? id)); [|exact (IH B)]. cbn [map]. constructor; [|exact (IH B)].
  intros X. apply A. apply in_map_iff in X. destruct X as (z & Ez & Hz). apply filter_In in Hz. rewrite <- Ez. apply in_map. apply Hz.
Qed.
Lemma without_In id l x : In x (without id l) <-> In x l /\ x <> id.
Proof. unfold without. rewrite filter_In. split; intros [A B]; split; try exact A; lia. Qed.

(** What opening a file does. *)
Lemma open_cases t k s : (forall d, In d (os_fds s) -> d < os_next s) ->
  match map_open t k s with
  | (Ret m, s') => (forall d, In d (os_fds s') <-> In d (os_fds s)) /\ m_size m = sys_size t /\ open_ok k = true /\ stat_ok k = true /\ t <> TNothing /\
      os_next s + 1 <= os_next s' <= os_next s + 2 /\
      ((m_data m = PFailed /\ os_maps s' = os_maps s /\ (map_ok k = true -> forall b, t = TFile b -> b = [])) \/
       (exists b, t = TFile b /\ m_data m = PMap (os_next s + 1) /\ os_maps s' = os_maps s ++ [(os_next s + 1, b)] /\ os_next s' = os_next s + 2))
  | (Throw e, s') => e = OtherExn /\ os_maps s' = os_maps s /\ os_next s <= os_next s' /\
      ((os_fds s' = os_fds s /\ (t = TNothing \/ open_ok k = false)) \/ (os_fds s' = os_fds s ++ [os_next s] /\ os_next s' = os_next s + 1 /\ stat_ok k = false))
  | _ => False
  end.
Proof.
  intros Hd. assert (W : forall d, In d (without (os_next s) (os_fds s ++ [os_next s])) <-> In d (os_fds s)).
  { intros d. rewrite without_In. rewrite in_app_iff. cbn [In]. split; [intros [[H|[H|[]]] D]; [exact H | congruence]|].
    intros H. split; [left; exact H|]. specialize (Hd d H). lia. }
  unfold map_open. destruct t as [|b|n].
  - repeat split; try lia. left. auto.
  - destruct (open_ok k); cbn [negb]; [|repeat split; try lia; left; auto]. destruct (stat_ok k); cbn [negb]; [|cbn; repeat split; try lia; right; auto].
    unfold sys_mmap. destruct (map_ok k && negb (sys_size (TFile b) =? 0)) eqn:M; cbn [fst snd os_next os_fds os_maps m_size m_data].
    + split; [exact W|]. do 3 (split; [reflexivity|]). split; [discriminate|]. split; [lia|]. right. exists b.
      split; [reflexivity|]. split; [reflexivity|]. split; [|lia]. cbn [sys_size]. rewrite take_all by lia. reflexivity.
    + split; [exact W|]. do 3 (split; [reflexivity|]). split; [discriminate|]. split; [lia|]. left. split; [reflexivity|]. split; [reflexivity|].
      intros Hm b' E. injection E as <-. rewrite Hm in M. cbn [andb sys_size] in M. destruct b; [reflexivity|]. rewrite len_cons in M. lia.
  - destruct (open_ok k); cbn [negb]; [|repeat split; try lia; left; auto]. destruct (stat_ok k); cbn [negb]; [|cbn; repeat split; try lia; right; auto].
    cbn [sys_mmap fst snd os_next os_fds os_maps m_size m_data]. split; [exact W|]. do 3 (split; [reflexivity|]). split; [discriminate|]. split; [lia|]. left. split; [reflexivity|]. split; [reflexivity|].
    intros _ b E. discriminate.
Qed.

Lemma minv_step o s : minv s -> minv (fst (map_step o s)).
Proof.
  intros [P O I F H D]. destruct o as [i t k|i j|i]; cbn [map_step].
  - destruct (obj_at s i) as [x|] eqn:A; [split; assumption|]. pose proof (obj_free s i A) as Fr. pose proof (open_cases t k (ms_os s) D) as C.
    destruct (map_open t k (ms_os s)) as [[m|e| |] s']; try contradiction; cbn [fst].
    + destruct C as (C1 & C2 & _ & _ & _ & C3 & C4). split; cbn [ms_os ms_objs].
      * cbn [map fst]. constructor; assumption.
      * intros i0 m0 t0 [E|E].
        -- injection E as <- <- <-. split; [exact C2|]. destruct C4 as [(C5 & C6 & _)|(b & C5 & C6 & C7 & _)].
           ++ split; [congruence|]. intros id E. congruence.
           ++ split; [congruence|]. intros id E. exists b. split; [exact C5|]. rewrite C7. apply in_or_app. right. left. congruence.
        -- destruct (O _ _ _ E) as (O1 & O2 & O3). split; [exact O1|]. split; [exact O2|]. intros id E'. destruct (O3 id E') as (b & B1 & B2).
           exists b. split; [exact B1|]. destruct C4 as [(_ & C6 & _)|(b' & _ & _ & C7 & _)]; [rewrite C6; exact B2 | rewrite C7; apply in_or_app; left; exact B2].
      * destruct C4 as [(_ & C6 & _)|(b' & _ & _ & C7 & _)]; [rewrite C6; exact I|]. rewrite C7, map_app. cbn [map fst].
        apply (Permutation_NoDup (Permutation_cons_append _ _)). constructor; [|exact I]. intros X. apply in_map_iff in X. destruct X as (z & Ez & Hz). specialize (F z Hz). lia.
      * intros x Hx. destruct C4 as [(_ & C6 & _)|(b' & _ & _ & C7 & C8)]; [rewrite C6 in Hx; specialize (F x Hx); lia|]. rewrite C7 in Hx. apply in_app_or in Hx.
        destruct Hx as [Hx|[Hx|[]]]; [specialize (F x Hx); lia|]. subst x. cbn [fst]. lia.
      * unfold held. cbn [flat_map fst snd]. destruct C4 as [(C5 & C6 & _)|(b' & _ & C6 & C7 & _)].
        -- rewrite C5, C6. exact H.
        -- rewrite C6, C7, map_app. cbn [map fst app]. rewrite <- Permutation_cons_append. apply perm_skip. exact H.
      * intros d Hd. apply C1 in Hd. specialize (D d Hd). lia.
    + destruct C as (_ & C1 & C2 & C3). split; cbn [ms_os ms_objs]; try rewrite C1; try assumption.
      * intros x Hx. specialize (F x Hx). lia.
      * intros d Hd. destruct C3 as [(C3 & _)|(C3 & C4 & _)]; rewrite C3 in Hd; [specialize (D d Hd); lia|]. apply in_app_or in Hd. destruct Hd as [Hd|[Hd|[]]]; [specialize (D d Hd)|]; lia.
  - destruct (obj_at s i) as [[m t]|] eqn:A; [|split; assumption]. destruct (obj_at s j) as [x|] eqn:B; [split; assumption|].
    destruct (obj_taken s i m t P A) as (Q & N0). pose proof (obj_free s j B) as Fr. cbn [map_move fst].
    assert (P' : NoDup (map fst (removed i (ms_objs s)))) by (pose proof (Permutation_NoDup (Permutation_map fst Q) P) as X; inversion X; assumption).
    split; cbn [ms_os ms_objs map_close m_data]; try assumption.
    + cbn [map fst]. constructor; [|exact P']. intros X. apply Fr. apply (Permutation_in _ (Permutation_sym (Permutation_map fst Q))). right. exact X.
    + intros i0 m0 t0 [E|E]; [injection E as <- <- <-; apply (O i m t); apply (Permutation_in _ (Permutation_sym Q)); left; reflexivity|].
      apply (O i0 m0 t0). apply (Permutation_in _ (Permutation_sym Q)). right. exact E.
    + rewrite H. rewrite (held_perm _ _ Q). reflexivity.
  - destruct (obj_at s i) as [[m t]|] eqn:A; [|split; assumption]. destruct (obj_taken s i m t P A) as (Q & N0). cbn [fst].
    assert (P' : NoDup (map fst (removed i (ms_objs s)))) by (pose proof (Permutation_NoDup (Permutation_map fst Q) P) as X; inversion X; assumption).
    assert (O' : forall i0 m0 t0, In (i0, (m0, t0)) (removed i (ms_objs s)) -> In (i0, (m0, t0)) (ms_objs s)).
    { intros i0 m0 t0 E. apply (Permutation_in _ (Permutation_sym Q)). right. exact E. }
    assert (HQ : Permutation (map fst (os_maps (ms_os s))) (held ((i, (m, t)) :: removed i (ms_objs s)))) by (rewrite H; apply held_perm, Q).
    unfold held in HQ. cbn [flat_map fst snd] in HQ. fold (held (removed i (ms_objs s))) in HQ.
    unfold map_close. destruct (m_data m) as [| |id] eqn:M.
    + split; cbn [ms_os ms_objs]; try assumption. intros i0 m0 t0 E. apply (O i0 m0 t0), O', E.
    + split; cbn [ms_os ms_objs]; try assumption. intros i0 m0 t0 E. apply (O i0 m0 t0), O', E.
    + split; cbn [ms_os ms_objs os_maps os_next os_fds]; try assumption.
      * intros i0 m0 t0 E. destruct (O i0 m0 t0 (O' _ _ _ E)) as (O1 & O2 & O3). split; [exact O1|]. split; [exact O2|]. intros id' E'. destruct (O3 id' E') as (b & B1 & B2).
        exists b. split; [exact B1|]. apply unmapped_In. split; [exact B2|]. cbn [fst]. intros ->.
        pose proof (Permutation_NoDup HQ I) as Hd. inversion Hd as [|? ? X _]. apply X. unfold held. apply in_flat_map. exists (i0, (m0, t0)). split; [exact E|]. cbn [fst snd]. rewrite E'. left. reflexivity.
      * apply NoDup_unmapped, I.
      * intros x Hx. apply unmapped_In in Hx. apply F, Hx.
      * apply unmapped_perm; [exact I | exact HQ].
Qed.
Lemma minv_run ops : forall s, minv s -> minv (map_run ops s).
Proof. induction ops as [|o ops IH]; intros s I; cbn [map_run]; [exact I|]. apply IH, minv_step, I. Qed.

(** With a system that maps files, objects without a mapping are those of empty files. *)
Definition fine (s : mstate) : Prop := forall i m t, In (i, (m, t)) (ms_objs s) -> m_data m = PFailed -> forall b, t = TFile b -> b = [].
Lemma fine_step o s : minv s -> fine s -> match o with MOpen _ t k => map_ok k = true /\ (forall n, t <> TDirectory n) | _ => True end -> fine (fst (map_step o s)).
Proof.
  intros I Fi W. destruct o as [i t k|i j|i]; cbn [map_step].
  - destruct (obj_at s i) as [x|] eqn:A; [exact Fi|]. pose proof (open_cases t k (ms_os s) (mi_fds _ I)) as C. destruct W as [W1 _].
    destruct (map_open t k (ms_os s)) as [[m|e| |] s']; try contradiction; cbn [fst]; [|exact Fi].
    intros i0 m0 t0 [E|E] X b Eb; [|exact (Fi i0 m0 t0 E X b Eb)]. injection E as <- <- <-. destruct C as (_ & _ & _ & _ & _ & _ & [(_ & _ & C)|(b' & _ & C & _)]); [exact (C W1 b Eb) | congruence].
  - destruct (obj_at s i) as [[m t]|] eqn:A; [|exact Fi]. destruct (obj_at s j) as [x|] eqn:B; [exact Fi|]. destruct (obj_taken s i m t (mi_places _ I) A) as (Q & N0).
    cbn [map_move fst]. intros i0 m0 t0 [E|E]; cbn [ms_objs] in *.
    + injection E as <- <- <-. apply (Fi i m t). apply (Permutation_in _ (Permutation_sym Q)). left. reflexivity.
    + apply (Fi i0 m0 t0). apply (Permutation_in _ (Permutation_sym Q)). right. exact E.
  - destruct (obj_at s i) as [[m t]|] eqn:A; [|exact Fi]. destruct (obj_taken s i m t (mi_places _ I) A) as (Q & N0). cbn [fst].
    intros i0 m0 t0 E. apply (Fi i0 m0 t0). apply (Permutation_in _ (Permutation_sym Q)). right. exact E.
Qed.
Lemma fine_run ops : forall s, minv s -> fine s -> maps_well ops -> fine (map_run ops s).
Proof.
  induction ops as [|o ops IH]; intros s I Fi W; cbn [map_run]; [exact Fi|]. inversion W; subst. apply IH; [apply minv_step, I | apply fine_step; assumption | assumption].
Qed.
Lemma find_In (l : list (N * bytes)) id b : NoDup (map fst l) -> In (id, b) l -> find (fun x => fst x =? id) l = Some (id, b).
Proof.
  induction l as [|y l IH]; intros Hn Hi; [contradiction|]. inversion Hn as [|? ? A B]; subst. cbn [find]. destruct Hi as [->|Hi].
  - cbn [fst]. rewrite N.eqb_refl. reflexivity.
  - destruct (N.eqb_spec (fst y) id) as [E|E]; [|exact (IH B Hi)]. exfalso. apply A. rewrite E. apply in_map_iff. exists (id, b). auto.
Qed.
Lemma obj_in s i m t : obj_at s i = Some (m, t) -> In (i, (m, t)) (ms_objs s).
Proof.
  unfold obj_at. destruct (find _ (ms_objs s)) as [[j x]|] eqn:F; [|discriminate]. intros H. injection H as ->. apply find_some in F. destruct F as [A B].
  cbn [fst] in B. apply N.eqb_eq in B. subst j. exact A.
Qed.
Lemma contents ops i m b : maps_well ops -> obj_at (map_run ops ms_new) i = Some (m, TFile b) -> reads_as m b (ms_os (map_run ops ms_new)).
Proof.
  intros W H. set (s := map_run ops ms_new) in *. assert (I : minv s) by (apply minv_run, minv_new).
  assert (Fi : fine s) by (apply fine_run; [apply minv_new | intros ? ? ? [] | exact W]). apply obj_in in H.
  destruct (mi_objs _ I _ _ _ H) as (A & B & C). split; [exact A|]. intros p n Hp. unfold map_bytes.
  destruct (N.eqb_spec n 0) as [->|N0]; [rewrite take_0; reflexivity|].
  destruct (m_data m) as [| |id] eqn:M; [congruence | |].
  - rewrite (Fi _ _ _ H M b eq_refl) in Hp. change (len (@nil byte)) with 0 in Hp. lia.
  - destruct (C id eq_refl) as (b' & E & X). injection E as <-. rewrite (find_In _ _ _ (mi_ids _ I) X). destruct (N.leb_spec (p + n) (len b)); [reflexivity | lia].
Qed.
Lemma released ops : Permutation (map fst (os_maps (ms_os (map_run ops ms_new)))) (held (ms_objs (map_run ops ms_new))).
Proof. apply mi_held, minv_run, minv_new. Qed.
Lemma no_descriptors ops : stats_well ops -> os_fds (ms_os (map_run ops ms_new)) = [].
Proof.
  intros W. assert (G : forall ops s, minv s -> os_fds (ms_os s) = [] -> stats_well ops -> os_fds (ms_os (map_run ops s)) = []).
  { clear. induction ops as [|o ops IH]; intros s I E W; cbn [map_run]; [exact E|]. inversion W as [|? ? W1 W2]; subst. apply IH; [apply minv_step, I | | exact W2].
    destruct o as [i t k|i j|i]; cbn [map_step].
    - destruct (obj_at s i) as [x|]; [exact E|]. pose proof (open_cases t k (ms_os s) (mi_fds _ I)) as C. rewrite E in C.
      destruct (map_open t k (ms_os s)) as [[m|e| |] s']; try contradiction; cbn [fst ms_os].
      + destruct C as (C & _). destruct (os_fds s') as [|d l]; [reflexivity|]. destruct (proj1 (C d) (or_introl eq_refl)).
      + destruct C as (_ & _ & _ & [(C & _)|(_ & _ & C)]); [exact C | congruence].
    - destruct (obj_at s i) as [[m t]|]; [|exact E]. destruct (obj_at s j); exact E.
    - destruct (obj_at s i) as [[m t]|]; [|exact E]. cbn [fst ms_os]. unfold map_close. destruct (m_data m); exact E. }
  apply G; [apply minv_new | reflexivity | exact W].
Qed.
Lemma throws_when t k s : fst (map_open t k s) = Throw OtherExn <-> t = TNothing \/ open_ok k = false \/ stat_ok k = false.
Proof.
  unfold map_open. destruct t as [|b|n].
  - split; [auto | reflexivity].
  - destruct (open_ok k); cbn [negb]; [|split; [auto | reflexivity]]. destruct (stat_ok k); cbn [negb]; [|split; [auto | reflexivity]].
    unfold sys_mmap. destruct (_ && _); cbn [fst]; (split; [discriminate | intros [H|[H|H]]; discriminate]).
  - destruct (open_ok k); cbn [negb]; [|split; [auto | reflexivity]]. destruct (stat_ok k); cbn [negb]; [|split; [auto | reflexivity]].
    cbn. split; [discriminate | intros [H|[H|H]]; discriminate].
Qed.
Lemma failures t k s : open_ok k = true -> stat_ok k = true -> (exists n, t = TDirectory n) \/ (map_ok k = false /\ exists b, t = TFile b) ->
  exists m, fst (map_open t k s) = Ret m /\ m_size m = sys_size t /\ forall s' p n, 0 < n -> map_bytes m p n s' = Undef.
Proof.
  intros A B C. exists (mkMapped PFailed (sys_size t)). split.
  - unfold map_open. destruct C as [(n & ->)|(M & b & ->)]; rewrite A, B; cbn [negb sys_mmap]; [reflexivity | rewrite M; reflexivity].
  - split; [reflexivity|]. intros s' p n Hn. unfold map_bytes. destruct (N.eqb_spec n 0); [lia | reflexivity].
Qed.
Lemma leak ops1 i t k ops2 : t <> TNothing -> open_ok k = true -> stat_ok k = false -> obj_at (map_run ops1 ms_new) i = None ->
  exists d, ~ In d (os_fds (ms_os (map_run ops1 ms_new))) /\ In d (os_fds (ms_os (map_run (ops1 ++ MOpen i t k :: ops2) ms_new))).
Proof.
  intros T A B F. set (s := map_run ops1 ms_new) in *. assert (I : minv s) by (apply minv_run, minv_new).
  assert (R : map_run (ops1 ++ MOpen i t k :: ops2) ms_new = map_run ops2 (fst (map_step (MOpen i t k) s))).
  { unfold s. clear. generalize ms_new. induction ops1 as [|o l IH]; intros x; [reflexivity|]. cbn [app map_run]. apply IH. }
  exists (os_next (ms_os s)). split; [intros X; pose proof (mi_fds _ I _ X); lia|]. rewrite R.
  assert (K : forall ops s0 d, minv s0 -> In d (os_fds (ms_os s0)) -> In d (os_fds (ms_os (map_run ops s0)))).
  { clear. induction ops as [|o ops IH]; intros s0 d I H; cbn [map_run]; [exact H|]. apply IH; [apply minv_step, I|].
    destruct o as [i t k|i j|i]; cbn [map_step].
    - destruct (obj_at s0 i) as [x|]; [exact H|]. pose proof (open_cases t k (ms_os s0) (mi_fds _ I)) as C.
      destruct (map_open t k (ms_os s0)) as [[m|e| |] s']; try contradiction; cbn [fst ms_os].
      + destruct C as (C & _). apply C, H.
      + destruct C as (_ & _ & _ & [(C & _)|(C & _)]); rewrite C; [exact H | apply in_or_app; left; exact H].
    - destruct (obj_at s0 i) as [[m t]|]; [|exact H]. destruct (obj_at s0 j); exact H.
    - destruct (obj_at s0 i) as [[m t]|]; [|exact H]. cbn [fst ms_os]. unfold map_close. destruct (m_data m); exact H. }
  apply K; [apply minv_step, I|]. cbn [map_step]. rewrite F. unfold map_open. rewrite A, B. destruct t; [congruence | |]; cbn; apply in_or_app; right; left; reflexivity.
Qed.
(** ** Windows *)
Lemma win_contents b k s : (forall x, In x (os_maps s) -> fst x < os_next s) -> b <> [] -> len b < 2 ^ 32 -> open_ok k = true -> stat_ok k = true -> map_ok k = true ->
  exists m s', map_open_win (TFile b) k s = (Ret m, s') /\ reads_as m b s'.
Proof.
  intros F N0 L A B C. unfold map_open_win. rewrite A, B, C. cbn [negb orb]. replace (u32 (len b)) with (len b) by (symmetry; apply N.mod_small; exact L).
  assert (P : 0 < len b) by (destruct b; [congruence | rewrite len_cons; lia]). destruct (N.eqb_spec (len b) 0); [lia|].
  eexists _, _. split; [reflexivity|]. split; [reflexivity|]. intros p n0 Hp. unfold map_bytes. destruct (N.eqb_spec n0 0) as [->|Hn]; [rewrite take_0; reflexivity|].
  cbn [m_data os_maps]. rewrite (take_all (len b) b) by lia.
  assert (Fd : find (fun x => fst x =? os_next s) (os_maps s ++ [(os_next s, b)]) = Some (os_next s, b)).
  { clear - F. induction (os_maps s) as [|y l IH]; cbn [app find fst]; [rewrite N.eqb_refl; reflexivity|].
    pose proof (F y (or_introl eq_refl)). destruct (N.eqb_spec (fst y) (os_next s)); [lia|]. apply IH. intros x Hx. apply F. right. exact Hx. }
  match goal with |- context [find ?f ?l] => replace (find f l) with (Some (os_next s, b)) by (symmetry; exact Fd) end. destruct (N.leb_spec (p + n0) (len b)); [reflexivity | lia].
Qed.
Lemma win_large b k s : 2 ^ 32 <= len b -> open_ok k = true -> stat_ok k = true ->
  exists m s', map_open_win (TFile b) k s = (Ret m, s') /\ m_size m <> len b.
Proof.
  intros L A B. unfold map_open_win. rewrite A, B. cbn [negb orb]. destruct (N.eqb_spec (len b) 0) as [E|E]; [rewrite E in L; lia|].
  assert (X : u32 (len b) <> len b) by (pose proof (N.mod_lt (len b) (2 ^ 32) ltac:(discriminate)); unfold u32; lia).
  destruct (map_ok k); eexists _, _; (split; [reflexivity | exact X]).
Qed.
Lemma win_failure b k s : b <> [] -> open_ok k = true -> stat_ok k = true -> map_ok k = false ->
  exists m s', map_open_win (TFile b) k s = (Ret m, s') /\ forall s'' p n, 0 < n -> map_bytes m p n s'' = Undef.
Proof.
  intros N0 A B C. unfold map_open_win. rewrite A, B, C. cbn [negb orb]. assert (P : 0 < len b) by (destruct b; [congruence | rewrite len_cons; lia]).
  destruct (N.eqb_spec (len b) 0); [lia|]. eexists _, _. split; [reflexivity|]. intros s'' p n0 Hn. unfold map_bytes. destruct (N.eqb_spec n0 0); [lia | reflexivity].
Qed.
