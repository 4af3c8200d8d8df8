(** Properties of save game directories. *)

From Coq Require Import String Lia.
From Verif Require Import MBase MStream MText MClasses MArchive SArchive MVob MCutscene MWorld MLib MSave SSave LSave MTexture MSaveGame SSaveGame LBase LSaveGame.
From Verif Require MVfs SVfs LVfs.
Local Open Scope N_scope.

(* ------------------------------------------------------------------ *)
(** * What a save leaves behind *)
Lemma write_files_all l : all_written l ->
  exists ws : list (bytes * bytes), map (fun p => (fst p, Ret (snd p))) ws = l /\
    forall lt, write_files (map (fun p => (lt ++ [fst p], snd p)) l) = (map (fun p => SWrite (lt ++ [fst p]) (snd p)) ws, Ret tt).
Proof.
  induction l as [|(n, o) l IH]; intros A.
  - exists []. split; reflexivity.
  - inversion A as [|? ? (b & E) A']; subst. cbn in E. subst o. destruct (IH A') as (ws & <- & H).
    exists ((n, b) :: ws). split; [reflexivity|]. intros lt. cbn. rewrite H. reflexivity.
Qed.
Lemma nodup_snoc {A} (l : list A) x : NoDup l -> ~ In x l -> NoDup (l ++ [x]).
Proof.
  induction l as [|y l IH]; intros N H; cbn; [repeat constructor; intros [] |].
  inversion N; subst. constructor; [|apply IH; [assumption | intros I; apply H; right; exact I]].
  intros I. apply in_app_or in I. destruct I as [I|[->|[]]]; [contradiction | apply H; left; reflexivity].
Qed.
Lemma five_nodup name : own_name name -> NoDup (five name).
Proof.
  intros (_ & H). apply nodup_snoc; [|exact H].
  repeat (constructor; [cbn; intuition discriminate|]). constructor.
Qed.

Lemma saved d cwd c e fuel g to W root name K :
  disk_ok d -> begins_with d cwd (sg_path g) to K -> own_name name ->
  (forall n, In n (five name) -> K [n] <> Some DDir) ->
  all_written (files c e fuel g W root name) ->
  let '(ss, o) := sg_save d cwd c e fuel g to W root name in
  o = Ret (mkSg (sg_meta g) (sg_state g) (sg_graph g) (sg_thumb g) to) /\
  (forall n b, In (n, Ret b) (files c e fuel g W root name) -> file_at (run_steps d ss) (locate cwd to) n b) /\
  (forall r, r <> [] -> ~ In r (map (fun n => [n]) (five name)) -> dget (run_steps d ss) (locate cwd to ++ r) = K r).
Proof.
  intros M B O ND A. destruct (prepared d cwd _ to K M B) as (s & P & D & C). unfold sg_save. rewrite P.
  fold (placed cwd to (files c e fuel g W root name)).
  rewrite (placed_eq _ _ _ (files_ok c e fuel g W root name (proj2 (proj1 O)))).
  destruct (write_files_all (files c e fuel g W root name)) as (ws & E & H); [exact A|].
  rewrite H. split; [reflexivity|].
  unfold run_steps. rewrite fold_left_app. fold (run_steps d s). change (fold_left run_step ?l ?x) with (run_steps x l).
  assert (F : map fst ws = five name).
  { rewrite <- (files_names c e fuel g W root name), <- E, map_map. reflexivity. }
  destruct (run_writes (locate cwd to) ws (run_steps d s) D) as (R1 & R2).
  - intros p I. rewrite C by discriminate. apply ND. rewrite <- F. apply in_map. exact I.
  - rewrite F. apply five_nodup. exact O.
  - split.
    + intros n b I. rewrite <- E in I. apply in_map_iff in I. destruct I as (p & X & I). injection X as <- <-. apply R1. exact I.
    + intros r N I. rewrite R2; [apply C; exact N|]. intros J. apply I. apply in_map_iff in J. destruct J as (p & X & J).
      apply app_inv_head in X. subst r. rewrite <- F. apply (in_map (fun n => [n])), in_map. exact J.
Qed.

(* ------------------------------------------------------------------ *)
(** * Finding the files *)
Lemma ltb_irrefl a : bytes_ltb a a = false.
Proof. induction a as [|x a IH]; [reflexivity|]. cbn. rewrite N.ltb_irrefl. exact IH. Qed.
Lemma ltb_trans a : forall b c, bytes_ltb a b = true -> bytes_ltb b c = true -> bytes_ltb a c = true.
Proof.
  induction a as [|x a IH]; intros [|y b] [|z c]; cbn; try congruence.
  destruct (N.ltb_spec (b2n x) (b2n y)), (N.ltb_spec (b2n y) (b2n x)), (N.ltb_spec (b2n y) (b2n z)), (N.ltb_spec (b2n z) (b2n y)),
    (N.ltb_spec (b2n x) (b2n z)), (N.ltb_spec (b2n z) (b2n x)); try lia; try congruence. apply IH.
Qed.
Lemma ltb_total a : forall b, bytes_ltb a b = false -> bytes_ltb b a = false -> a = b.
Proof.
  induction a as [|x a IH]; intros [|y b]; cbn; try congruence.
  destruct (N.ltb_spec (b2n x) (b2n y)), (N.ltb_spec (b2n y) (b2n x)); try congruence; try lia.
  intros H1 H2. f_equal; [|apply IH; assumption].
  rewrite <- (n2b_b2n x), <- (n2b_b2n y). f_equal. lia.
Qed.
Lemma least_cons x l : least (x :: l) = match least l with None => Some x | Some k => if bytes_ltb k x then Some k else Some x end.
Proof. reflexivity. Qed.
Lemma least_some l : forall m, least l = Some m -> In m l /\ (forall n, In n l -> bytes_ltb n m = false).
Proof.
  induction l as [|x l IH]; intros m; [discriminate|]. rewrite least_cons.
  destruct (least l) as [k|] eqn:E.
  - destruct (IH k eq_refl) as (I & H). destruct (bytes_ltb k x) eqn:X; intros Y; injection Y as <-.
    + split; [right; exact I|]. intros n [<-|J]; [|exact (H n J)].
      destruct (bytes_ltb x k) eqn:Z; [|reflexivity]. rewrite <- (ltb_irrefl k). symmetry. eapply ltb_trans; eassumption.
    + split; [left; reflexivity|]. intros n [<-|J]; [apply ltb_irrefl|].
      destruct (bytes_ltb n x) eqn:Z; [|reflexivity]. pose proof (H n J) as HN.
      destruct (bytes_ltb k n) eqn:V; [pose proof (ltb_trans _ _ _ V Z); congruence|].
      rewrite (ltb_total _ _ HN V) in Z. congruence.
  - intros Y. injection Y as <-. split; [left; reflexivity|]. intros n [<-|J]; [apply ltb_irrefl|].
    exfalso. destruct l as [|y l]; [contradiction J|]. rewrite least_cons in E. destruct (least l) as [k|]; [destruct (bytes_ltb k y)|]; discriminate.
Qed.
Lemma least_none l : least l = None -> l = [].
Proof.
  destruct l as [|x l]; [reflexivity|]. rewrite least_cons. destruct (least l) as [k|]; [destruct (bytes_ltb k x)|]; discriminate.
Qed.
Lemma least_is l m : In m l -> (forall n, In n l -> bytes_ltb n m = false) -> least l = Some m.
Proof.
  intros I H. destruct (least l) as [k|] eqn:E.
  - destruct (least_some l k E) as (J & H'). f_equal. apply ltb_total; [exact (H k J) | exact (H' m I)].
  - apply least_none in E. subst. contradiction.
Qed.
Lemma least_same l l' : (forall n, In n l <-> In n l') -> least l = least l'.
Proof.
  intros H. destruct (least l') as [m|] eqn:E.
  - destruct (least_some _ _ E) as (I & J). apply least_is; [apply H; exact I | intros n N; apply J, H; exact N].
  - apply least_none in E. subst. destruct l as [|x l]; [reflexivity|]. exfalso. apply (proj1 (H x)). left. reflexivity.
Qed.
Lemma assoc_in d k : assoc d k <> None <-> exists e, In (k, e) d.
Proof.
  induction d as [|(m, x) d IH]; cbn.
  - split; [congruence | intros (e & [])].
  - destruct (loc_eqP m k) as [->|N].
    + split; [intros _; exists x; left; reflexivity | discriminate].
    + rewrite IH. split; intros (e & I); exists e; [right; exact I|]. destruct I as [I|I]; [congruence | exact I].
Qed.
Lemma names_spec d l n : In n (names_in d l) <-> dget d (l ++ [n]) <> None.
Proof.
  rewrite dget_assoc by (destruct l; discriminate). rewrite assoc_in. unfold names_in. rewrite in_flat_map. split.
  - intros ((k, e) & I & J). cbn in J. destruct (below l k) as [[|a [|b r]]|] eqn:B; try contradiction.
    destruct J as [<-|[]]. apply below_spec in B. subst k. exists e. exact I.
  - intros (e & I). exists (l ++ [n], e). split; [exact I|]. cbn. rewrite below_app. left. reflexivity.
Qed.
Definition agree (d d' : disk) (l : loc) : Prop := forall r, dget d (l ++ r) = dget d' (l ++ r).
Lemma find_agree d d' l name : agree d d' l -> find_file d l name = find_file d' l name.
Proof.
  intros A. apply least_same. intros n. rewrite !filter_In, !names_spec, A. reflexivity.
Qed.
Lemma agree_dir d d' l : agree d d' l -> is_dir d l = is_dir d' l.
Proof. intros A. specialize (A []). rewrite app_nil_r in A. unfold is_dir. rewrite A. reflexivity. Qed.
Lemma agree_read d d' l n : agree d d' l -> read_file d (l ++ [n]) = read_file d' (l ++ [n]).
Proof. intros A. unfold read_file. rewrite A. reflexivity. Qed.
Lemma load_agree d d' cwd c fuel g p : agree d d' (locate cwd p) -> sg_load d cwd c fuel g p = sg_load d' cwd c fuel g p.
Proof.
  intros A. unfold sg_load. cbv zeta. rewrite (agree_dir _ _ _ A), !(find_agree d d' (locate cwd p) _ A).
  destruct (negb _); [reflexivity|]. destruct (find_file d' (locate cwd p) (lit "SAVEINFO.SAV")) as [n|]; [|reflexivity].
  rewrite (agree_read _ _ _ n A). destruct (obind _ _); try reflexivity.
  destruct (find_file d' (locate cwd p) (lit "THUMB.SAV")) as [n'|].
  - rewrite (agree_read _ _ _ n' A). destruct (obind (read_file d' (locate cwd p ++ [n'])) load_thumb); try reflexivity.
    destruct (find_file d' (locate cwd p) (lit "SAVEDAT.SAV")) as [n''|]; [|reflexivity].
    rewrite (agree_read _ _ _ n'' A). reflexivity.
  - destruct (find_file d' (locate cwd p) (lit "SAVEDAT.SAV")) as [n''|]; [|reflexivity].
    rewrite (agree_read _ _ _ n'' A). reflexivity.
Qed.
(** Among all spellings of a name without small letters, that one comes first. *)
Definition no_small (n : bytes) : bool := forallb (fun c => negb ((97 <=? b2n c) && (b2n c <=? 122))) n.
Lemma spelled_char u x : negb ((97 <=? b2n u) && (b2n u <=? 122)) = true -> (MVfs.tolower x =? MVfs.tolower u)%Z = true -> b2n u <= b2n x.
Proof.
  intros H E. apply Z.eqb_eq in E. unfold MVfs.tolower in E. pose proof (b2n_bound u). pose proof (b2n_bound x).
  apply negb_true_iff in H. unfold sint in E.
  destruct (N.leb_spec 65 (b2n x)), (N.leb_spec (b2n x) 90), (N.leb_spec 65 (b2n u)), (N.leb_spec (b2n u) 90); cbn in E;
    repeat match type of E with context [if ?b then _ else _] => destruct b eqn:?; cbn in E end;
    destruct (N.leb_spec 97 (b2n u)), (N.leb_spec (b2n u) 122); cbn in H; try discriminate; try lia.
Qed.
Lemma spelled_first u : no_small u = true -> forall n, MVfs.iequals n u = true -> bytes_ltb n u = false.
Proof.
  induction u as [|c u IH]; intros H [|x n] E; cbn in *; try congruence.
  apply andb_true_iff in H. destruct H as (H1 & H2). apply andb_true_iff in E. destruct E as (E1 & E2).
  pose proof (spelled_char c x H1 E1). destruct (N.ltb_spec (b2n x) (b2n c)); [lia|].
  destruct (b2n c <? b2n x); [reflexivity | apply IH; assumption].
Qed.
Lemma iequals_refl n : MVfs.iequals n n = true.
Proof. induction n as [|c n IH]; [reflexivity|]. cbn. rewrite Z.eqb_refl. exact IH. Qed.
Lemma find_exact d l u b : no_small u = true -> file_at d l u b -> find_file d l u = Some u.
Proof.
  intros H F. unfold find_file. apply least_is.
  - apply filter_In. split; [apply names_spec; rewrite F; discriminate | apply iequals_refl].
  - intros n I. apply filter_In in I. apply spelled_first; tauto.
Qed.
Lemma loaded d cwd c fuel g p b1 b2 b4 m t s h : p <> [] -> is_dir d (locate cwd p) = true ->
  file_at d (locate cwd p) (lit "SAVEINFO.SAV") b1 -> file_at d (locate cwd p) (lit "THUMB.SAV") b2 ->
  file_at d (locate cwd p) (lit "SAVEDAT.SAV") b4 ->
  load_saveinfo c fuel b1 = Ret m -> load_thumb b2 = Ret t -> load_savedat c fuel (sg_state g) b4 = Ret (s, h) ->
  sg_load d cwd c fuel g p = (mkSg m s (heap_graph h) (Some t) p, Ret tt).
Proof.
  intros N D F1 F2 F4 L1 L2 L4. unfold sg_load. rewrite D. destruct p as [|ch p]; [congruence|]. cbn [negb].
  rewrite (find_exact _ _ (lit "SAVEINFO.SAV") _ eq_refl F1), (find_exact _ _ (lit "THUMB.SAV") _ eq_refl F2), (find_exact _ _ (lit "SAVEDAT.SAV") _ eq_refl F4).
  unfold read_file. rewrite F1, F2, F4. cbn [obind]. rewrite L1, L2, L4. reflexivity.
Qed.

(* ------------------------------------------------------------------ *)
(** * Saving and loading *)
Lemma begins_dir d cwd from to K : begins_with d cwd from to K -> to = [] \/ to <> [].
Proof. destruct to; [left | right]; congruence. Qed.
Lemma save_dir d cwd c e fuel g to W root name K : disk_ok d -> begins_with d cwd (sg_path g) to K -> own_name name ->
  dget (run_steps d (fst (sg_save d cwd c e fuel g to W root name))) (locate cwd to) = Some DDir.
Proof.
  intros M B O. destruct (prepared d cwd _ to K M B) as (s & P & D & C). unfold sg_save. rewrite P.
  fold (placed cwd to (files c e fuel g W root name)).
  pose proof (files_steps c e fuel g W root name cwd to (proj2 (proj1 O))) as Q. destruct (write_files _) as (s', o'). cbn [fst] in *.
  unfold run_steps. rewrite fold_left_app. change (fold_left run_step ?l ?x) with (run_steps x l). rewrite <- D.
  apply (crashed_elsewhere s'); [apply crashed_done|]. eapply Forall_impl; [|exact Q]. intros st (n & b & _ & ->). cbn.
  split; [|destruct (locate cwd to); discriminate]. intros X. apply (f_equal (@length _)) in X. rewrite app_length in X. cbn in X. lia.
Qed.
Lemma save_then_load d cwd c e fuel g to W root name K b1 b2 b4 m t s h g0 :
  disk_ok d -> to <> [] -> begins_with d cwd (sg_path g) to K -> own_name name ->
  (forall n, In n (five name) -> K [n] <> Some DDir) ->
  save_saveinfo c (e 0%nat) (e 1%nat) fuel (sg_meta g) = Ret b1 -> load_saveinfo c fuel b1 = Ret m ->
  file_thumb (sg_thumb g) = Ret b2 -> load_thumb b2 = Ret t ->
  save_savedat c (e 2%nat) (e 3%nat) (sg_graph g) fuel (sg_state g) = Ret b4 -> load_savedat c fuel (sg_state g0) b4 = Ret (s, h) ->
  (exists b5, file_world c (e 4%nat) (e 5%nat) W root fuel = Ret b5) ->
  sg_load (run_steps d (fst (sg_save d cwd c e fuel g to W root name))) cwd c fuel g0 to
  = (mkSg m s (heap_graph h) (Some t) to, Ret tt).
Proof.
  intros M N B O ND S1 L1 S2 L2 S4 L4 (b5 & S5).
  pose proof (save_dir d cwd c e fuel g to W root name K M B O) as D.
  pose proof (saved d cwd c e fuel g to W root name K M B O ND) as S.
  destruct (sg_save d cwd c e fuel g to W root name) as (ss, o). destruct S as (_ & F & _).
  { unfold files. repeat (apply Forall_cons; [cbn; eauto|]). apply Forall_nil. }
  cbn [fst] in *. eapply loaded; [exact N | apply is_dir_spec; exact D | | | | exact L1 | exact L2 | exact L4]; apply F; unfold files; rewrite ?S1, ?S2, ?S4.
  - left. reflexivity.
  - right; left. reflexivity.
  - right; right; right; left. reflexivity.
Qed.
Lemma zen_ext name : plain_name name -> name_with_ext (name ++ lit ".ZEN") (lit "SAV") = name ++ lit ".SAV".
Proof.
  intros (N & H). rewrite (name_ext _ name (lit "ZEN") (lit "SAV")); [reflexivity | reflexivity | cbn; intuition discriminate | exact N|].
  intros E. apply (f_equal (@length _)) in E. rewrite app_length in E. cbn in E. lia.
Qed.
Lemma load_world_file d cwd c fuel g n q b : ~ In x2f n -> name_with_ext n (lit "SAV") = q -> file_name q ->
  file_at d (locate cwd (sg_path g)) q b ->
  sg_load_world d cwd c fuel g n =
  match load_top (c_load (library c)) (c_flags (library c)) fuel (p_obj oCWorld) b with
  | Ret (Some r, h) => Ret (Some (r, h)) | Ret (None, _) => Ret None | Throw x => Throw x | Undef => Undef | Fuel => Fuel
  end.
Proof.
  intros H E Q F. unfold sg_load_world. cbv zeta. rewrite with_ext_join by (first [exact H | rewrite E; apply Q]). rewrite E.
  rewrite (join_there d cwd (sg_path g) q Q), (locate_join cwd (sg_path g) q Q).
  unfold exists_at, read_file. rewrite F. reflexivity.
Qed.
Lemma load_world_none d cwd c fuel g n q : ~ In x2f n -> name_with_ext n (lit "SAV") = q -> file_name q ->
  dget d (locate cwd (sg_path g) ++ [q]) = None -> sg_load_world d cwd c fuel g n = Ret None.
Proof.
  intros H E Q F. unfold sg_load_world. cbv zeta. rewrite with_ext_join by (first [exact H | rewrite E; apply Q]). rewrite E.
  rewrite (join_there d cwd (sg_path g) q Q). unfold exists_at. rewrite F. reflexivity.
Qed.
Lemma no_dot_ext n : ~ In x2e n -> name_with_ext n (lit "SAV") = n ++ lit ".SAV".
Proof.
  intros H. unfold name_with_ext. rewrite (cut_none _ _ H). destruct (bytes_eqb n (lit "..")); reflexivity.
Qed.
Lemma in_zen name : ~ In x2f name -> ~ In x2f (name ++ lit ".ZEN").
Proof. intros H I. apply in_app_or in I. destruct I as [I|I]; [exact (H I)|]. revert I. cbn. intuition discriminate. Qed.
Lemma save_then_world d cwd c e fuel g to W root name K b5 g' :
  disk_ok d -> begins_with d cwd (sg_path g) to K -> own_name name ->
  (forall n, In n (five name) -> K [n] <> Some DDir) ->
  all_written (files c e fuel g W root name) -> file_world c (e 4%nat) (e 5%nat) W root fuel = Ret b5 ->
  sg_path g' = to ->
  let d' := run_steps d (fst (sg_save d cwd c e fuel g to W root name)) in
  let world := match load_top (c_load (library c)) (c_flags (library c)) fuel (p_obj oCWorld) b5 with
    | Ret (Some r, h) => Ret (Some (r, h)) | Ret (None, _) => Ret None | Throw x => Throw x | Undef => Undef | Fuel => Fuel
    end in
  sg_load_world d' cwd c fuel g' (name ++ lit ".ZEN") = world /\
  (~ In x2e name -> sg_load_world d' cwd c fuel g' name = world) /\
  (savemeta_world (sg_meta g') = name -> sg_load_current d' cwd c fuel g' = world).
Proof.
  intros M B O ND A S5 P. pose proof (saved d cwd c e fuel g to W root name K M B O ND A) as S.
  destruct (sg_save d cwd c e fuel g to W root name) as (ss, o). destruct S as (_ & F & _). cbn [fst].
  assert (X : file_at (run_steps d ss) (locate cwd (sg_path g')) (name ++ lit ".SAV") b5).
  { rewrite P. apply F. unfold files. rewrite S5. right; right; right; right; left. reflexivity. }
  assert (H := proj2 (proj1 O)).
  assert (Z : sg_load_world (run_steps d ss) cwd c fuel g' (name ++ lit ".ZEN") =
    match load_top (c_load (library c)) (c_flags (library c)) fuel (p_obj oCWorld) b5 with
    | Ret (Some r, h) => Ret (Some (r, h)) | Ret (None, _) => Ret None | Throw x => Throw x | Undef => Undef | Fuel => Fuel
    end).
  { apply (load_world_file _ _ _ _ _ _ (name ++ lit ".SAV")); [apply in_zen; exact H | apply zen_ext; exact (proj1 O) | apply sav_name; exact H | exact X]. }
  split; [exact Z|]. split.
  - intros ND'. apply (load_world_file _ _ _ _ _ _ (name ++ lit ".SAV")); [exact H | apply no_dot_ext; exact ND' | apply sav_name; exact H | exact X].
  - intros E. unfold sg_load_current. rewrite E. exact Z.
Qed.
(** A world whose name has a dot is not found under that name. *)
Lemma world_with_dot d cwd c e fuel g to W root name K g' stem ext :
  disk_ok d -> begins_with d cwd (sg_path g) to K -> own_name name ->
  (forall n, In n (five name) -> K [n] <> Some DDir) ->
  all_written (files c e fuel g W root name) -> sg_path g' = to ->
  name = stem ++ x2e :: ext -> stem <> [] -> ~ In x2e ext -> name <> lit ".." -> K [stem ++ lit ".SAV"] = None ->
  ~ In (stem ++ lit ".SAV") (five name) ->
  sg_load_world (run_steps d (fst (sg_save d cwd c e fuel g to W root name))) cwd c fuel g' name = Ret None.
Proof.
  intros M B O ND A P E NS NE NN KN NF. pose proof (saved d cwd c e fuel g to W root name K M B O ND A) as S.
  destruct (sg_save d cwd c e fuel g to W root name) as (ss, o). destruct S as (_ & _ & F). cbn [fst].
  assert (H := proj2 (proj1 O)).
  apply (load_world_none _ _ _ _ _ _ (stem ++ lit ".SAV")); [exact H | | |].
  - rewrite (name_ext name stem ext (lit "SAV") E NE NS NN). reflexivity.
  - apply sav_name. intros I. apply H. rewrite E. apply in_or_app. left. exact I.
  - rewrite P. rewrite F; [exact KN | discriminate |]. intros I. apply in_map_iff in I. destruct I as (x & X & I).
    injection X as ->. contradiction.
Qed.

(* ------------------------------------------------------------------ *)
(** * Crashes *)
Lemma crash_elsewhere d cwd c e fuel g to W root name d' : ~ In x2f name ->
  crashed (fst (sg_save d cwd c e fuel g to W root name)) d d' ->
  forall l, ~ under (locate cwd to) l ->
    dget d' l = dget d l \/ dget d l = None /\ dget d' l = Some DDir /\ under l (locate cwd to).
Proof. intros H C. apply (crashed_outside _ _ _ _ C). apply save_inside. exact H. Qed.
Lemma crash_load d cwd c e fuel g to W root name d' p g0 fuel' : ~ In x2f name ->
  crashed (fst (sg_save d cwd c e fuel g to W root name)) d d' ->
  ~ under (locate cwd to) (locate cwd p) -> ~ under (locate cwd p) (locate cwd to) ->
  sg_load d' cwd c fuel' g0 p = sg_load d cwd c fuel' g0 p /\
  forall r, dget d' (locate cwd p ++ r) = dget d (locate cwd p ++ r).
Proof.
  intros H C N1 N2.
  assert (A : agree d' d (locate cwd p)).
  { intros r. destruct (crash_elsewhere d cwd c e fuel g to W root name d' H C (locate cwd p ++ r)) as [E | (_ & _ & (q & Q))].
    - intros [q Q]. destruct (comparable _ _ _ _ Q); contradiction.
    - exact E.
    - exfalso. apply N2. exists (r ++ q). rewrite app_assoc. exact Q. }
  split; [apply load_agree; exact A | exact A].
Qed.
Lemma crash_in_place d cwd c e fuel g to W root name d' : ~ In x2f name -> same_path (sg_path g) to = true ->
  crashed (fst (sg_save d cwd c e fuel g to W root name)) d d' ->
  forall l, ~ In l (map (fun n => locate cwd to ++ [n]) (five name)) -> dget d' l = dget d l.
Proof.
  intros H S C l N. apply (crashed_elsewhere _ _ _ _ C). unfold sg_save, prepare. rewrite S.
  fold (placed cwd to (files c e fuel g W root name)).
  pose proof (files_steps c e fuel g W root name cwd to H) as Q. destruct (write_files _) as (s', o'). cbn [fst app] in *.
  eapply Forall_impl; [|exact Q]. intros st (n & b & I & ->). cbn. split; [|destruct (locate cwd to); discriminate].
  intros <-. apply N. apply in_map_iff. exists n. auto.
Qed.
Lemma empty_saveinfo c fuel : exists x, load_saveinfo c fuel [] = Throw x.
Proof.
  exists ParserError. unfold load_saveinfo, load_top. assert (E : ar_open (mkR [] 0) = Throw ParserError) by (vm_compute; reflexivity).
  rewrite E. reflexivity.
Qed.
Lemma write_files_head p o l : exists b ss, fst (write_files ((p, o) :: l)) = SWrite p b :: ss.
Proof. cbn. destruct o; [|eexists; eexists; reflexivity..]. destruct (write_files l). eexists. eexists. reflexivity. Qed.
Lemma crash_loses d cwd c e fuel g to W root name : to <> [] -> ~ In x2f name -> same_path (sg_path g) to = true ->
  is_dir d (locate cwd to) = true -> is_dir d (locate cwd to ++ [lit "SAVEINFO.SAV"]) = false ->
  exists d', crashed (fst (sg_save d cwd c e fuel g to W root name)) d d' /\
    forall g0 fuel', exists x, snd (sg_load d' cwd c fuel' g0 to) = Throw x.
Proof.
  intros N H S D ND. set (lt := locate cwd to) in *.
  exists (dset d (lt ++ [lit "SAVEINFO.SAV"]) (DFile [])). split.
  - unfold sg_save, prepare. rewrite S. fold (placed cwd to (files c e fuel g W root name)).
    rewrite (placed_eq _ _ _ (files_ok c e fuel g W root name H)). fold lt.
    assert (W' : forall any, run_step d (SWrite (lt ++ [lit "SAVEINFO.SAV"]) any) = dset d (lt ++ [lit "SAVEINFO.SAV"]) (DFile any)).
    { intros any. unfold run_step, writable. rewrite removelast_snoc, D, ND. reflexivity. }
    assert (L : exists b ss, fst (write_files (map (fun p => (lt ++ [fst p], snd p)) (files c e fuel g W root name))) = SWrite (lt ++ [lit "SAVEINFO.SAV"]) b :: ss).
    { unfold files. cbn [map fst snd]. apply write_files_head. }
    destruct L as (b & ss & L). destruct (write_files _) as (s', o'). cbn [fst app] in *. rewrite L, <- W'. apply crash_torn.
  - intros g0 fuel'. destruct (empty_saveinfo c fuel') as (x & X). exists x. unfold sg_load. fold lt. cbv zeta.
    assert (NN : lt ++ [lit "SAVEINFO.SAV"] <> []) by (destruct lt; discriminate).
    assert (F : file_at (dset d (lt ++ [lit "SAVEINFO.SAV"]) (DFile [])) lt (lit "SAVEINFO.SAV") []).
    { unfold file_at. rewrite dget_dset by exact NN. rewrite loc_eqb_refl. reflexivity. }
    assert (D' : is_dir (dset d (lt ++ [lit "SAVEINFO.SAV"]) (DFile [])) lt = true).
    { apply is_dir_spec. rewrite dget_dset by exact NN. destruct (loc_eqP (lt ++ [lit "SAVEINFO.SAV"]) lt) as [E|].
      - apply (f_equal (@length _)) in E. rewrite app_length in E. cbn in E. lia.
      - apply is_dir_spec. exact D. }
    rewrite D'. destruct to; [congruence|]. cbn [negb].
    rewrite (find_exact _ _ (lit "SAVEINFO.SAV") _ eq_refl F). unfold read_file. rewrite F. cbn [obind]. rewrite X. reflexivity.
Qed.

(* ------------------------------------------------------------------ *)
(** * What goes wrong *)
(** Without a thumbnail. *)
Lemma empty_thumb : load_thumb [] = Throw ParserError.
Proof. vm_compute. reflexivity. Qed.
Lemma load_bad_thumb d cwd c fuel g p b1 b2 x : file_at d (locate cwd p) (lit "SAVEINFO.SAV") b1 ->
  file_at d (locate cwd p) (lit "THUMB.SAV") b2 -> load_thumb b2 = Throw x ->
  snd (sg_load d cwd c fuel g p) <> Ret tt.
Proof.
  intros F1 F2 L. unfold sg_load. cbv zeta.
  destruct (negb _); [discriminate|].
  rewrite (find_exact _ _ (lit "SAVEINFO.SAV") _ eq_refl F1), (find_exact _ _ (lit "THUMB.SAV") _ eq_refl F2).
  assert (R1 : read_file d (locate cwd p ++ [lit "SAVEINFO.SAV"]) = Ret b1) by (unfold read_file; rewrite F1; reflexivity).
  assert (R2 : read_file d (locate cwd p ++ [lit "THUMB.SAV"]) = Ret b2) by (unfold read_file; rewrite F2; reflexivity).
  rewrite R1, R2. unfold obind at 1 2. rewrite L.
  destruct (load_saveinfo c fuel b1); discriminate.
Qed.
Lemma written_in l p : all_written l -> In p l -> exists b, snd p = Ret b.
Proof. intros A I. exact (proj1 (Forall_forall _ _) A p I). Qed.
Lemma files_first c e fuel g W root name :
  In (lit "SAVEINFO.SAV", save_saveinfo c (e 0%nat) (e 1%nat) fuel (sg_meta g)) (files c e fuel g W root name).
Proof. left. reflexivity. Qed.
Lemma no_thumb d cwd c e fuel g to W root name K g0 fuel' :
  disk_ok d -> begins_with d cwd (sg_path g) to K -> own_name name ->
  (forall n, In n (five name) -> K [n] <> Some DDir) ->
  all_written (files c e fuel g W root name) -> sg_thumb g = None ->
  snd (sg_load (run_steps d (fst (sg_save d cwd c e fuel g to W root name))) cwd c fuel' g0 to) <> Ret tt.
Proof.
  intros M B O ND A T.
  pose proof (saved d cwd c e fuel g to W root name K M B O ND A) as S.
  destruct (sg_save d cwd c e fuel g to W root name) as (ss, o). destruct S as (_ & F & _). cbn [fst] in *.
  assert (F1 : exists b1, file_at (run_steps d ss) (locate cwd to) (lit "SAVEINFO.SAV") b1).
  { destruct (written_in _ _ A (files_first c e fuel g W root name)) as (b1 & E). exists b1. apply F. rewrite <- E. apply files_first. }
  destruct F1 as (b1 & F1). apply (load_bad_thumb _ _ _ _ _ _ b1 [] ParserError); [exact F1 | | exact empty_thumb].
  apply F. unfold files. rewrite T. right; left. reflexivity.
Qed.
(** Where the loaded save game and the target are the same directory, by another name, or the
    target contains the loaded one, the rest of the loaded save game is lost. *)
Lemma files_lost d cwd c e fuel g to W root name :
  disk_ok d -> to <> [] -> ~ In x2f name -> same_path (sg_path g) to = false ->
  under (locate cwd to) (locate cwd (sg_path g)) -> there d cwd to = true ->
  (forall p, p <> locate cwd to -> under p (locate cwd to) -> forall b, dget d p <> Some (DFile b)) -> locate cwd to <> [] ->
  forall r, r <> [] -> ~ In r (map (fun n => [n]) (five name)) ->
    dget (run_steps d (fst (sg_save d cwd c e fuel g to W root name))) (locate cwd to ++ r) = None.
Proof.
  intros M N H S U T A NL r R I. set (lt := locate cwd to) in *.
  destruct (cleared d cwd to M N) as (rm & E & A1 & A2 & A3 & A4). rewrite T in E. fold lt in E, A2, A3.
  assert (P : exists s, fst (prepare d cwd (sg_path g) to) = s /\ dget (run_steps d s) (lt ++ r) = None /\ snd (prepare d cwd (sg_path g) to) = Ret tt).
  { unfold prepare. rewrite S, T. fold lt. rewrite E. set (d1 := run_steps d rm) in *.
    assert (TH : there d1 cwd (sg_path g) = false).
    { unfold there. destruct (sg_path g) eqn:G; [reflexivity|]. rewrite <- G in *. destruct U as (q & Q). rewrite Q.
      unfold exists_at. rewrite A3 by (destruct lt; [congruence | discriminate]). reflexivity. }
    rewrite TH. destruct (making_ok d1 lt []) as (ls & E' & F & _).
    { intros p q X NP b. cbn. destruct (loc_eqP p lt) as [->|NE].
      - rewrite <- (app_nil_r lt) at 1. rewrite A3 by (rewrite app_nil_r; exact NP). discriminate.
      - rewrite A2; [apply A; [exact NE | exists q; exact X]|]. intros [z Y]. apply NE.
        rewrite X in Y. apply (f_equal (@length _)) in Y as Z. rewrite !app_length in Z. destruct q; [|cbn in Z; lia].
        rewrite app_nil_r in X. symmetry. exact X. }
    rewrite E'. cbn [fst snd]. eexists. split; [reflexivity|]. split; [|reflexivity].
    unfold run_steps. rewrite fold_left_app. fold (run_steps d rm). fold d1. change (fold_left run_step ?l ?x) with (run_steps x l).
    rewrite run_mkdirs, A3 by (destruct lt; [congruence | discriminate]).
    destruct (existsb _ ls) eqn:X; [|reflexivity]. exfalso. apply existsb_exists in X. destruct X as (k & J & Y).
    apply loc_eqb_spec in Y. subst k. rewrite Forall_forall in F. destruct (F _ J) as (p & _ & (q & Q) & Y & _).
    cbn in Y. subst p. apply (f_equal (@length _)) in Q. rewrite !app_length in Q. destruct r; [congruence | cbn in Q; lia]. }
  unfold sg_save. destruct (prepare d cwd (sg_path g) to) as (s, o). cbn [fst snd] in P. destruct P as (s0 & <- & P & ->).
  fold (placed cwd to (files c e fuel g W root name)).
  pose proof (files_steps c e fuel g W root name cwd to H) as Q. destruct (write_files _) as (s', o'). cbn [fst] in *.
  unfold run_steps. rewrite fold_left_app. change (fold_left run_step ?l ?x) with (run_steps x l). rewrite <- P.
  apply (crashed_elsewhere s'); [apply crashed_done|]. eapply Forall_impl; [|exact Q]. intros st (n & b & J & ->). cbn.
  split; [|destruct (locate cwd to); discriminate]. intros X. apply app_inv_head in X. apply I. subst r. apply (in_map (fun n => [n])). exact J.
Qed.
(** Loading from a directory that does not exist, then saving to it. *)
Lemma same_path_refl p : same_path p p = true.
Proof.
  unfold same_path. rewrite !Bool.eqb_reflx, loc_eqb_refl. destruct (pieces p); reflexivity.
Qed.
Lemma save_into_nothing d cwd c e fuel g p W root name fuel' :
  disk_ok d -> dget d (locate cwd p) = None -> ~ In x2f name -> all_written (files c e fuel g W root name) ->
  let g1 := fst (sg_load d cwd c fuel' g p) in
  snd (sg_load d cwd c fuel' g p) = Throw ParserError /\
  exists ss, sg_save d cwd c e fuel g1 p W root name = (ss, Ret g1) /\ forall l, dget (run_steps d ss) l = dget d l.
Proof.
  intros M E H A g1.
  assert (D : is_dir d (locate cwd p) = false) by (unfold is_dir; rewrite E; reflexivity).
  assert (G : sg_load d cwd c fuel' g p = (mkSg (sg_meta g) (sg_state g) (sg_graph g) (sg_thumb g) p, Throw ParserError)).
  { unfold sg_load. cbv zeta. rewrite D. destruct p; reflexivity. }
  split; [rewrite G; reflexivity|]. unfold g1. rewrite G. cbn [fst]. clear g1 G.
  set (g1 := mkSg _ _ _ _ p). unfold sg_save, prepare. change (sg_path g1) with p. rewrite same_path_refl.
  change (files c e fuel g1 W root name) with (files c e fuel g W root name).
  fold (placed cwd p (files c e fuel g W root name)). rewrite (placed_eq _ _ _ (files_ok c e fuel g W root name H)).
  destruct (write_files_all _ A) as (ws & F & Q). rewrite Q. cbn [app]. eexists. split; [reflexivity|].
  clear - E. induction ws as [|(n, b) ws IH]; intros l; [reflexivity|].
  cbn [map fst snd run_steps fold_left run_step]. unfold writable at 1. rewrite removelast_snoc. unfold is_dir at 1. rewrite E. cbn [andb]. apply IH.
Qed.

(* ------------------------------------------------------------------ *)
(** * Spellings *)
Lemma find_spelled d l name n b : only_spelling d l name n -> file_at d l n b -> find_file d l name = Some n.
Proof.
  intros (S & U) F. unfold find_file. apply least_is.
  - apply filter_In. split; [apply names_spec; rewrite F; discriminate|]. rewrite LVfs.iequals_same. exact S.
  - intros n' I. apply filter_In in I. destruct I as (I & E). apply names_spec in I. rewrite LVfs.iequals_same in E.
    rewrite (U n' I E). apply ltb_irrefl.
Qed.
Lemma loaded_spelled d cwd c fuel g p n1 n2 n4 b1 b2 b4 m t s h : p <> [] -> is_dir d (locate cwd p) = true ->
  only_spelling d (locate cwd p) (lit "SAVEINFO.SAV") n1 -> only_spelling d (locate cwd p) (lit "THUMB.SAV") n2 ->
  only_spelling d (locate cwd p) (lit "SAVEDAT.SAV") n4 ->
  file_at d (locate cwd p) n1 b1 -> file_at d (locate cwd p) n2 b2 -> file_at d (locate cwd p) n4 b4 ->
  load_saveinfo c fuel b1 = Ret m -> load_thumb b2 = Ret t -> load_savedat c fuel (sg_state g) b4 = Ret (s, h) ->
  sg_load d cwd c fuel g p = (mkSg m s (heap_graph h) (Some t) p, Ret tt).
Proof.
  intros N D U1 U2 U4 F1 F2 F4 L1 L2 L4. unfold sg_load. rewrite D. destruct p as [|ch p]; [congruence|]. cbn [negb].
  rewrite (find_spelled _ _ _ _ _ U1 F1), (find_spelled _ _ _ _ _ U2 F2), (find_spelled _ _ _ _ _ U4 F4).
  unfold read_file. rewrite F1, F2, F4. cbn [obind]. rewrite L1, L2, L4. reflexivity.
Qed.

(* ------------------------------------------------------------------ *)
(** * The rest *)
Lemma nested_lost d cwd c e fuel g to W root name :
  disk_ok d -> to <> [] -> ~ In x2f name -> same_path (sg_path g) to = false ->
  under (locate cwd to) (locate cwd (sg_path g)) -> locate cwd to <> locate cwd (sg_path g) -> there d cwd to = true ->
  (forall p, p <> locate cwd to -> under p (locate cwd to) -> forall b, dget d p <> Some (DFile b)) -> locate cwd to <> [] ->
  forall r, r <> [] -> dget (run_steps d (fst (sg_save d cwd c e fuel g to W root name))) (locate cwd (sg_path g) ++ r) = None.
Proof.
  intros M N H S U NE T A NL r R. destruct U as (q & Q). rewrite Q, <- app_assoc.
  assert (NQ : q <> []) by (intros ->; rewrite app_nil_r in Q; congruence).
  apply files_lost; try assumption.
  - exists q. exact Q.
  - destruct q; [congruence | discriminate].
  - intros I. apply in_map_iff in I. destruct I as (n & X & _). apply (f_equal (@length _)) in X. rewrite app_length in X.
    destruct q; [congruence|]. destruct r; [congruence|]. cbn in X. lia.
Qed.
Lemma last_write D l b : dget D (removelast l) = Some DDir -> dget D l <> Some DDir -> l <> [] ->
  dget (run_step D (SWrite l b)) l = Some (DFile b).
Proof.
  intros P N NN. cbn. unfold writable. rewrite (proj2 (is_dir_spec _ _) P). destruct (is_dir D l) eqn:E; [apply is_dir_spec in E; contradiction|].
  cbn. rewrite dget_dset by exact NN. rewrite loc_eqb_refl. reflexivity.
Qed.
Lemma writes_keep_no_dir l D k : Forall (fun s => exists p b, s = SWrite p b /\ p <> []) l -> dget D k <> Some DDir -> dget (run_steps D l) k <> Some DDir.
Proof.
  revert D; induction l as [|s l IH]; intros D F N; [exact N|]. inversion F as [|? ? (p & b & -> & NP) F']; subst. cbn. apply IH; [exact F'|].
  destruct (writable D p); [|exact N]. rewrite dget_dset by exact NP. destruct (loc_eqb p k); [discriminate | exact N].
Qed.
Lemma write_files_last l p b : all_written l ->
  exists s, forall lt, write_files (map (fun p => (lt ++ [fst p], snd p)) (l ++ [(p, Ret b)])) = (s lt ++ [SWrite (lt ++ [p]) b], Ret tt).
Proof.
  intros A. destruct (write_files_all (l ++ [(p, Ret b)])) as (ws & E & H).
  { apply Forall_app. split; [exact A|]. constructor; [exists b; reflexivity | constructor]. }
  assert (W : ws <> []) by (intros ->; destruct l; discriminate). destruct (exists_last W) as (ws' & (n', b') & ->).
  rewrite map_app in E. apply app_inj_tail in E. destruct E as (_ & E). cbn in E. injection E as -> ->.
  exists (fun lt => map (fun p => SWrite (lt ++ [fst p]) (snd p)) ws'). intros lt. rewrite H, map_app. reflexivity.
Qed.
Lemma world_last d cwd c e fuel g to W root name K b5 :
  disk_ok d -> begins_with d cwd (sg_path g) to K -> plain_name name ->
  (forall n, In n (five name) -> K [n] <> Some DDir) ->
  all_written (files c e fuel g W root name) -> file_world c (e 4%nat) (e 5%nat) W root fuel = Ret b5 ->
  file_at (run_steps d (fst (sg_save d cwd c e fuel g to W root name))) (locate cwd to) (name ++ lit ".SAV") b5.
Proof.
  intros M B O ND A E5. destruct (prepared d cwd _ to K M B) as (s & P & D & C). unfold sg_save. rewrite P.
  fold (placed cwd to (files c e fuel g W root name)).
  rewrite (placed_eq _ _ _ (files_ok c e fuel g W root name (proj2 O))).
  set (four := [(lit "SAVEINFO.SAV", save_saveinfo c (e 0%nat) (e 1%nat) fuel (sg_meta g)); (lit "THUMB.SAV", file_thumb (sg_thumb g));
    (lit "SAVEHDR.SAV", Ret (name ++ lit ".ZEN" ++ [x0a])); (lit "SAVEDAT.SAV", save_savedat c (e 2%nat) (e 3%nat) (sg_graph g) fuel (sg_state g))]).
  assert (FE : files c e fuel g W root name = four ++ [(name ++ lit ".SAV", Ret b5)]) by (unfold files; rewrite E5; reflexivity).
  pose proof (files_steps c e fuel g W root name cwd to (proj2 O)) as Q.
  rewrite (placed_eq _ _ _ (files_ok c e fuel g W root name (proj2 O))) in Q. rewrite FE in *.
  assert (A' : all_written four) by (apply Forall_app in A; tauto). clearbody four.
  destruct (write_files_last four (name ++ lit ".SAV") b5 A') as (sl & H). rewrite H in *. cbn [fst] in *.
  apply Forall_app in Q. destruct Q as (Q & _).
  unfold run_steps. rewrite !fold_left_app. fold (run_steps d s). change (fold_left run_step (sl ?l) ?x) with (run_steps x (sl l)).
  cbn [fold_left]. apply last_write.
  - rewrite removelast_snoc. rewrite <- D. apply (crashed_elsewhere (sl (locate cwd to))); [apply crashed_done|].
    eapply Forall_impl; [|exact Q]. intros st (n & b & _ & ->). cbn. split; [|destruct (locate cwd to); discriminate].
    intros X. apply (f_equal (@length _)) in X. rewrite app_length in X. cbn in X. lia.
  - apply writes_keep_no_dir; [|rewrite C by discriminate; apply ND; apply in_or_app; right; left; reflexivity].
    eapply Forall_impl; [|exact Q]. intros st (n & b & _ & ->). exists (locate cwd to ++ [n]), b. split; [reflexivity | destruct (locate cwd to); discriminate].
  - destruct (locate cwd to); discriminate.
Qed.
(** Loading into an object that held something. *)
Lemma load_over d cwd c fuel g p : find_file d (locate cwd p) (lit "THUMB.SAV") <> None ->
  st_missions (sg_state g) = [] -> Forall (fun x => sy_values x = []) (st_symbols (sg_state g)) ->
  snd (sg_load d cwd c fuel g p) = Ret tt -> sg_load d cwd c fuel g p = sg_load d cwd c fuel sg_new p.
Proof.
  intros NT NM NS. unfold sg_load. cbv zeta. destruct (negb _); [discriminate|].
  destruct (find_file d (locate cwd p) (lit "SAVEINFO.SAV")) as [n|]; [|discriminate].
  destruct (obind _ (load_saveinfo c fuel)); try discriminate.
  destruct (find_file d (locate cwd p) (lit "THUMB.SAV")) as [n'|]; [|congruence].
  destruct (obind _ load_thumb); try discriminate.
  destruct (find_file d (locate cwd p) (lit "SAVEDAT.SAV")) as [n''|]; [|discriminate].
  assert (E : obind (read_file d (locate cwd p ++ [n''])) (load_savedat c fuel (sg_state g)) =
              obind (read_file d (locate cwd p ++ [n''])) (load_savedat c fuel (sg_state sg_new))).
  { unfold obind. destruct (read_file _ _); try reflexivity. change (sg_state sg_new) with st_new. apply loading_fresh; assumption. }
  rewrite E. destruct (obind _ (load_savedat c fuel (sg_state sg_new))) as [(x, h)| | |]; try discriminate. reflexivity.
Qed.
Lemma thumb_stays d cwd c fuel g p : find_file d (locate cwd p) (lit "THUMB.SAV") = None ->
  sg_thumb (fst (sg_load d cwd c fuel g p)) = sg_thumb g.
Proof.
  intros NT. unfold sg_load. cbv zeta. destruct (negb _); [reflexivity|].
  destruct (find_file d (locate cwd p) (lit "SAVEINFO.SAV")) as [n|]; [|reflexivity].
  destruct (obind _ (load_saveinfo c fuel)); try reflexivity. rewrite NT.
  destruct (find_file d (locate cwd p) (lit "SAVEDAT.SAV")) as [n''|]; [|reflexivity].
  destruct (obind _ (load_savedat c fuel (sg_state g))) as [(x, h)| | |]; reflexivity.
Qed.

Lemma other_files d cwd c e fuel g to W root name K :
  disk_ok d -> begins_with d cwd (sg_path g) to K -> own_name name ->
  (forall n, In n (five name) -> K [n] <> Some DDir) ->
  all_written (files c e fuel g W root name) ->
  let d' := run_steps d (fst (sg_save d cwd c e fuel g to W root name)) in
  (forall r, r <> [] -> ~ In r (map (fun n => [n]) (five name)) -> dget d' (locate cwd to ++ r) = K r) /\
  (forall l, ~ under (locate cwd to) l ->
     dget d' l = dget d l \/ dget d l = None /\ dget d' l = Some DDir /\ under l (locate cwd to)).
Proof.
  intros M B O ND A d'. split.
  - pose proof (saved d cwd c e fuel g to W root name K M B O ND A) as S. unfold d'. clear d'.
    destruct (sg_save d cwd c e fuel g to W root name) as (ss, o). destruct S as (_ & _ & F). exact F.
  - exact (crash_elsewhere d cwd c e fuel g to W root name d' (proj2 (proj1 O)) (crashed_done _ d)).
Qed.
Lemma reserved_name d cwd c e fuel g to W root K b5 :
  disk_ok d -> begins_with d cwd (sg_path g) to K ->
  (forall n, In n (five (lit "SAVEDAT")) -> K [n] <> Some DDir) ->
  all_written (files c e fuel g W root (lit "SAVEDAT")) -> file_world c (e 4%nat) (e 5%nat) W root fuel = Ret b5 ->
  file_at (run_steps d (fst (sg_save d cwd c e fuel g to W root (lit "SAVEDAT")))) (locate cwd to) (lit "SAVEDAT.SAV") b5.
Proof.
  intros M B ND A E. apply (world_last d cwd c e fuel g to W root (lit "SAVEDAT") K b5); try assumption.
  split; [discriminate | cbn; intuition discriminate].
Qed.
Lemma files_there d cwd c e fuel g to W root name K :
  disk_ok d -> begins_with d cwd (sg_path g) to K -> own_name name ->
  (forall n, In n (five name) -> K [n] <> Some DDir) ->
  all_written (files c e fuel g W root name) ->
  let '(ss, o) := sg_save d cwd c e fuel g to W root name in
  o = Ret (mkSg (sg_meta g) (sg_state g) (sg_graph g) (sg_thumb g) to) /\
  (forall n b, In (n, Ret b) (files c e fuel g W root name) -> file_at (run_steps d ss) (locate cwd to) n b) /\
  file_at (run_steps d ss) (locate cwd to) (lit "SAVEHDR.SAV") (name ++ lit ".ZEN" ++ [x0a]) /\
  map fst (files c e fuel g W root name) = five name.
Proof.
  intros M B O ND A. pose proof (saved d cwd c e fuel g to W root name K M B O ND A) as S.
  destruct (sg_save d cwd c e fuel g to W root name) as (ss, o). destruct S as (S1 & S2 & _).
  split; [exact S1|]. split; [exact S2|]. split; [|reflexivity]. apply S2. right; right; left. reflexivity.
Qed.
