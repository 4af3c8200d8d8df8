(** Boxes and dates from and to files and streams. *)

From Coq Require Import Lia ZifyN ZifyBool ZifyNat.
From Verif Require Import MBase MStream SStream MBoxes SBoxes SBsp MSource MSink MSourceBox SSource SSourceTex SSink SFormat LBase LStream LBoxes LFormat LModel LMeshIO LSource LSourceX LSourceY LSourceZ LSink.
Local Open Scope N_scope.

(** ** Reading *)
Lemma mem_rep {A} (p : rprog A) (m : rd A) : (forall s, prun r_step p s = m s) -> forall n s, prun r_step (prep n p) s = repM n m s.
Proof.
  intros H. induction n as [|n IH]; intros s; [reflexivity|]. cbn [prep repM]. rewrite mem_bind. unfold bind at 1 2. rewrite H.
  destruct (m s) as [[a s']|e| |]; try reflexivity. rewrite mem_bind. unfold bind. rewrite IH. destruct (repM n m s') as [[l s'']|e| |]; reflexivity.
Qed.
Lemma mem_obb : forall fuel s, prun r_step (pobb fuel) s = obb_load_f fuel s.
Proof.
  induction fuel as [|fuel IH]; intros s; [reflexivity|]. cbn [pobb obb_load_f].
  do 5 (rewrite mem_bind; unfold bind at 1 2; unfold pvec3 at 1; rewrite mem_get; fold read_vec3;
    match goal with |- context [read_vec3 ?x] => destruct (read_vec3 x) as [[? ?]|?| |] end; try reflexivity).
  rewrite mem_bind; unfold bind at 1 2; unfold pushort at 1; rewrite mem_get; fold read_ushort.
  match goal with |- context [read_ushort ?x] => destruct (read_ushort x) as [[? ?]|?| |] end; try reflexivity.
  rewrite mem_bind. unfold bind. rewrite (mem_rep _ _ IH). destruct (repM _ _ _) as [[? ?]|?| |]; reflexivity.
Qed.
Lemma rep_fuel {A} (m m' : rd A) : (forall s, m s <> Fuel -> m' s = m s) -> forall n s, repM n m s <> Fuel -> repM n m' s = repM n m s.
Proof.
  intros H. induction n as [|n IH]; intros s Hn; [reflexivity|]. cbn [repM] in *. unfold bind at 1 in Hn. unfold bind at 1 3.
  assert (E : m' s = m s) by (apply H; intros C; rewrite C in Hn; apply Hn; reflexivity). rewrite E.
  destruct (m s) as [[a s']|e| |]; try reflexivity. unfold bind in *. rewrite IH; [reflexivity|]. intros C. rewrite C in Hn. apply Hn. reflexivity.
Qed.
Lemma obb_fuel : forall f g s, (f <= g)%nat -> obb_load_f f s <> Fuel -> obb_load_f g s = obb_load_f f s.
Proof.
  induction f as [|f IH]; intros g s Hfg Hn; [destruct (Hn eq_refl)|]. destruct g as [|g]; [lia|].
  cbn [obb_load_f] in *.
  do 5 (unfold bind at 1 in Hn; unfold bind at 1; symmetry; unfold bind at 1; symmetry;
    match goal with |- context [read_vec3 ?x] => destruct (read_vec3 x) as [[? ?]|?| |] end; try reflexivity).
  unfold bind at 1 in Hn; unfold bind at 1; symmetry; unfold bind at 1; symmetry.
  match goal with |- context [read_ushort ?x] => destruct (read_ushort x) as [[? ?]|?| |] end; try reflexivity.
  unfold bind in *. rewrite (rep_fuel (obb_load_f f) (obb_load_f g)); [reflexivity| |].
  - intros t. apply IH. lia.
  - intros C. rewrite C in Hn. apply Hn. reflexivity.
Qed.
Lemma agree_obb fuel : agree fuel (pobb fuel) obb_load.
Proof.
  intros s Hs Hf. rewrite mem_obb. unfold obb_load. pose proof (obb_ends s Hs) as E. unfold obb_load in E.
  apply obb_fuel; [lia|]. intros C. rewrite C in E. exact E.
Qed.
Lemma reads_obb fuel : only_reads (pobb fuel).
Proof.
  induction fuel as [|fuel IH]; [exact I|]. cbn [pobb].
  do 6 (apply reads_bind; [apply reads_get; reflexivity|intros]). apply reads_bind; [apply reads_rep, IH|intros; exact I].
Qed.
Lemma anywhere {A} (p : rprog A) (m : rd A) fuel data : agree fuel p m -> only_reads p -> len data < max_size -> len data < N.of_nat fuel ->
  from_memory p data = of_file m data /\ from_file p data = of_file m data /\ forall string, from_stream string p data = of_file m data.
Proof.
  intros Ha Hp Hl Hf. destruct (reads_same p data Hl Hp) as [F S].
  assert (M : from_memory p data = of_file m data).
  { unfold from_memory, of_file, r_from. rewrite (Ha (mkR data 0)); [|split; cbn [rdata rpos]; [lia|exact Hl]|exact Hf].
    destruct (m (mkR data 0)) as [[a s]|e| |]; reflexivity. }
  split; [exact M|]. split; [rewrite F; exact M|]. intros string. rewrite S. exact M.
Qed.
Lemma box_anywhere data fuel : len data < max_size -> len data < N.of_nat fuel ->
  from_memory (pobb fuel) data = of_file obb_load data /\ from_file (pobb fuel) data = of_file obb_load data /\
  forall string, from_stream string (pobb fuel) data = of_file obb_load data.
Proof. intros Hl Hf. apply (anywhere _ _ fuel); [apply agree_obb|apply reads_obb|exact Hl|exact Hf]. Qed.
Lemma mem_date s : prun r_step pdate s = date_load s.
Proof.
  unfold pdate, date_load.
  rewrite mem_bind; unfold bind at 1 2; unfold puint at 1; rewrite mem_get; fold read_uint.
  match goal with |- context [read_uint ?x] => destruct (read_uint x) as [[? ?]|?| |] end; try reflexivity.
  do 6 (rewrite mem_bind; unfold bind at 1 2; unfold pushort at 1; rewrite mem_get; fold read_ushort;
    match goal with |- context [read_ushort ?x] => destruct (read_ushort x) as [[? ?]|?| |] end; try reflexivity).
Qed.
Lemma date_anywhere data : len data < max_size ->
  from_memory pdate data = of_file date_load data /\ from_file pdate data = of_file date_load data /\
  forall string, from_stream string pdate data = of_file date_load data.
Proof.
  intros Hl. apply (anywhere _ _ (S (N.to_nat (len data)))); [intros s _ _; apply mem_date| |exact Hl|lia].
  unfold pdate. do 7 (apply reads_bind; [apply reads_get; reflexivity|intros]). exact I.
Qed.

(** ** Writing *)
Lemma qobb_eq c a0 a1 a2 hw ch : qobb (Obb c a0 a1 a2 hw ch) =
  qseq (qvec3 c) (qseq (qvec3 a0) (qseq (qvec3 a1) (qseq (qvec3 a2) (qseq (qvec3 hw) (qseq (qushort (u16 (len ch))) (qiter qobb ch)))))).
Proof.
  cbn [qobb]. assert (E : (fix go (l : list obb) : wprog unit := match l with [] => qret tt | x :: l' => qseq (qobb x) (go l') end) ch = qiter qobb ch).
  { induction ch as [|x l IH]; [reflexivity|]. cbn [qiter]. rewrite <- IH. reflexivity. }
  rewrite E. reflexivity.
Qed.
Lemma appends_obb room (Hr : room < max_size) o : obb_ok o -> appends room (qobb o) (obb_enc o).
Proof.
  induction o as [c a0 a1 a2 hw ch IH] using obb_ind'. intros H. inversion H; subst.
  rewrite qobb_eq, obb_enc_eq. unfold u16. rewrite N.mod_small by assumption.
  do 6 (apply appends_seq; [exact Hr|apply (appends_put room Hr)|]).
  apply appends_iter; [exact Hr|]. intros x Hx. rewrite Forall_forall in IH. apply IH; [exact Hx|].
  match goal with h : Forall obb_ok _ |- _ => rewrite Forall_forall in h; apply h, Hx end.
Qed.
Lemma box_sinks o room : obb_ok o -> room < max_size -> exists bs, (len bs < max_size -> file_of (obb_save o) = Ret bs) /\
  (len bs <= room -> to_vector (qobb o) = Ret (tt, bs) /\ to_file (qobb o) = Ret (tt, bs) /\
   forall string, to_stream string room true (qobb o) = Ret (tt, bs)).
Proof.
  intros Ho Hr. exists (obb_enc o). split; [apply file_writes, obb_writes, Ho|]. apply (appends_all room Hr), appends_obb; assumption.
Qed.
(** A box saved to any writer and loaded from any reader. *)
Lemma box_everywhere o : obb_ok o -> exists bs, (len bs < max_size -> file_of (obb_save o) = Ret bs) /\ forall fuel, len bs < max_size -> len bs < N.of_nat fuel ->
  from_memory (pobb fuel) bs = Ret o /\ from_file (pobb fuel) bs = Ret o /\ forall string, from_stream string (pobb fuel) bs = Ret o.
Proof.
  intros Ho. exists (obb_enc o). split; [apply file_writes, obb_writes, Ho|]. intros fuel Hl Hf.
  assert (E : of_file obb_load (obb_enc o) = Ret o).
  { unfold of_file. pose proof (obb_reads o Ho [] [] I) as R. cbn [app] in R. rewrite app_nil_r in R. change (len []) with 0 in R. rewrite (R Hl). reflexivity. }
  rewrite <- E. apply box_anywhere; assumption.
Qed.
Lemma quiet_box o : quiet (qobb o).
Proof.
  induction o as [c a0 a1 a2 hw ch IH] using obb_ind'. rewrite qobb_eq. unfold qseq. do 6 (apply quiet_bind; [intros n; exact I|intros _]).
  induction IH as [|x l Hx _ IHl]; [exact I|]. cbn [qiter]. apply quiet_bind; [exact Hx|intros _; exact IHl].
Qed.
Lemma lost_boxes : forall string room o, to_stream string room false (qobb o) = Ret (tt, []).
Proof.
  intros k room o. unfold to_stream, os_open. cbn [negb]. destruct (quiet_failed _ (quiet_box o) k room [] 0) as [[] E]. rewrite E. reflexivity.
Qed.
