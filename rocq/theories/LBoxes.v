From Coq Require Import QArith QArith.Qminmax Lqa.
From Verif Require Import MBase MStream SStream MBoxes SBoxes LBase LStream LStreamHist.
Local Open Scope N_scope.

Lemma vec3_reads v : vec3_ok v ->
  reads read_vec3 (le_enc 4 (v3x v) ++ le_enc 4 (v3y v) ++ le_enc 4 (v3z v)) v.
Proof. intros (? & ? & ?). apply reads_vec3; assumption. Qed.
Global Hint Resolve vec3_reads : reads.
Lemma vec2_reads v : vec2_ok v -> reads read_vec2 (le_enc 4 (v2x v) ++ le_enc 4 (v2y v)) v.
Proof. intros (? & ?). apply reads_vec2; assumption. Qed.
Global Hint Resolve vec2_reads : reads.

Lemma date_round_trip : round_trips date_save date_load date_ok.
Proof.
  intros d (H1 & H2 & H3 & H4 & H5 & H6). eexists. split.
  - unfold date_save. wsteps.
  - unfold date_load. destruct d; cbn -[N.pow] in *. do 6 rstep.
    eapply reads_if_last; [apply reads_ushort; reflexivity|]. apply reads_ret.
Qed.

Definition aabb_enc (b : aabb) : bytes :=
  (le_enc 4 (v3x (bb_min b)) ++ le_enc 4 (v3y (bb_min b)) ++ le_enc 4 (v3z (bb_min b))) ++
  le_enc 4 (v3x (bb_max b)) ++ le_enc 4 (v3y (bb_max b)) ++ le_enc 4 (v3z (bb_max b)).
Lemma aabb_writes b : writes (aabb_save b) (aabb_enc b).
Proof. unfold aabb_save, aabb_enc. wsteps. Qed.
Lemma aabb_reads b : aabb_ok b -> reads aabb_load (aabb_enc b) b.
Proof. intros [H1 H2]. unfold aabb_load, aabb_enc. rsteps. rdone. Qed.
Global Hint Resolve aabb_reads : reads.
Global Hint Resolve aabb_writes : writes.
Lemma aabb_round_trip : round_trips aabb_save aabb_load aabb_ok.
Proof. intros b H. eauto using aabb_writes, aabb_reads. Qed.

(** *** Oriented boxes *)
Fixpoint obb_ind' (P : obb -> Prop)
  (H : forall c a0 a1 a2 hw ch, Forall P ch -> P (Obb c a0 a1 a2 hw ch)) (o : obb) : P o :=
  match o with
  | Obb c a0 a1 a2 hw ch =>
      H c a0 a1 a2 hw ch
        ((fix go (l : list obb) : Forall P l :=
            match l with
            | [] => Forall_nil P
            | x :: l' => Forall_cons x (obb_ind' P H x) (go l')
            end) ch)
  end.

Definition v3_enc (v : vec3) : bytes := le_enc 4 (v3x v) ++ le_enc 4 (v3y v) ++ le_enc 4 (v3z v).

Fixpoint obb_enc (o : obb) : bytes :=
  match o with
  | Obb c a0 a1 a2 hw ch =>
      v3_enc c ++ v3_enc a0 ++ v3_enc a1 ++ v3_enc a2 ++ v3_enc hw ++ le_enc 2 (len ch) ++
      (fix go (l : list obb) := match l with [] => [] | x :: l' => obb_enc x ++ go l' end) ch
  end.
Lemma obb_enc_eq c a0 a1 a2 hw ch : obb_enc (Obb c a0 a1 a2 hw ch) =
  v3_enc c ++ v3_enc a0 ++ v3_enc a1 ++ v3_enc a2 ++ v3_enc hw ++ le_enc 2 (len ch) ++ flat_map obb_enc ch.
Proof.
  reflexivity.
Qed.

Lemma obb_save_eq c a0 a1 a2 hw ch : obb_save (Obb c a0 a1 a2 hw ch) =
  (write_vec3 c ;; write_vec3 a0 ;; write_vec3 a1 ;; write_vec3 a2 ;; write_vec3 hw ;;
   write_ushort (u16 (len ch)) ;; iterM obb_save ch)%m.
Proof.
  cbn [obb_save].
  assert (E : (fix go (l : list obb) : wr unit :=
         match l with [] => ret tt | x :: l' => bind (obb_save x) (fun _ => go l') end) ch = iterM obb_save ch).
  { induction ch as [|x l IH]; [reflexivity|]. cbn [iterM]. rewrite <- IH. reflexivity. }
  rewrite E. reflexivity.
Qed.

Lemma obb_writes o : obb_ok o -> writes (obb_save o) (obb_enc o).
Proof.
  induction o as [c a0 a1 a2 hw ch IH] using obb_ind'. intros H. inversion H; subst.
  rewrite obb_save_eq, obb_enc_eq. unfold u16. rewrite N.mod_small by assumption.
  do 5 (apply writes_seq; [apply writes_vec3|]).
  apply writes_seq; [apply writes_ushort|].
  apply writes_iter. intros x Hx. rewrite Forall_forall in IH. apply IH; [exact Hx|].
  match goal with h : Forall obb_ok _ |- _ => rewrite Forall_forall in h; apply h, Hx end.
Qed.

Fixpoint obb_depth (o : obb) : nat :=
  match o with Obb _ _ _ _ _ ch => S (fold_right (fun x n => Nat.max (obb_depth x) n) 0%nat ch) end.

Lemma obb_depth_child x ch c a0 a1 a2 hw : In x ch -> (obb_depth x < obb_depth (Obb c a0 a1 a2 hw ch))%nat.
Proof.
  intros H. cbn [obb_depth]. apply Nat.lt_succ_r.
  induction ch as [|y ch IH]; [contradiction|]. cbn [fold_right].
  destruct H as [->|H]; [lia|]. specialize (IH H). lia.
Qed.

Lemma flat_map_len_in {A} (f : A -> bytes) x l : In x l -> (length (f x) <= length (flat_map f l))%nat.
Proof.
  induction l as [|y l IH]; [contradiction|]. cbn [flat_map]. rewrite app_length.
  intros [->|H]; [lia|]. specialize (IH H). lia.
Qed.

Lemma obb_depth_len o : (obb_depth o <= length (obb_enc o))%nat.
Proof.
  induction o as [c a0 a1 a2 hw ch IH] using obb_ind'. rewrite obb_enc_eq, !app_length.
  unfold v3_enc. rewrite !app_length, !length_le_enc.
  cbn [obb_depth].
  assert (G : (fold_right (fun x n => Nat.max (obb_depth x) n) 0%nat ch <= length (flat_map obb_enc ch))%nat).
  { induction IH as [|x l Hx Hl IHl]; [cbn; lia|]. cbn [fold_right flat_map]. rewrite app_length. lia. }
  lia.
Qed.

Lemma obb_reads_f o : obb_ok o -> forall fuel, (obb_depth o <= fuel)%nat -> reads (obb_load_f fuel) (obb_enc o) o.
Proof.
  induction o as [c a0 a1 a2 hw ch IH] using obb_ind'. intros H fuel Hf. inversion H; subst.
  destruct fuel as [|fuel]; [cbn [obb_depth] in Hf; lia|].
  rewrite obb_enc_eq. cbn [obb_load_f].
  do 5 (eapply reads_bind; [apply vec3_reads; assumption|]).
  eapply reads_bind; [apply reads_ushort; assumption|].
  eapply reads_if_last; [|apply reads_ret].
  apply reads_repM; [unfold len; lia|].
  intros x Hx. rewrite Forall_forall in IH. apply IH; [exact Hx| |].
  - match goal with h : Forall obb_ok _ |- _ => rewrite Forall_forall in h; apply h, Hx end.
  - pose proof (obb_depth_child x ch c a0 a1 a2 hw Hx). lia.
Qed.

Lemma obb_reads o : obb_ok o -> reads obb_load (obb_enc o) o.
Proof.
  intros H pre post _ Hl. unfold obb_load. cbn [rdata rpos].
  apply (obb_reads_f o H); [|exact I | exact Hl].
  pose proof (obb_depth_len o). lens. unfold len. lia.
Qed.
Global Hint Resolve obb_reads : reads.
Global Hint Resolve obb_writes : writes.

Lemma obb_round_trip : round_trips obb_save obb_load obb_ok.
Proof. intros o H. eauto using obb_writes, obb_reads. Qed.

(** *** Enclosing box *)
Local Open Scope Q_scope.

Lemma bbox_point_corner o s0 s1 s2 :
  qx (bbox_point o (s0, s1, s2)) == qx (corner o s0 s1 s2) /\
  qy (bbox_point o (s0, s1, s2)) == qy (corner o s0 s1 s2) /\
  qz (bbox_point o (s0, s1, s2)) == qz (corner o s0 s1 s2).
Proof. unfold bbox_point, corner, qscale. cbn [qx qy qz]. repeat split; ring. Qed.

Lemma bbox_fold_contains o l : forall b sg, In sg l ->
  box_contains (fold_left (fun b sg => bbox_add b (bbox_point o sg)) l b) (bbox_point o sg).
Proof.
  assert (Mono : forall l b p, box_contains b p ->
    box_contains (fold_left (fun b sg => bbox_add b (bbox_point o sg)) l b) p).
  { induction l0 as [|s l0 IH]; intros b p H; cbn [fold_left]; [exact H|].
    apply IH. destruct H as ((H1 & H2) & (H3 & H4) & (H5 & H6)).
    unfold box_contains, bbox_add; cbn [fst snd qx qy qz].
    repeat split;
      first [ eapply Qle_trans; [apply Q.le_min_l|assumption]
            | eapply Qle_trans; [eassumption|apply Q.le_max_l] ]. }
  induction l as [|s l IH]; intros b sg Hin; [contradiction|]. cbn [fold_left].
  destruct Hin as [->|Hin]; [|apply IH, Hin].
  apply Mono. unfold box_contains, bbox_add; cbn [fst snd qx qy qz].
  repeat split; (apply Q.le_min_r || apply Q.le_max_r).
Qed.

Lemma as_bbox_contains o s0 s1 s2 : is_sign s0 -> is_sign s1 -> is_sign s2 ->
  box_contains (as_bbox o) (corner o s0 s1 s2).
Proof.
  intros H0 H1 H2.
  assert (Hin : In (s0, s1, s2) bbox_signs).
  { unfold bbox_signs. destruct H0, H1, H2; subst; repeat (first [left; reflexivity | right]). }
  assert (H : box_contains (as_bbox o) (bbox_point o (s0, s1, s2))).
  { unfold as_bbox. apply bbox_fold_contains. exact Hin. }
  destruct (bbox_point_corner o s0 s1 s2) as (Ex & Ey & Ez).
  revert H. generalize (as_bbox o). intros b H.
  unfold box_contains in *. rewrite Ex, Ey, Ez in H. exact H.
Qed.
