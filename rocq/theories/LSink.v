(** Lemmas about writers to files and streams. *)

From Coq Require Import Lia ZifyN ZifyBool ZifyNat.
From Verif Require Import MBase MStream SStream MBoxes MModel MSink SSink SBoxes SFormat LBase LStream LStreamHist LBoxes LFormat LModel LSource.
Local Open Scope N_scope.

Lemma qrun_bind {S A B} step (p : wprog A) (f : A -> wprog B) : forall s : S,
  qrun step (qbind p f) s = obind (qrun step p s) (fun x => qrun step (f (fst x)) (snd x)).
Proof.
  induction p as [[a|e| |]|o k IH]; intros s; try reflexivity. cbn [qbind qrun].
  destruct (step o s) as [[r s']|e| |]; try reflexivity. cbn [obind fst snd]. apply IH.
Qed.

Definition cstep (o : w_call) (st : bytes * N) : outcome (N * (bytes * N)) := Ret (sink_step o st).
Definition st_ok (room : N) (st : bytes * N) : Prop := snd st <= len (fst st) /\ len (fst st) <= room.

Lemma len_grow d pos b : pos <= len d -> len (grow d pos b) = N.max (len d) (pos + len b).
Proof. intros H. unfold grow. lens. lia. Qed.
Lemma step_ok room o st : st_ok room st -> call_inside room st o -> st_ok room (snd (sink_step o st)).
Proof.
  destruct st as [d pos]. unfold st_ok. cbn [fst snd]. intros [H1 H2] Ho. destruct o as [b|off w|]; cbn [sink_step fst snd call_inside] in *.
  - rewrite len_grow by exact H1. lia.
  - destruct Ho as [_ Ho]. unfold in_range in Ho. lia.
  - lia.
Qed.

Lemma put_grow d pos b : pos <= len d -> put d pos b = grow d pos b.
Proof.
  intros H. unfold put, overwrite, grow. destruct (N.ltb_spec (len d) (pos + len b)) as [H1|H1].
  - destruct (N.ltb_spec 0 (len b)) as [H2|H2]; [|lia]. cbn [andb].
    rewrite take_app_l by exact H. rewrite drop_app_r by lia. do 2 f_equal.
    rewrite !drop_all; [reflexivity|lens; lia|lens; lia].
  - reflexivity.
Qed.

Lemma qsim {S A} (step : w_call -> S -> outcome (N * S)) room (g : bytes * N -> S) :
  (forall o st, st_ok room st -> call_inside room st o ->
     step o (g st) = Ret (fst (sink_step o st), g (snd (sink_step o st)))) ->
  forall (p : wprog A) st, st_ok room st -> stays room st p ->
    qrun step p (g st) = relabel g (qrun cstep p st).
Proof.
  intros Hs. induction p as [[a|e| |]|o k IH]; intros st Hp Hi; try reflexivity.
  destruct Hi as [Ho Hi]. cbn [qrun]. rewrite (Hs o st Hp Ho). unfold cstep at 1. cbn [obind fst snd].
  apply IH; [apply step_ok; assumption | exact Hi].
Qed.

Section Sinks.
Variable room : N.
Hypothesis Hroom : room < max_size.

Lemma vec_sim o st : st_ok room st -> call_inside room st o ->
  vec_step o (mkW (fst st) (snd st)) = Ret (fst (sink_step o st), mkW (fst (snd (sink_step o st))) (snd (snd (sink_step o st)))).
Proof.
  destruct st as [d pos]. intros [H1 H2] Ho. cbn [fst snd] in *. destruct o as [b|off w|]; cbn [vec_step sink_step call_inside fst snd] in *.
  - unfold wr_write. cbn [wpos wbuf]. destruct (N.ltb_spec (pos + len b) max_size); [|lia]. cbn [obind snd].
    rewrite <- (put_grow d pos b H1). unfold put. destruct (N.ltb_spec (len d) (pos + len b)); [|reflexivity].
    destruct (N.ltb_spec 0 (len b)); [reflexivity|lia].
  - destruct Ho as [Ho Hr]. unfold wr_seek. cbn [wpos wbuf]. rewrite seek_inside by (assumption || lia). reflexivity.
  - reflexivity.
Qed.
Lemma fw_sim o st : st_ok room st -> call_inside room st o ->
  fw_step o (mkW (fst st) (snd st)) = Ret (fst (sink_step o st), mkW (fst (snd (sink_step o st))) (snd (snd (sink_step o st)))).
Proof.
  destruct st as [d pos]. intros [H1 H2] Ho. cbn [fst snd] in *. destruct o as [b|off w|]; cbn [fw_step sink_step call_inside fst snd wpos wbuf] in *.
  - rewrite put_grow by exact H1. reflexivity.
  - destruct Ho as [Ho Hr]. unfold in_range in Hr. pows.
    replace ((0 <=? seek_target pos (len d) off w) && (seek_target pos (len d) off w <? 9223372036854775808))%Z with true by lia. reflexivity.
  - reflexivity.
Qed.
Lemma os_sim k o st : st_ok room st -> call_inside room st o ->
  os_step o (mkOS k room (fst st) (snd st) false) =
  Ret (fst (sink_step o st), mkOS k room (fst (snd (sink_step o st))) (snd (snd (sink_step o st))) false).
Proof.
  destruct st as [d pos]. intros [H1 H2] Ho. cbn [fst snd] in *. destruct o as [b|off w|]; cbn [os_step sink_step call_inside fst snd] in *.
  - destruct (N.ltb_spec room (pos + len b)); [lia|]. rewrite put_grow by exact H1. reflexivity.
  - destruct Ho as [Ho Hr]. rewrite Hr. unfold in_range in Hr. pows.
    replace ((0 <=? seek_target pos (len d) off w) && (seek_target pos (len d) off w <? 9223372036854775808))%Z with true by lia.
    destruct k; reflexivity.
  - reflexivity.
Qed.

Lemma left_relabel {S A} (c : S -> bytes) (g : bytes * N -> S) (r : outcome (A * (bytes * N))) :
  (forall st, c (g st) = fst st) -> left c (relabel g r) = left fst r.
Proof. intros H. destruct r as [[a s]|e| |]; try reflexivity. cbn. rewrite H. reflexivity. Qed.

Lemma sinks_same {A} (p : wprog A) : stays room ([], 0) p ->
  to_file p = to_vector p /\ forall string, to_stream string room true p = to_vector p.
Proof.
  intros Hi. assert (H0 : st_ok room ([], 0)) by (split; cbn [fst snd]; change (len (@nil byte)) with 0; lia).
  unfold to_file, to_vector, to_stream, os_open, w_empty. cbn [negb].
  pose proof (qsim vec_step room (fun st => mkW (fst st) (snd st)) vec_sim p _ H0 Hi) as E1.
  pose proof (qsim fw_step room (fun st => mkW (fst st) (snd st)) fw_sim p _ H0 Hi) as E2.
  cbn [fst snd] in E1, E2. rewrite E1, E2. split; [reflexivity|]. intros k.
  pose proof (qsim os_step room (fun st => mkOS k room (fst st) (snd st) false) (os_sim k) p _ H0 Hi) as E3. cbn [fst snd] in E3.
  rewrite E3. rewrite !left_relabel by reflexivity. reflexivity.
Qed.

(** ** Appending *)
Definition appends (p : wprog unit) (bs : bytes) : Prop :=
  forall d : bytes, len d + len bs <= room -> stays room (d, len d) p /\
    qrun cstep p (d, len d) = Ret (tt, (d ++ bs, len d + len bs)).

Lemma stays_bind {A B} (p : wprog A) (f : A -> wprog B) : forall st, stays room st p ->
  (forall a st', qrun cstep p st = Ret (a, st') -> stays room st' (f a)) -> stays room st (qbind p f).
Proof.
  induction p as [[a|e| |]|o k IH]; intros st Hi Hf; cbn [qbind]; try exact I.
  - apply (Hf a st). reflexivity.
  - destruct Hi as [Ho Hi]. split; [exact Ho|]. apply IH; [exact Hi|]. intros a st' E. apply (Hf a st'). exact E.
Qed.
Lemma appends_seq p q b1 b2 : appends p b1 -> appends q b2 -> appends (qseq p q) (b1 ++ b2).
Proof.
  intros H1 H2 d Hl. rewrite len_app in Hl. destruct (H1 d) as [I1 R1]; [lia|].
  destruct (H2 (d ++ b1)) as [I2 R2]; [lens; lia|]. rewrite len_app in I2, R2. unfold qseq. split.
  - apply stays_bind; [exact I1|]. intros a st' E. rewrite R1 in E. injection E as _ <-. exact I2.
  - rewrite qrun_bind, R1. cbn [obind fst snd]. etransitivity; [exact R2|]. rewrite <- app_assoc, len_app, N.add_assoc. reflexivity.
Qed.
Lemma grow_end d b : grow d (len d) b = d ++ b.
Proof. unfold grow. rewrite take_all by lia. rewrite drop_all by lia. rewrite app_nil_r. reflexivity. Qed.
Lemma appends_put b : appends (qput b) b.
Proof.
  intros d Hl. unfold qput. cbn [stays call_inside qrun]. split; [split; [exact Hl|exact I]|].
  unfold cstep. cbn [sink_step obind fst snd qret qrun]. rewrite grow_end. reflexivity.
Qed.
Lemma appends_nil : appends (qret tt) [].
Proof. intros d _. split; [exact I|]. cbn. rewrite app_nil_r, N.add_0_r. reflexivity. Qed.
Lemma appends_iter {X} (f : X -> wprog unit) enc l : (forall x, In x l -> appends (f x) (enc x)) -> appends (qiter f l) (flat_map enc l).
Proof.
  induction l as [|x l IH]; intros H; [apply appends_nil|]. cbn [qiter flat_map].
  apply appends_seq; [apply H; left; reflexivity|apply IH; intros y Hy; apply H; right; exact Hy].
Qed.
Lemma appends_line v : appends (qline v) (v ++ [x0a]).
Proof. apply appends_seq; apply appends_put. Qed.

Lemma grow_mid pre (a b : bytes) post : len a = len b -> grow (pre ++ a ++ post) (len pre) b = pre ++ b ++ post.
Proof.
  intros E. unfold grow. rewrite take_app_exact by reflexivity. do 2 f_equal.
  rewrite app_assoc, drop_app_exact; [reflexivity|]. lens. lia.
Qed.
Lemma appends_chunk ty cb payload : appends cb payload -> len payload < 2 ^ 32 -> appends (qchunk ty cb) (chunk_bytes (ty, payload)).
Proof.
  intros Hc Hp d Hl. unfold chunk_bytes in *. cbn [fst snd] in *. rewrite !len_app, !len_le_enc in Hl.
  change (N.of_nat 2) with 2 in Hl. change (N.of_nat 4) with 4 in Hl. pows.
  set (d1 := (d ++ le_enc 2 ty) : bytes). assert (L1 : len d1 = len d + 2) by (unfold d1; lens; lia).
  set (d2 := (d1 ++ le_enc 4 0) : bytes). assert (L2 : len d2 = len d + 6) by (unfold d2; lens; lia).
  destruct (Hc d2) as [I1 R1]; [lia|].
  assert (S1 : sint 64 (len d1) = Z.of_N (len d1)) by (apply sint_small; pows; lia).
  assert (S2 : sint 64 (len d2 + len payload) = Z.of_N (len d2 + len payload)) by (apply sint_small; pows; lia).
  assert (En : (Z.of_N (len d2 + len payload) - Z.of_N (len d1) - 4)%Z = Z.of_N (len payload)) by lia.
  assert (Eu : uint 32 (Z.of_N (len payload)) = len payload) by (apply uint_of_N; pows; lia).
  assert (Eg : grow (d2 ++ payload) (len d1) (le_enc 4 (len payload)) = d1 ++ le_enc 4 (len payload) ++ payload).
  { unfold d2. rewrite <- app_assoc. apply grow_mid. rewrite !len_le_enc. reflexivity. }
  assert (Lg : len (d1 ++ le_enc 4 (len payload) ++ payload) = len d + 6 + len payload) by (lens; lia).
  assert (Er1 : in_range (Z.of_N (len d1)) (len (d2 ++ payload)) = true) by (unfold in_range; lens; lia).
  assert (Er2 : in_range (Z.of_N (len d1 + 4) + Z.of_N (len payload)) (len (d1 ++ le_enc 4 (len payload) ++ payload)) = true)
    by (unfold in_range; lia).
  unfold qchunk. split.
  - cbn [qseq qushort qput qbind stays call_inside sink_step fst snd]. split; [lens; lia|]. rewrite grow_end. fold d1.
    cbn [qret qbind stays call_inside sink_step fst snd]. rewrite !len_le_enc. change (N.of_nat 2) with 2.
    replace (len d + 2) with (len d1) by lia. split; [exact I|]. cbn [qseq quint qput qbind stays call_inside sink_step fst snd].
    rewrite !len_le_enc. change (N.of_nat 4) with 4. split; [lia|]. rewrite grow_end. fold d2. replace (len d1 + 4) with (len d2) by lia.
    cbn [qret qbind]. apply stays_bind; [exact I1|]. intros a st' E. pose proof (eq_trans (eq_sym E) R1) as E0. injection E0 as _ ->.
    cbn [stays call_inside sink_step fst snd seek_target]. split; [exact I|]. rewrite S1, S2, En, N2Z.id, Eu.
    cbn [qseq quint qput qbind qret stays call_inside sink_step fst snd seek_target]. rewrite Eg, !len_le_enc. change (N.of_nat 4) with 4.
    split; [split; [lia|exact Er1]|]. split; [lia|]. split; [split; [pows; lia|exact Er2]|exact I].
  - cbn [qseq qushort qput qbind qrun]. unfold cstep at 1. cbn [sink_step obind fst snd]. rewrite grow_end. fold d1.
    cbn [qret qbind qrun]. unfold cstep at 1. cbn [sink_step obind fst snd]. rewrite !len_le_enc. change (N.of_nat 2) with 2.
    replace (len d + 2) with (len d1) by lia. cbn [qseq quint qput qbind qrun]. unfold cstep at 1. cbn [sink_step obind fst snd].
    rewrite !len_le_enc. change (N.of_nat 4) with 4. rewrite grow_end. fold d2. replace (len d1 + 4) with (len d2) by lia.
    cbn [qret qbind]. unfold qseq. rewrite qrun_bind, R1. cbn [obind fst snd qrun]. unfold cstep at 1. cbn [sink_step obind fst snd].
    rewrite S1, S2, En. unfold cstep at 1. cbn [sink_step obind fst snd seek_target]. rewrite N2Z.id, Eu.
    cbn [qbind quint qput qrun]. unfold cstep at 1. cbn [sink_step obind fst snd qret qbind qrun]. unfold cstep at 1.
    cbn [sink_step obind fst snd seek_target]. rewrite Eg, len_le_enc. change (N.of_nat 4) with 4.
    unfold d1. rewrite <- !app_assoc. do 3 f_equal. lens. lia.
Qed.

Lemma appends_hier h : hier_ok h -> appends (qhier_save h) (flat_map chunk_bytes (hier_chunks h)).
Proof.
  intros H. pose proof (Forall_inv (hier_fits h H)) as [_ Hp]. cbn [snd] in Hp. unfold qhier_save, hier_chunks. destruct H as (H1 & H2 & H3 & H4 & H5 & H6 & H7 & H8 & H9 & H10).
  cbn [flat_map]. rewrite (u16_small _ H2). apply appends_seq.
  { apply appends_chunk; [|exact Hp]. unfold hier_payload. apply appends_seq; [apply appends_put|]. apply appends_seq; [apply appends_put|].
    apply appends_seq; [apply appends_iter; intros x _; unfold qhnode, hnode_bytes; apply appends_seq; [apply appends_line|apply appends_seq; apply appends_put]|].
    unfold aabb_enc, qaabb, v3_enc. repeat (apply appends_seq; [first [apply appends_put|apply appends_seq; apply appends_put]|]). apply appends_put. }
  apply appends_seq.
  { apply appends_chunk; [|unfold date_enc; lens; pows; lia]. apply appends_seq; [|apply appends_line].
    unfold qdate, date_enc. repeat (apply appends_seq; [apply appends_put|]). apply appends_put. }
  rewrite app_nil_r. apply appends_chunk; [apply appends_nil|reflexivity].
Qed.
Lemma appends_all p bs : appends p bs -> len bs <= room ->
  to_vector p = Ret (tt, bs) /\ to_file p = Ret (tt, bs) /\ forall string, to_stream string room true p = Ret (tt, bs).
Proof.
  intros H Hl. destruct (H []) as [Hi Hr]; [exact Hl|]. change (len (@nil byte)) with 0 in *. cbn [app] in Hr.
  destruct (sinks_same p Hi) as [E1 E2]. rewrite E1.
  assert (E : to_vector p = Ret (tt, bs)).
  { assert (H0 : st_ok room ([], 0)) by (split; cbn [fst snd]; change (len (@nil byte)) with 0; lia). unfold to_vector, w_empty.
    pose proof (qsim vec_step room (fun st => mkW (fst st) (snd st)) vec_sim p _ H0 Hi) as X. cbn [fst snd] in X. rewrite X, left_relabel by reflexivity.
    etransitivity; [exact (f_equal (left fst) Hr)|reflexivity]. }
  rewrite E. repeat split. intros k. rewrite E2. exact E.
Qed.
End Sinks.

(** ** Failed streams *)
Lemma failed_writes l : forall k room d p, qrun os_step (qwrites l) (mkOS k room d p true) = Ret (map len l, mkOS k room d p true).
Proof.
  induction l as [|b l IH]; intros k room d p; [reflexivity|]. cbn [qwrites qrun os_step obind fst snd]. rewrite qrun_bind, IH. reflexivity.
Qed.
Fixpoint quiet {A} (p : wprog A) : Prop :=
  match p with QEnd (Ret _) => True | QEnd _ => False | QOp _ k => forall n, quiet (k n) end.
Lemma quiet_bind {A B} (p : wprog A) (f : A -> wprog B) : quiet p -> (forall a, quiet (f a)) -> quiet (qbind p f).
Proof. induction p as [[a|e| |]|o k IH]; cbn; intros H1 H2; try exact H1; [apply H2|]. intros n. apply IH; [apply H1|exact H2]. Qed.
Lemma quiet_failed {A} (p : wprog A) : quiet p -> forall k room d q, exists a,
  qrun os_step p (mkOS k room d q true) = Ret (a, mkOS k room d q true).
Proof.
  induction p as [[a|e| |]|o f IH]; cbn [quiet]; intros H k room d q; try destruct H; [exists a; reflexivity|].
  destruct o as [b|off w|]; cbn [qrun os_step obind fst snd]; apply IH, H.
Qed.
Lemma quiet_iter {X} (f : X -> wprog unit) l : (forall x, quiet (f x)) -> quiet (qiter f l).
Proof. intros H. induction l as [|x l IH]; [exact I|]. apply quiet_bind; [apply H|intros; exact IH]. Qed.
Ltac quiets := repeat first [exact I | apply quiet_iter; intros | apply quiet_bind; [|intros] | intros ?n; exact I
  | progress unfold qhier_save, qchunk, qseq, quint, qushort, qput, qaabb, qvec3, qshort, qmat4, qhnode, qline, qdate | progress (cbn [quiet]; intros)].
Lemma quiet_hier h : quiet (qhier_save h).
Proof. quiets. Qed.
Lemma failed_hier h k room : to_stream k room false (qhier_save h) = Ret (tt, []).
Proof.
  unfold to_stream, os_open. cbn [negb]. destruct (quiet_failed _ (quiet_hier h) k room [] 0) as [[] E]. rewrite E. reflexivity.
Qed.
