From Coq Require Import Lia ZifyN ZifyBool ZifyNat.
From Verif Require Import MBase MText MLogger SLogger LBase.
Local Open Scope N_scope.

Section H.
Variable handler : N -> N -> bytes -> act.
Hypothesis Hq : forall h l n, only_looks (handler h l n).

Lemma run_looks log h l n a s : only_looks a -> run_act log h l n a s = Ret (repeat (mkSeen h l n (lg_buf s)) (looks a (lg_buf s)), s).
Proof using.
  intros Q. induction Q as [|k Q IH]; [reflexivity|]. cbn [run_act looks repeat]. rewrite IH. reflexivity.
Qed.
Lemma log_message f s l n t : short t -> exists b,
  log handler (S f) l n t s = Ret (message handler (lg_level s, lg_cb s) l n t, mkLog b (lg_cb s) (lg_level s)).
Proof using Hq.
  intros Ht. cbn [log]. unfold message. cbn [fst snd]. destruct s as [b cb lv]. cbn [lg_cb lg_level]. destruct cb as [h|]; [|exists b; reflexivity].
  destruct (N.ltb_spec lv l) as [H|H].
  - exists b. destruct (N.leb_spec l lv); [lia | reflexivity].
  - exists t. destruct (N.leb_spec l lv); [|lia]. rewrite run_looks by apply Hq. unfold fill. cbn [lg_buf lg_cb lg_level].
    rewrite take_all by exact Ht. reflexivity.
Qed.
Lemma in_force_snoc a o : in_force (a ++ [o]) = match o with LSet l cb => (l, cb) | LLog _ _ _ => in_force a end.
Proof using. unfold in_force. rewrite fold_left_app. reflexivity. Qed.
Lemma run_from f ops : forall before b, texts_short ops -> exists s',
  log_run handler (S f) ops (mkLog b (snd (in_force before)) (fst (in_force before))) = Ret (delivered handler before ops, s') /\
  (lg_level s', lg_cb s') = in_force (before ++ ops).
Proof using Hq.
  induction ops as [|o ops IH]; intros before b Hs.
  - cbn [log_run delivered]. eexists. split; [reflexivity|]. cbn [lg_level lg_cb]. rewrite app_nil_r. destruct (in_force before). reflexivity.
  - inversion Hs as [|? ? Ho Hr]; subst. destruct o as [l cb|l n t]; cbn [log_run delivered].
    + destruct (IH (before ++ [LSet l cb]) b Hr) as (s' & E & F). rewrite in_force_snoc in E. cbn [fst snd] in E.
      exists s'. split; [exact E|]. rewrite F, <- app_assoc. reflexivity.
    + destruct (log_message f (mkLog b (snd (in_force before)) (fst (in_force before))) l n t Ho) as (b' & E). rewrite E. cbn [obind fst snd lg_cb lg_level].
      destruct (IH (before ++ [LLog l n t]) b' Hr) as (s' & E' & F). rewrite in_force_snoc in E'. rewrite E'. cbn [obind fst snd].
      exists s'. split; [destruct (in_force before); reflexivity|]. rewrite F, <- app_assoc. reflexivity.
Qed.
Lemma delivery f ops : texts_short ops -> exists s', log_run handler (S f) ops logger_new = Ret (delivered handler [] ops, s').
Proof using Hq. intros H. destruct (run_from f ops [] [] H) as (s' & E & _). exists s'. exact E. Qed.
End H.

Lemma long_cut handler f ops l n t s evs h : (forall h l n, only_looks (handler h l n)) -> log_run handler (S f) ops logger_new = Ret (evs, s) ->
  lg_cb s = Some h -> l <= lg_level s -> 4094 < len t ->
  take 4094 t <> t /\ exists s', log handler (S f) l n t s = Ret (repeat (mkSeen h l n (take 4094 t)) (looks (handler h l n) (take 4094 t)), s').
Proof.
  intros Hq _ C L T. split; [intros E; apply (f_equal len) in E; rewrite len_take in E; lia|]. cbn [log]. rewrite C. destruct (N.ltb_spec (lg_level s) l); [lia|]. rewrite run_looks by apply Hq. eexists. reflexivity.
Qed.

(** ** Threads *)
Lemma seen_by_app i a b : seen_by i (a ++ b) = seen_by i a ++ seen_by i b.
Proof. unfold seen_by. rewrite filter_app, map_app. reflexivity. Qed.
Lemma nth_set {A} (l : list A) i x : (i < length l)%nat -> nth_error (set_nth l i x) i = Some x.
Proof. revert i. induction l as [|y l IH]; intros [|i] H; cbn [length] in H; try lia; [reflexivity|]. cbn. apply IH. lia. Qed.
Lemma nth_set_other {A} (l : list A) i j x : i <> j -> nth_error (set_nth l i x) j = nth_error l j.
Proof. revert i j. induction l as [|y l IH]; intros [|i] [|j] H; cbn; try reflexivity; try lia. apply IH. lia. Qed.
Lemma nth_N_error {A} (l : list A) i : nth_N l i = nth_error l (N.to_nat i).
Proof.
  unfold nth_N. destruct (N.ltb_spec i (len l)) as [H|H]; [reflexivity|]. symmetry. apply nth_error_None. unfold len in H. lia.
Qed.
Lemma nth_N_set {A} (l : list A) i x : nth_N l i <> None -> nth_N (set_nth l (N.to_nat i) x) i = Some x.
Proof. rewrite !nth_N_error. intros H. apply nth_set. apply nth_error_Some. exact H. Qed.
Lemma nth_N_set_other {A} (l : list A) i j x : i <> j -> nth_N (set_nth l (N.to_nat i) x) j = nth_N l j.
Proof. rewrite !nth_N_error. intros H. apply nth_set_other. lia. Qed.

(** What holds in every state that is reached: what was seen and what is left make up what is due;
    whoever is inside has filled the buffer. *)
Record tinv (lg : logger) (calls : list (list call)) (s : tstate) : Prop := {
  ti_cfg : lg_cb (t_log s) = lg_cb lg /\ lg_level (t_log s) = lg_level lg;
  ti_due : forall i l0, nth_N calls i = Some l0 -> exists l, nth_N (t_calls s) i = Some l /\ seen_by i (t_seen s) ++ due lg l = due lg l0 /\ (exists d, l0 = d ++ l);
  ti_none : forall i, nth_N calls i = None -> nth_N (t_calls s) i = None;
  ti_in : t_inside s = [] \/ exists i c r h, t_inside s = [i] /\ nth_N (t_calls s) i = Some (c :: r) /\ passes lg c = Some h /\ lg_buf (t_log s) = take 4094 (cl_text c) }.
Lemma passes_same lg s c : lg_cb s = lg_cb lg /\ lg_level s = lg_level lg -> passes s c = passes lg c.
Proof. intros [A B]. unfold passes. rewrite A, B. reflexivity. Qed.
Lemma tinv_start lg calls : tinv lg calls (mkT lg calls [] []).
Proof.
  split; cbn [t_log t_calls t_inside t_seen]; [split; reflexivity | | auto | left; reflexivity].
  intros i l0 H. exists l0. split; [exact H|]. split; [reflexivity|]. exists []. reflexivity.
Qed.
Lemma nth_N_In {A} (l : list A) i x : nth_N l i = Some x -> In x l.
Proof. rewrite nth_N_error. apply nth_error_In. Qed.

Lemma tinv_step lg calls s i s' : calls_short calls -> tinv lg calls s -> thread_step i s = Ret s' -> tinv lg calls s'.
Proof.
  intros Hs I E. unfold thread_step in E. destruct (nth_N (t_calls s) i) as [[|c r]|] eqn:N0; [injection E as <-; exact I | | injection E as <-; exact I].
  rewrite (passes_same lg _ c (ti_cfg _ _ _ I)) in E.
  assert (K : exists l0, nth_N calls i = Some l0).
  { destruct (nth_N calls i) as [l0|] eqn:K; [exists l0; reflexivity|]. rewrite (ti_none _ _ _ I i K) in N0. discriminate. }
  destruct K as (l0 & K). destruct (ti_due _ _ _ I i l0 K) as (l & L1 & L2 & (d & L3)). rewrite N0 in L1. injection L1 as <-.
  assert (Hc : short (cl_text c)).
  { unfold calls_short in Hs. rewrite Forall_forall in Hs. specialize (Hs l0 (nth_N_In _ _ _ K)). rewrite Forall_forall in Hs. apply Hs. rewrite L3. apply in_or_app. right. left. reflexivity. }
  destruct (passes lg c) as [h|] eqn:P.
  - destruct (existsb (N.eqb i) (t_inside s)) eqn:X.
    + injection E as <-. destruct (ti_in _ _ _ I) as [Z|(i' & c' & r' & h' & Z & Z1 & Z2 & Z3)]; [rewrite Z in X; discriminate|].
      assert (i' = i) by (rewrite Z in X; cbn in X; lia). subst i'. rewrite N0 in Z1. injection Z1 as <- <-. rewrite P in Z2. injection Z2 as <-.
      split; cbn [t_log t_calls t_inside t_seen].
      * exact (ti_cfg _ _ _ I).
      * intros j lj Hj. destruct (N.eq_dec j i) as [->|D].
        -- rewrite K in Hj. injection Hj as <-. exists r. split; [apply nth_N_set; congruence|]. split.
           ++ rewrite seen_by_app. unfold seen_by at 2. cbn [filter fst map snd]. rewrite N.eqb_refl. cbn [map snd]. rewrite Z3, take_all by exact Hc.
              rewrite <- L2. unfold due. cbn [flat_map]. rewrite P. rewrite <- app_assoc. reflexivity.
           ++ exists (d ++ [c]). rewrite L3, <- app_assoc. reflexivity.
        -- destruct (ti_due _ _ _ I j lj Hj) as (l & A1 & A2 & A3). exists l. split; [rewrite nth_N_set_other by congruence; exact A1|]. split; [|exact A3].
           rewrite seen_by_app. unfold seen_by at 2. cbn [filter fst]. destruct (N.eqb_spec i j); [congruence|]. cbn [map]. rewrite app_nil_r. exact A2.
      * intros j Hj. destruct (N.eq_dec j i) as [->|D]; [congruence|]. rewrite nth_N_set_other by congruence. exact (ti_none _ _ _ I j Hj).
      * left. rewrite Z. cbn [filter]. rewrite N.eqb_refl. reflexivity.
    + destruct (t_inside s) as [|z zs] eqn:Z; [|discriminate]. injection E as <-. split; cbn [t_log t_calls t_inside t_seen fill lg_cb lg_level lg_buf].
      * exact (ti_cfg _ _ _ I).
      * exact (ti_due _ _ _ I).
      * exact (ti_none _ _ _ I).
      * right. exists i, c, r, h. auto.
  - injection E as <-. split; cbn [t_log t_calls t_inside t_seen].
    + exact (ti_cfg _ _ _ I).
    + intros j lj Hj. destruct (N.eq_dec j i) as [->|D].
      * rewrite K in Hj. injection Hj as <-. exists r. split; [apply nth_N_set; congruence|]. split.
        -- rewrite <- L2. unfold due. cbn [flat_map]. rewrite P. reflexivity.
        -- exists (d ++ [c]). rewrite L3, <- app_assoc. reflexivity.
      * destruct (ti_due _ _ _ I j lj Hj) as (l & A1 & A2 & A3). exists l. split; [rewrite nth_N_set_other by congruence; exact A1|]. auto.
    + intros j Hj. destruct (N.eq_dec j i) as [->|D]; [congruence|]. rewrite nth_N_set_other by congruence. exact (ti_none _ _ _ I j Hj).
    + destruct (ti_in _ _ _ I) as [Z|(i' & c' & r' & h' & Z & Z1 & Z2 & Z3)]; [left; exact Z|]. right.
      assert (i' <> i) by (intros ->; rewrite N0 in Z1; injection Z1 as <- <-; congruence).
      exists i', c', r', h'. rewrite nth_N_set_other by congruence. auto.
Qed.
Lemma tinv_run lg calls : calls_short calls -> forall l s s', tinv lg calls s -> schedule l s = Ret s' -> tinv lg calls s'.
Proof.
  intros Hs. induction l as [|i l IH]; intros s s' I E; cbn [schedule] in E.
  - injection E as <-. exact I.
  - destruct (thread_step i s) as [s1| | |] eqn:E1; try discriminate. cbn [obind] in E. exact (IH s1 s' (tinv_step _ _ _ _ _ Hs I E1) E).
Qed.
Lemma threads lg calls l s' i l0 : calls_short calls -> schedule l (mkT lg calls [] []) = Ret s' -> nth_N calls i = Some l0 ->
  exists left, nth_N (t_calls s') i = Some left /\ seen_by i (t_seen s') ++ due lg left = due lg l0 /\ exists done, l0 = done ++ left.
Proof. intros Hs E H. exact (ti_due _ _ _ (tinv_run lg calls Hs _ _ _ (tinv_start lg calls) E) i l0 H). Qed.
Lemma alone lg calls i : calls_short calls -> (forall j l0, nth_N calls j = Some l0 -> j <> i -> due lg l0 = []) ->
  forall l, exists s', schedule l (mkT lg calls [] []) = Ret s'.
Proof.
  intros Hs Ho. assert (G : forall l s, tinv lg calls s -> exists s', schedule l s = Ret s').
  { induction l as [|j l IH]; intros s I; cbn [schedule]; [exists s; reflexivity|].
    assert (T : exists s1, thread_step j s = Ret s1).
    { unfold thread_step. destruct (nth_N (t_calls s) j) as [[|c r]|] eqn:N0; [eexists; reflexivity| |eexists; reflexivity].
      rewrite (passes_same lg _ c (ti_cfg _ _ _ I)). destruct (passes lg c) as [h|] eqn:P; [|eexists; reflexivity].
      assert (Q : forall k c' r' h', nth_N (t_calls s) k = Some (c' :: r') -> passes lg c' = Some h' -> k = i).
      { intros k c' r' h' A B. destruct (N.eq_dec k i) as [D|D]; [exact D|]. exfalso.
        destruct (nth_N calls k) as [lk|] eqn:Kk; [|rewrite (ti_none _ _ _ I k Kk) in A; discriminate].
        destruct (ti_due _ _ _ I k lk Kk) as (l' & A1 & A2 & _). rewrite A in A1. injection A1 as <-. rewrite (Ho k lk Kk D) in A2.
        apply app_eq_nil in A2. destruct A2 as [_ A2]. unfold due in A2. cbn [flat_map] in A2. rewrite B in A2. discriminate. }
      pose proof (Q _ _ _ _ N0 P) as ->. destruct (existsb (N.eqb i) (t_inside s)) eqn:X; [eexists; reflexivity|].
      destruct (ti_in _ _ _ I) as [Z|(i' & c' & r' & h' & Z & Z1 & Z2 & Z3)]; [rewrite Z; eexists; reflexivity|].
      pose proof (Q _ _ _ _ Z1 Z2) as ->. rewrite Z in X. cbn in X. rewrite N.eqb_refl in X. discriminate. }
    destruct T as (s1 & T). rewrite T. cbn [obind]. exact (IH s1 (tinv_step _ _ _ _ _ Hs I T)). }
  intros l. exact (G l _ (tinv_start lg calls)).
Qed.
Lemma race lg c1 r1 c2 r2 h : passes lg c1 = Some h -> passes lg c2 = Some h ->
  schedule [0; 1] (mkT lg [c1 :: r1; c2 :: r2] [] []) = Undef.
Proof.
  intros P1 P2. cbn [schedule]. unfold thread_step at 1. cbn [t_calls t_log t_inside]. change (nth_N [c1 :: r1; c2 :: r2] 0) with (Some (c1 :: r1)).
  cbn match. rewrite P1. cbn [existsb obind]. unfold thread_step. cbn [t_calls t_log t_inside]. change (nth_N [c1 :: r1; c2 :: r2] 1) with (Some (c2 :: r2)). cbn match.
  rewrite (passes_same lg (fill lg (cl_text c1)) c2) by (split; reflexivity). rewrite P2. reflexivity.
Qed.
Lemma older handler fuel cb s name text lvl : (forall h l n, only_looks (handler h l n)) -> short text -> looks (handler cb lvl name) text = 1%nat ->
  exists evs s', log handler (S fuel) lvl name text (use_logger cb s) = Ret (evs, s') /\
    map (fun v => (sn_level v, joined v)) evs = if lvl <=? INFO then [(lvl, name ++ lit ": " ++ text)] else [].
Proof.
  intros Q Ht L. destruct (log_message handler Q fuel (use_logger cb s) lvl name text Ht) as (b & E). eexists _, _. split; [exact E|].
  unfold message, use_logger, set_logger. cbn [lg_level lg_cb fst snd]. rewrite L. destruct (lvl <=? INFO); reflexivity.
Qed.
Definition relays0 (other : bytes) (h l : N) (n : bytes) : act :=
  if l =? INFO then ALog ERROR n other (ASee (fun _ => ADone)) else ADone.
Lemma inside other h b n text fuel : short other -> short text -> (2 <= fuel)%nat ->
  exists s, log (relays0 other) fuel INFO n text (mkLog b (Some h) TRACE) = Ret ([mkSeen h INFO n other], s).
Proof.
  intros H1 H2 Hf. destruct fuel as [|[|f]]; [lia|lia|]. eexists. cbn. rewrite take_all by exact H1. reflexivity.
Qed.
