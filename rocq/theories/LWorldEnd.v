(** Loading safe binary worlds ends. *)

From Coq Require Import String Lia ZifyN ZifyBool ZifyNat.
From Verif Require Import MBase MStream SStream MBoxes MText MClasses MArchive SArchive MVob MWorld MLib MMaterial MMesh MBsp MLevel.
From Verif Require Import SFormat SArchEnd SWorldEnd LBase LStream LStreamHist LBoxes LFormat LArchEnd LMeshEnd LEnds.
From Verif Require LSave LLevel.
Local Open Scope N_scope.

(** ** What the head of an object says is in the file *)
Lemma tokens_stop delim n : forall s cur, tokens delim (s ++ zeros n) cur = tokens delim s cur.
Proof.
  induction s as [|c s IH]; intros cur; cbn [app tokens].
  - unfold zeros. destruct (N.to_nat n); reflexivity.
  - rewrite !IH. reflexivity.
Qed.
Lemma tokens_part delim t : forall s cur, In t (tokens delim s cur) ->
  exists a b, rev cur ++ s = a ++ t ++ b.
Proof.
  induction s as [|c s IH]; intros cur H; cbn [tokens] in H.
  - destruct cur as [|x cur]; [contradiction|]. destruct H as [<-|[]]. exists [], []. rewrite !app_nil_r. reflexivity.
  - destruct (beq c x00).
    { destruct cur as [|x cur]; [contradiction|]. destruct H as [<-|[]]. exists [], (c :: s). reflexivity. }
    destruct (delim c).
    + assert (G : In t (tokens delim s []) -> exists a b, rev cur ++ c :: s = a ++ t ++ b).
      { intros X. destruct (IH _ X) as (a & b & E). cbn [rev app] in E. exists (rev cur ++ c :: a), b. rewrite E, <- app_assoc. reflexivity. }
      destruct cur as [|x cur]; [exact (G H)|]. destruct H as [<-|H]; [|exact (G H)].
      exists [], (c :: s). reflexivity.
    + destruct (IH _ H) as (a & b & E). cbn [rev] in E. rewrite <- app_assoc in E. exists a, b. exact E.
Qed.
Definition within (t D : bytes) (p q : N) : Prop := exists i, p <= i /\ i + len t <= q /\ occurs_at t D i.
Lemma within_app (D t a b : bytes) p l : take l (drop p D) = a ++ t ++ b -> p <= len D -> within t D p (p + N.min l (len D - p)).
Proof.
  intros E Hp. exists (p + len a).
  assert (L : len a + (len t + len b) = N.min l (len D - p)).
  { rewrite <- !len_app, <- E. rewrite len_take, len_drop. reflexivity. }
  repeat split; [lia|lia|]. unfold occurs_at.
  assert (X : drop p D = a ++ t ++ b ++ drop l (drop p D)).
  { transitivity (take l (drop p D) ++ drop l (drop p D)); [symmetry; apply take_drop|]. rewrite E, <- !app_assoc. reflexivity. }
  replace (drop (p + len a) D) with (drop (len a) (drop p D)) by (rewrite drop_drop; f_equal; lia).
  rewrite X, drop_app_exact, take_app_exact by reflexivity. reflexivity.
Qed.
Lemma within_mono t D p q p' q' : within t D p q -> p' <= p -> q <= q' -> within t D p' q'.
Proof. intros (i & H1 & H2 & H3) Hp Hq. exists i. repeat split; [lia | lia | exact H3]. Qed.
Lemma bs_head_names line h : bs_head line = Ret (Some h) ->
  exists it c, line = c :: it /\ In (oh_name h) (tokens bs_delim it []) /\ In (oh_class h) (tokens bs_delim it []).
Proof.
  unfold bs_head. destruct line as [|c it]; [discriminate|]. destruct (negb (beq c x5b)); [discriminate|].
  destruct (tokens bs_delim it []) as [|a [|b [|v [|i t]]]] eqn:E; try discriminate.
  destruct (atoi v); cbn [obind]; try discriminate. destruct (atoi i); cbn [obind]; try discriminate.
  intros [= <-]. cbn [oh_name oh_class]. exists it, c. rewrite E. repeat split; [left; reflexivity | right; left; reflexivity].
Qed.
Lemma bs_begin_names D p h s : len D < 2 ^ 62 -> p <= len D -> bs_begin (mkR D p) = Ret (Some h, s) ->
  exists q, s = mkR D q /\ q <= len D /\ within (oh_name h) D p q /\ within (oh_class h) D p q.
Proof.
  intros HD Hp. assert (HM : len D < max_size) by (pows; lia).
  unfold bs_begin, bind at 1. rewrite eof_at by exact HD.
  destruct (N.leb_spec (len D) p) as [He|He]; [discriminate|].
  unfold bind at 1. rewrite tell_at by exact HD. unfold bind at 1. destruct (ubyte_at D HD p He) as (t & ->).
  assert (Hb : forall q, (r_back p;; ret None)%m (mkR D q) = Ret (@None ohead, mkR D p)).
  { intros q. unfold bind. rewrite back_at by (try assumption; clear -HM Hp; pows; lia).
    destruct (N.ltb_spec (len D) p); [lia | reflexivity]. }
  destruct (negb (t =? T_STRING)); [rewrite Hb; discriminate|].
  unfold bind at 1. destruct (ushort_at D HD (p + 1)) as (l & -> & Hl & H0); [lia|].
  set (p1 := p + 1 + N.min 2 (len D - (p + 1))).
  assert (Hp1 : p <= p1 <= len D) by (unfold p1; lia). clearbody p1.
  unfold bind at 1. unfold read_string. replace (l <? max_size) with true by (symmetry; apply N.ltb_lt; pows; lia).
  unfold rd_fixed. unfold bind at 1. rewrite rd_read_spec; [|split; cbn [rdata rpos]; [lia|exact HM]|pows; lia].
  cbn [rdata rpos]. unfold ret at 1. set (X := take (N.min l (len D - p1)) (drop p1 D)). unfold pad_to.
  set (line := X ++ zeros (l - len X)).
  destruct (len line <=? 2); [rewrite Hb; discriminate|].
  unfold bind at 1, lift at 1. destruct (bs_head line) as [[o|]| | |] eqn:Eh; try discriminate; [|rewrite Hb; discriminate].
  intros [= -> <-]. exists (p1 + N.min l (len D - p1)). split; [reflexivity|]. split; [lia|].
  destruct (bs_head_names _ _ Eh) as (it & c & El & Hn & Hc).
  assert (G : forall t, In t (tokens bs_delim it []) -> within t D p (p1 + N.min l (len D - p1))).
  { intros tk Htk. unfold line in El. destruct X as [|x X'] eqn:EX.
    - cbn [app] in El. assert (Z : tokens bs_delim it [] = []).
      { unfold zeros in El. destruct (N.to_nat (l - len [])) as [|k]; [discriminate|]. injection El as _ <-. destruct k; reflexivity. }
      rewrite Z in Htk. contradiction.
    - injection El as -> <-. rewrite tokens_stop in Htk. destruct (tokens_part _ _ _ _ Htk) as (a & b & E). cbn [rev app] in E.
      apply (within_mono _ _ p1 (p1 + N.min (N.min l (len D - p1)) (len D - p1))); [|lia|lia].
      apply (within_app D tk (c :: a) b); [|lia]. fold X. rewrite EX, E. reflexivity. }
  split; apply G; assumption.
Qed.

(** ** Entries take at least a byte *)
Section Safe.
Variable D : bytes.
Hypothesis HD : len D < 2 ^ 62.
Lemma HM : len D < max_size.
Proof using HD. pows; lia. Qed.
Lemma meta_strict tp p : p <= len D ->
  match bs_meta tp (mkR D p) with
  | Ret (_, s) => exists q, s = mkR D q /\ p + 1 <= q <= len D
  | Throw _ => True
  | _ => False
  end.
Proof using HD.
  intros Hp. destruct (N.eq_dec p (len D)) as [->|Hne].
  - unfold bs_meta, read_ubyte. unfold bind at 1 2. rewrite (end_fixed D HD) by (pows; lia). exact I.
  - assert (Hlt : p < len D) by lia. unfold bs_meta. unfold bind at 1. destruct (ubyte_at D HD p Hlt) as (t & ->).
    match goal with |- match ?r _ with _ => _ end => assert (G : fwd D false (p + 1) any r) end.
    { apply fwd_if; [exact HD|apply fwd_throw; exact HD|].
      apply fwd_seq; [exact HD|apply (fwd_seek D HD false (p + 1) 4); pows; lia|]. intros _.
      eapply fwd_ignore; [exact HD|apply fwd_ubyte, HD|]. intros t'. apply fwd_if; [exact HD|apply fwd_ret; [exact HD|exact I] | apply fwd_throw; exact HD]. }
    specialize (G (p + 1)). match goal with |- match ?r with _ => _ end => destruct r as [[[] s]| | |] end; try tauto.
    + destruct G as (_ & q & -> & Hq); [lia|]. exists q. split; [reflexivity | exact Hq].
    + specialize (G ltac:(lia)). discriminate G.
    + apply G. lia.
Qed.
Lemma entry_split k : kind_fit k -> exists tp (K : rd (kval k)),
  (forall s, bs_read k s = bind (bs_meta tp) (fun _ => K) s) /\ (forall m, fwd D true m (val_fit k) K).
Proof using HD.
  intros Hk.
  assert (A : forall B C (m : rd unit) (f : unit -> rd B) (g : B -> rd C) s,
    bind (bind m f) g s = bind m (fun _ => bind (f tt) g) s).
  { intros B C m f g s. unfold bind. destruct (m s) as [[[] s1]| | |]; reflexivity. }
  destruct k; cbn [bs_read val_fit kval];
    try (eexists; eexists; split; [intros s; reflexivity|]; intros m; first [apply fwd_ushort; exact HD | apply fwd_of; [exact HD|]; solve [fsteps]]).
  - eexists; eexists; split; [intros s; apply A|]. intros m. cbv beta. eapply fwd_bind; [exact HD|apply fwd_ushort, HD|]. intros l Hl. cbv beta in Hl.
    apply fwd_string; [exact HD|]. pows. lia.
  - unfold bs_sized. eexists; eexists; split; [intros s; apply A|]. intros m. cbv beta. eapply fwd_bind; [exact HD|apply fwd_ushort, HD|]. intros l Hl. cbv beta in Hl.
    apply fwd_if; [exact HD|apply fwd_throw; exact HD|]. apply fwd_seq; [exact HD|apply fwd_of; [exact HD|]; solve [fsteps]|]. intros v.
    apply fwd_seq; [exact HD|apply fwd_seek; [exact HD|]; clear -Hl; pows; lia|]. intros _. apply fwd_ret; [exact HD|exact I].
  - unfold bs_sized. eexists; eexists; split; [intros s; apply A|]. intros m. cbv beta. eapply fwd_bind; [exact HD|apply fwd_ushort, HD|]. intros l Hl. cbv beta in Hl.
    apply fwd_if; [exact HD|apply fwd_throw; exact HD|]. apply fwd_seq; [exact HD|apply fwd_of; [exact HD|]; solve [fsteps]|]. intros v.
    apply fwd_seq; [exact HD|apply fwd_seek; [exact HD|]; clear -Hl; pows; lia|]. intros _. apply fwd_ret; [exact HD|exact I].
  - unfold bs_sized. eexists; eexists; split; [intros s; apply A|]. intros m. cbv beta. eapply fwd_bind; [exact HD|apply fwd_ushort, HD|]. intros l Hl. cbv beta in Hl.
    apply fwd_if; [exact HD|apply fwd_throw; exact HD|]. apply fwd_seq; [exact HD|apply fwd_of; [exact HD|]; solve [fsteps]|]. intros v.
    apply fwd_seq; [exact HD|apply fwd_seek; [exact HD|]; clear -Hl; pows; lia|]. intros _. apply fwd_ret; [exact HD|exact I].
  - eexists; eexists; split; [intros s; apply A|]. intros m. cbv beta. eapply fwd_bind; [exact HD|apply fwd_ushort, HD|]. intros l Hl. cbv beta in Hl.
    apply fwd_if; [exact HD|apply fwd_throw; exact HD|].
    apply (fwd_weak D HD true m (fun b => len b = l)); [intros b ->; pows; lia | apply fwd_fixed; [exact HD|]; pows; lia].
Qed.
Lemma entry_strict k p E : kind_fit k -> p <= len D ->
  match ar_read ABinsafe k (st D p E) with
  | Ret (v, s) => val_fit k v /\ exists q, s = st D q E /\ p + 1 <= q <= len D
  | Throw _ | Undef => True
  | Fuel => False
  end.
Proof using HD.
  intros Hk Hp. destruct (entry_split k Hk) as (tp & K & Er & Hf). cbn [ar_read]. unfold rdl, st. cbn [ra_r ra_ends]. rewrite Er. unfold bind.
  pose proof (meta_strict tp p Hp) as M. destruct (bs_meta tp (mkR D p)) as [[[] s]| | |]; try exact I; try contradiction.
  destruct M as (q & -> & Hq). specialize (Hf q q). destruct (K (mkR D q)) as [[v s]| | |]; try exact I.
  - destruct Hf as (Hv & x & -> & Hx); [lia|]. split; [exact Hv|]. exists x. split; [reflexivity | lia].
  - apply Hf. lia.
Qed.

(** ** Load functions *)
Context {Ob : Type} (flags_of : Ob -> Z).
(** The position moves on by at least [w]. *)
Definition far (p : N) (w : nat) {A} (r : outcome (A * @rg rar Ob)) : Prop :=
  match r with
  | Ret (_, g) => exists q E c h, g = mkRg (st D q E) c h /\ p + N.of_nat w <= q <= len D
  | Throw _ | Undef => True
  | Fuel => False
  end.
Lemma far_trans p q w v {A} (r : outcome (A * @rg rar Ob)) : p + N.of_nat w <= q -> far q v r -> far p (w + v) r.
Proof using HD. intros H. destruct r as [[a g]| | |]; cbn [far]; auto. intros (x & E & c & h & -> & Hx). exists x, E, c, h. split; [reflexivity | lia]. Qed.
Lemma far_weak p w v {A} (r : outcome (A * @rg rar Ob)) : (v <= w)%nat -> far p w r -> far p v r.
Proof using HD. intros H. destruct r as [[a g]| | |]; cbn [far]; auto. intros (x & E & c & h & -> & Hx). exists x, E, c, h. split; [reflexivity | lia]. Qed.

Variable lo : N.
Definition recok (n : N) (rec : M (@rg rar Ob) (option oid)) : Prop :=
  forall p E c h, lo <= p <= len D -> len D - p <= n -> far p 0 (rec (mkRg (st D p E) c h)).
(** With fewer than [k] bytes left the function ends, [w] bytes or more later. *)
Definition sp (k w : nat) {A} (pr : prog oid A) : Prop :=
  forall rec n, recok n rec -> forall p E c h, lo <= p <= len D -> len D - p <= n -> (N.to_nat (len D - p) < k)%nat ->
    far p w (runp (fmt_prims ABinsafe) flags_of rec pr (mkRg (st D p E) c h)).
Lemma sp_mono k w k' w' {A} (pr : prog oid A) : (k' <= k)%nat -> (w' <= w)%nat -> sp k w pr -> sp k' w' pr.
Proof using HD. intros Hk Hw H rec n Hr p E c h Hp Hn Hl. eapply far_weak; [exact Hw|]. apply (H rec n Hr); lia. Qed.
Lemma sp_ret k {A} (a : A) : sp k 0 (PRet a).
Proof using HD. intros rec n Hr p E c h Hp Hn Hl. cbn. exists p, E, c, h. split; [reflexivity | lia]. Qed.
Lemma sp_throw k w {A} e : sp k w (@PThrow oid A e).
Proof using HD. intros rec n Hr p E c h Hp Hn Hl. exact I. Qed.
Lemma sp_undef k w {A} : sp k w (@PUndef oid A).
Proof using HD. intros rec n Hr p E c h Hp Hn Hl. exact I. Qed.
Lemma sp_fuel w {A} : sp 0 w (@PFuel oid A).
Proof using HD. intros rec n Hr p E c h Hp Hn Hl. lia. Qed.
Lemma sp_nothing w {A} (pr : prog oid A) : sp 0 w pr.
Proof using HD. intros rec n Hr p E c h Hp Hn Hl. lia. Qed.
(** One step and what follows. *)
Lemma far_bind p w v {A B} (m : M (@rg rar Ob) A) (k : A -> M (@rg rar Ob) B) g :
  far p w (m g) -> (forall a q E c h, m g = Ret (a, mkRg (st D q E) c h) -> p + N.of_nat w <= q <= len D -> far q v (k a (mkRg (st D q E) c h))) ->
  far p (w + v) (bind m k g).
Proof using HD.
  intros H Hk. unfold bind. destruct (m g) as [[a g1]| | |]; try exact H. destruct H as (q & E & c & h & -> & Hq).
  eapply far_trans; [|apply Hk; [reflexivity | exact Hq]]. lia.
Qed.
Lemma sp_read k w kd {A} (c : kval kd -> prog oid A) : kind_fit kd -> (forall v, val_fit kd v -> sp (pred k) w (c v)) -> sp k (S w) (PRead kd c).
Proof using HD.
  intros Hk H rec n Hr p E ca h Hp Hn Hl. cbn [runp]. change (S w) with (1 + w)%nat. 
  pose proof (entry_strict kd p E Hk (proj2 Hp)) as M. unfold bind, rgl. cbn [rg_s rg_cache rg_heap fmt_prims p_read] in *.
  destruct (ar_read ABinsafe kd (st D p E)) as [[v s]| | |]; try exact M. destruct M as (Hv & q & -> & Hq).
  eapply (far_trans p q 1); [lia|]. apply (H v Hv rec n Hr); lia.
Qed.
Lemma sp_obj k w {A} (c : option (oid * otype * Z) -> prog oid A) : (forall o, sp k w (c o)) -> sp k w (PObj c).
Proof using HD.
  intros H rec n Hr p E ca h Hp Hn Hl. cbn [runp]. apply (far_bind p 0 w); [apply Hr; assumption|].
  intros a q F c' h' _ Hq. apply (H _ rec n Hr); lia.
Qed.
Lemma skip_far b p E : p <= len D ->
  match ar_skip ABinsafe b (st D p E) with
  | Ret (_, s) => exists q F, s = st D q F /\ p <= q <= len D
  | Throw _ | Undef => True
  | Fuel => False
  end.
Proof using HD.
  intros Hp. cbn [ar_skip]. unfold st at 1 2. cbn [ra_r rdata rpos].
  pose proof (bs_skip_loop D HD true (fun _ => eq_refl) (S (S (N.to_nat (len D - p)))) p E (if b then 1%Z else 0%Z) Hp) as H.
  unfold st in H. fold (st D p E) in H |- *. destruct (skip_loop _ ABinsafe _ _) as [[[] s]| | |]; try exact I; [|apply H; destruct b; lia].
  destruct H as (_ & q & F & -> & Hq & _); [destruct b; lia|]. exists q, F. split; [reflexivity | exact Hq].
Qed.
Lemma sp_skip k w b {A} (pr : prog oid A) : sp k w pr -> sp k w (PSkip b pr).
Proof using HD.
  intros H rec n Hr p E ca h Hp Hn Hl. cbn [runp]. apply (far_bind p 0 w).
  - unfold rgl. cbn [rg_s rg_cache rg_heap fmt_prims p_skip]. pose proof (skip_far b p E (proj2 Hp)) as M.
    destruct (ar_skip ABinsafe b (st D p E)) as [[v s]| | |]; try exact M. destruct M as (q & F & -> & Hq). exists q, F, ca, h. split; [reflexivity | lia].
  - intros a q F c' h' _ Hq. apply (H rec n Hr); lia.
Qed.
Lemma end_far p E : p <= len D ->
  match ar_end ABinsafe (st D p E) with
  | Ret (_, s) => exists q, s = st D q E /\ p <= q <= len D
  | Throw _ | Undef => True
  | Fuel => False
  end.
Proof using HD.
  intros Hp. cbn [ar_end]. unfold rdl, st. cbn [ra_r ra_ends]. pose proof (bs_end_at D HD p Hp) as M.
  destruct (bs_end (mkR D p)) as [[[|] s]| | |]; try exact I; try contradiction.
  - destruct M as (q & -> & Hq). exists q. split; [reflexivity | lia].
  - destruct M as (-> & Hq). exists p. split; [reflexivity | lia].
Qed.
Lemma sp_end k w {A} (c : bool -> prog oid A) : (forall b, sp k w (c b)) -> sp k w (PEnd c).
Proof using HD.
  intros H rec n Hr p E ca h Hp Hn Hl. cbn [runp]. apply (far_bind p 0 w).
  - unfold rgl. cbn [rg_s rg_cache rg_heap fmt_prims p_end]. pose proof (end_far p E (proj2 Hp)) as M.
    destruct (ar_end ABinsafe (st D p E)) as [[v s]| | |]; try exact M. destruct M as (q & -> & Hq). exists q, E, ca, h. split; [reflexivity | lia].
  - intros a q F c' h' _ Hq. apply (H a rec n Hr); lia.
Qed.
Lemma begin_far p E : p <= len D ->
  match ar_begin ABinsafe (st D p E) with
  | Ret (None, s) => s = st D p E
  | Ret (Some h, s) => exists q, s = st D q E /\ p + 1 <= q <= len D /\ within (oh_name h) D p q /\ within (oh_class h) D p q
  | Throw _ | Undef => True
  | Fuel => False
  end.
Proof using HD.
  intros Hp. cbn [ar_begin]. unfold rdl, st. cbn [ra_r ra_ends]. pose proof (bs_begin_at D HD p Hp) as M.
  pose proof (bs_begin_names D p) as W.
  destruct (bs_begin (mkR D p)) as [[[h|] s]| | |]; try exact I; try contradiction; [|rewrite M; reflexivity].
  destruct M as (q & -> & Hq). destruct (W h _ HD Hp eq_refl) as (q' & Eq & _ & W1 & W2). injection Eq as <-.
  exists q. split; [reflexivity|]. split; [lia|]. split; assumption.
Qed.
Lemma sp_begin k w {A} (c : option ohead -> prog oid A) : sp k w (c None) ->
  (forall h, within (oh_name h) D lo (len D) -> sp (pred k) w (c (Some h))) -> sp k w (PBegin c).
Proof using HD.
  intros H0 H1 rec n Hr p E ca h Hp Hn Hl. cbn [runp]. unfold bind, rgl. cbn [rg_s rg_cache rg_heap fmt_prims p_begin].
  pose proof (begin_far p E (proj2 Hp)) as M. destruct (ar_begin ABinsafe (st D p E)) as [[[o|] s]| | |]; try exact M.
  - destruct M as (q & -> & Hq & W & _). eapply (far_trans p q 0); [lia|]. apply (H1 o) with (n := n); try exact Hr; try lia.
    eapply within_mono; [exact W | lia | lia].
  - subst s. apply (H0 rec n Hr); lia.
Qed.
Lemma sp_bind k w v {A B} (m : prog oid A) (f : A -> prog oid B) : sp k w m -> (forall a, sp (k - w) v (f a)) -> sp k (w + v) (pbind m f).
Proof using HD.
  intros Hm Hf rec n Hr p E ca h Hp Hn Hl. rewrite LSave.runp_pbind. specialize (Hm rec n Hr p E ca h Hp Hn Hl).
  destruct (runp (fmt_prims ABinsafe) flags_of rec m _) as [[a g]| | |]; try exact Hm. destruct Hm as (q & F & c' & h' & -> & Hq).
  eapply far_trans; [apply Hq|]. apply (Hf a rec n Hr); lia.
Qed.
Lemma sp_seq k w {A B} (m : prog oid A) (f : A -> prog oid B) : sp k 0 m -> (forall a, sp k w (f a)) -> sp k w (pbind m f).
Proof using HD. intros Hm Hf. apply (sp_bind k 0 w); [exact Hm|]. intros a. rewrite Nat.sub_0_r. apply Hf. Qed.
Lemma sp_plain {A} (pr : prog oid A) : plain true pr -> forall k, sp k 0 pr.
Proof using HD.
  induction 1 as [a|e|Hun|kd c Hk Hc IH|c Hc IH|pr Hp IH]; intros k.
  - apply sp_ret.
  - apply sp_throw.
  - apply sp_undef.
  - apply (sp_mono k 1); [lia|lia|]. apply sp_read; [exact Hk|]. intros v Hv. apply IH, Hv.
  - apply sp_obj. intros o. apply IH.
  - apply sp_skip, IH.
Qed.

(** ** Objects *)
Section Objects.
Variable load : otype -> option (prog oid Ob).
Hypothesis Hload : forall h pr, within (oh_class h) D lo (len D) -> load (type_of_class (oh_class h)) = Some pr -> sp (S (length D)) 0 pr.
Lemma close_far p E c h {A} (k : @M (@rg rar Ob) A) w : lo <= p <= len D ->
  (forall q F, p <= q <= len D -> far q w (k (mkRg (st D q F) c h))) ->
  far p w ((let* e := rgl (p_end (fmt_prims ABinsafe)) in
            (if e then ret tt else rgl (p_skip (fmt_prims ABinsafe) true)) ;; k)%m (mkRg (st D p E) c h)).
Proof using HD.
  intros Hp Hk. unfold bind, rgl. cbn [rg_s rg_cache rg_heap fmt_prims p_end p_skip].
  pose proof (end_far p E (proj2 Hp)) as M. destruct (ar_end ABinsafe (st D p E)) as [[e s]| | |]; try exact M. destruct M as (q & -> & Hq).
  destruct e.
  - unfold ret. eapply (far_trans p q 0); [lia|]. apply Hk, Hq.
  - cbn [rg_s rg_cache rg_heap]. pose proof (skip_far true q E) as M. destruct (ar_skip ABinsafe true (st D q E)) as [[[] s]| | |]; try (apply M; lia).
    destruct M as (x & F & -> & Hx); [lia|]. eapply (far_trans p x 0); [lia|]. apply Hk. lia.
Qed.
Lemma reads_any : forall n p E c h, lo <= p <= len D -> (N.to_nat (len D - p) < n)%nat ->
  far p 0 (read_obj (fmt_prims ABinsafe) load flags_of n (mkRg (st D p E) c h)).
Proof using HD Hload.
  induction n as [|n IH]; intros p E c h Hp Hn; [lia|].
  cbn [read_obj]. unfold bind at 1. unfold rgl at 1. cbn [rg_s rg_cache rg_heap]. cbn [fmt_prims p_begin].
  pose proof (begin_far p E (proj2 Hp)) as M. destruct (ar_begin ABinsafe (st D p E)) as [[[o|] s]| | |]; try exact M.
  2:{ subst s. exists p, E, c, h. split; [reflexivity | lia]. }
  destruct M as (q & -> & Hq & _ & W). eapply (far_trans p q 0); [lia|].
  destruct (bytes_eqb (oh_class o) [xa7]).
  { apply close_far; [lia|]. intros y F Hy. exists y, F, c, h. split; [reflexivity | lia]. }
  destruct (bytes_eqb (oh_class o) (lit "%")).
  { unfold bind, rgl. cbn [rg_s rg_cache rg_heap fmt_prims p_skip].
    pose proof (skip_far true q E) as M. destruct (ar_skip ABinsafe true (st D q E)) as [[[] s']| | |]; try (apply M; lia).
    destruct M as (x & F & -> & Hx); [lia|]. exists x, F, c, h. split; [reflexivity | lia]. }
  unfold bind at 1. destruct (load (type_of_class (oh_class o))) as [pr|] eqn:El.
  2:{ unfold ret at 1. apply close_far; [lia|]. intros y F Hy. eexists y, F, _, _. split; [reflexivity | lia]. }
  cbn [rg_s rg_cache rg_heap]. unfold bind at 1.
  assert (W' : within (oh_class o) D lo (len D)) by (eapply within_mono; [exact W | lia | lia]).
  assert (R0 : recok (len D - q) (read_obj (fmt_prims ABinsafe) load flags_of n)).
  { intros p' E' c' h' Hp' Hn'. apply IH; lia. }
  pose proof (Hload o pr W' El _ _ R0 q E) as R.
  specialize (R ((oh_idx o, len h) :: c) (h ++ [mkHobj (type_of_class (oh_class o)) (oh_idx o) None])).
  destruct (runp (fmt_prims ABinsafe) flags_of (read_obj (fmt_prims ABinsafe) load flags_of n) pr _) as [[v g]| | |];
    try (apply R; unfold len in *; lia).
  destruct R as (x & F & c' & h' & -> & Hx); [lia|lia|unfold len in *; lia|]. cbn [rg_s rg_cache rg_heap].
  eapply (far_trans q x 0); [lia|]. apply close_far; [lia|]. intros y G Hy. eexists y, G, _, _. split; [reflexivity | lia].
Qed.
End Objects.

(** ** Worlds *)
Lemma sp_rd k kd : kind_fit kd -> sp k 1 (p_rd kd).
Proof using HD. intros H. unfold p_rd. apply sp_read; [exact H|]. intros v _. apply sp_ret. Qed.
Lemma sp_skip_trees : forall d n, sp d n (p_skip_trees d n).
Proof using HD.
  induction d as [|d IH]; [intros n; apply sp_nothing|].
  induction n as [|n IHn]; [apply sp_ret|]. cbn [p_skip_trees]. apply sp_skip.
  apply (sp_bind (S d) 1 n); [apply sp_rd; exact I|]. intros k. replace (S d - 1)%nat with d by lia.
  destruct (k <? 0)%Z.
  - apply (sp_mono d (d + n)); [lia|lia|]. apply (sp_bind d d n); [apply IH|]. intros _. rewrite Nat.sub_diag. apply sp_fuel.
  - apply sp_seq; [eapply (sp_mono d); [| |apply IH]; lia|]. intros _.
    exact (sp_mono (S d) n d n _ ltac:(lia) ltac:(lia) IHn).
Qed.
Lemma sp_rep k n {A} (pr : prog oid A) : sp k 0 pr -> sp k 0 (p_rep n pr).
Proof using HD.
  intros H. induction n as [|n IH]; cbn [p_rep]; [apply sp_ret|].
  apply sp_seq; [exact H|]. intros a. apply sp_seq; [exact IH|]. intros l. apply sp_ret.
Qed.
Lemma sp_skipping d n : sp d 0 (if (n <? 0)%Z then pbind (p_skip_trees d d) (fun _ => PFuel)
  else pbind (p_skip_trees d (Z.to_nat n)) (fun _ => PRet (@None vtree))).
Proof using HD.
  destruct (n <? 0)%Z.
  - apply (sp_mono d (d + 0)); [lia|lia|]. apply (sp_bind d d 0); [apply sp_skip_trees|]. intros _. rewrite Nat.sub_diag. apply sp_fuel.
  - apply sp_seq; [eapply (sp_mono d); [| |apply sp_skip_trees]; lia|]. intros _. apply sp_ret.
Qed.
Lemma sp_tree : forall d, sp d 0 (p_tree d).
Proof using HD.
  induction d as [|d IH]; [apply sp_nothing|]. cbn [p_tree]. apply sp_obj. intros o.
  apply (sp_mono (S d) (1 + 0)); [lia|lia|]. apply (sp_bind (S d) 1 0); [apply sp_rd; exact I|]. intros n. replace (S d - 1)%nat with d by lia.
  destruct o as [[[r t] z]|]; [|apply sp_skipping]. destruct (is_vobject t); [|apply sp_skipping].
  destruct (n <? 0)%Z; [apply sp_throw|]. apply sp_seq; [apply sp_rep, IH|]. intros l. apply sp_ret.
Qed.
Lemma sp_section c name s : bytes_eqb name (lit "MeshAndBsp") = false -> sp (cf_depth c) 0 (p_section c name s).
Proof using HD.
  intros Hn. unfold p_section. rewrite Hn.
  destruct (bytes_eqb name (lit "VobTree")).
  { apply sp_seq; [apply sp_plain; plains|]. intros n. apply sp_seq; [apply sp_rep, sp_tree|]. intros l. apply sp_ret. }
  repeat match goal with |- context [if ?b then _ else _] => destruct b end; apply sp_plain; plains.
Qed.
Definition nomesh : Prop := forall h, within (oh_name h) D lo (len D) -> bytes_eqb (oh_name h) (lit "MeshAndBsp") = false.
Lemma sp_sections c : nomesh -> forall f s, (f <= cf_depth c)%nat -> sp f 0 (p_sections c f s).
Proof using HD.
  intros Hm. induction f as [|f IH]; intros s Hf; [apply sp_nothing|]. cbn [p_sections]. apply sp_end. intros e. destruct e; [apply sp_ret|].
  apply sp_begin; [apply sp_throw|]. intros h Hh. cbn [pred]. destruct (bytes_eqb (oh_name h) (lit "EndMarker")).
  - apply sp_end. intros b. apply sp_ret.
  - apply sp_seq.
    { apply (sp_mono (cf_depth c) 0); [lia|lia|]. apply sp_section, Hm, Hh. }
    intros s'. apply sp_end. intros e. destruct e; [|apply sp_skip]; apply IH; lia.
Qed.
Lemma sp_tail c flags k : sp k 0 (p_tail c flags).
Proof using HD. apply sp_plain. unfold p_tail, p_spawn. plains. Qed.
Lemma sp_world c : nomesh -> sp (cf_depth c) 0 (load_world c).
Proof using HD.
  intros Hm. unfold load_world. apply sp_seq; [apply sp_sections; [exact Hm | lia]|]. intros s. apply sp_seq.
  { destruct (cf_save c); [apply sp_tail | apply sp_ret]. }
  intros [[[npcs spawns] en] fl]. apply sp_ret.
Qed.
End Safe.

Lemma other_classes c t p : is_world t = false -> object_load c t = Some p -> plain true p.
Proof. intros W E. apply (classes_plain c t p). unfold refusing. rewrite W. exact E. Qed.
Lemma lacks_name (pat t D : bytes) lo : lacks pat D -> within t D lo (len D) -> bytes_eqb t pat = false.
Proof.
  intros L (i & _ & _ & O). destruct (bytes_eqb t pat) eqn:E; [|reflexivity]. apply bytes_eqb_spec in E. subst t. exfalso. exact (L i O).
Qed.
Lemma safe_worlds_end c n D h r : len D < 2 ^ 62 -> (length D < n)%nat -> (length D < cf_depth c)%nat ->
  ar_open (mkR D 0) = Ret (h, r) -> ah_format h = ABinsafe -> lacks (lit "MeshAndBsp") D ->
  load_archive (c_load (library c)) (c_flags (library c)) n D <> Fuel.
Proof.
  intros HD Hn Hc Eo Hf HL. unfold load_archive. pose proof (opens D HD) as O. rewrite Eo in O |- *. destruct O as (p & -> & Hp). rewrite Hf.
  assert (H : far D p 0 (read_obj (fmt_prims ABinsafe) (c_load (library c)) (c_flags (library c)) n (mkRg (st D p []) [] []))).
  { apply (reads_any D HD _ 0); [|lia|unfold len in *; lia]. intros o pr _ El. cbn [c_load library] in El.
    destruct (is_world (type_of_class (oh_class o))) eqn:W; [|apply sp_plain; [exact HD|]; exact (other_classes c _ _ W El)].
    assert (T : type_of_class (oh_class o) = oCWorld) by (unfold is_world in W; destruct (type_of_class (oh_class o)); try discriminate W; reflexivity).
    rewrite T in El. cbn [object_load] in El. injection El as <-. unfold p_map. apply sp_seq; [exact HD| |].
    - apply (sp_mono D HD _ 0 (cf_depth c) 0); [lia|lia|]. apply sp_world; [exact HD|]. intros h' Hh. exact (lacks_name _ _ _ _ HL Hh).
    - intros a. apply sp_ret. exact HD. }
  unfold st in H. cbn [c_ob library] in *. destruct (read_obj _ _ _ n _) as [[a g]| | |]; try discriminate. contradiction.
Qed.

(** ** Worlds with a mesh *)
Section Level.
Variable D : bytes.
Hypothesis HD : len D < 2 ^ 62.
Hypothesis HA : lacks (lit "ASCII") D.
Hypothesis HC : meshes_end D.
Lemma chunks_fwd f : forall p, p <= len D ->
  match skip_chunks f (mkR D p) with Ret (_, s) => exists q, s = mkR D q /\ p <= q <= len D | Throw _ | Undef | Fuel => True end.
Proof using HD HA HC.
  induction f as [|f IH]; intros p Hp; [exact I|]. cbn [skip_chunks]. unfold bind at 1.
  destruct (fwd_run D HD true p _ _ p (fwd_ushort D HD true p)) as [(ty & q & -> & _ & Hq) | [(e & ->) | [-> _]]]; [lia| |exact I|exact I].
  unfold bind at 1.
  destruct (fwd_run D HD true p _ _ q (fwd_uint D HD true p) Hq) as [(sz & q2 & -> & Hsz & Hq2) | [(e & ->) | [-> _]]]; [|exact I|exact I].
  unfold bind at 1. assert (Hs : sz < 2 ^ 62) by (cbv beta in Hsz; pows; lia).
  destruct (fwd_run D HD true p _ _ q2 (fwd_seek D HD true p sz Hs) Hq2) as [(x & q3 & -> & _ & Hq3) | [(e & ->) | [-> _]]]; [|exact I|exact I].
  destruct (ty =? M_END); [exists q3; split; [reflexivity | exact Hq3]|].
  specialize (IH q3). destruct (skip_chunks f (mkR D q3)) as [[[] s]| | |]; try exact I. destruct IH as (y & -> & Hy); [lia|].
  exists y. split; [reflexivity | lia].
Qed.
Lemma fan_ends vs fs p : forall n a b t, fan vs fs p n a b t <> Fuel.
Proof.
  induction n as [|n IH]; intros a b t; cbn [fan]; [discriminate|]. unfold three.
  destruct (nth_N vs (po_offset p)), (nth_N vs (po_offset p + a)), (nth_N vs (po_offset p + b)); cbn [obind]; try discriminate.
  destruct (nth_N fs (po_offset p)), (nth_N fs (po_offset p + a)), (nth_N fs (po_offset p + b)); cbn [obind]; try discriminate. apply IH.
Qed.
Lemma fans_ends vs fs leaf : forall ps i t, fans vs fs leaf ps i t <> Fuel.
Proof.
  induction ps as [|p ps IH]; intros i t; cbn [fans]; [discriminate|].
  destruct (negb (binary_search leaf i)); [apply IH|].
  destruct ((po_count p <? 3) || negb (pf_portal (po_flags p) =? 0) || pf_ghost (po_flags p) || pf_outdoor (po_flags p)); [apply IH|].
  pose proof (fan_ends vs fs p (N.to_nat (po_count p - 2)) 1 2 t) as F. destruct (fan _ _ _ _ _ _ _); cbn [obind]; try discriminate; [apply IH|congruence].
Qed.
Lemma triangulate_ends leaf m : triangulate leaf m <> Fuel.
Proof. unfold triangulate. pose proof (fans_ends (me_vindices m) (me_findices m) leaf (me_geometry m) 0 (me_tris m)). destruct (fans _ _ _ _ _ _); cbn [obind]; congruence. Qed.
Lemma back_fwd q p : p <= q <= len D -> forall x, p <= x <= len D ->
  rd_seek (Z.of_N q) BEG (mkR D x) = Ret (tt, mkR D q).
Proof using HD HA HC.
  intros Hq x Hx. unfold rd_seek, seek_internal. cbn [rdata rpos obind]. rewrite uint_of_N by (clear -Hq HD; pows; lia).
  destruct (N.ltb_spec (len D) q); [lia | reflexivity].
Qed.
Lemma raw_far xzen m t p p0 h0 : p <= len D -> p0 <= len D -> bs_begin (mkR D p0) = Ret (Some h0, mkR D p) -> oh_name h0 = lit "MeshAndBsp" ->
  match load_mesh_bsp xzen m t (mkR D p) with
  | Ret (_, s) => exists q, s = mkR D q /\ p <= q <= len D
  | Throw _ | Undef => True
  | Fuel => False
  end.
Proof using HD HA HC.
  intros Hp Hp0 Eb En. unfold load_mesh_bsp, bind at 1. unfold read_uint at 1. unfold bind at 1.
  destruct (fixed_at D HD 4 p) as (b1 & -> & _); [pows; lia|exact Hp|]. unfold ret at 1. set (q := p + N.min 4 (len D - p)).
  assert (Hq : p <= q <= len D) by (unfold q; lia).
  unfold bind at 1. unfold read_uint at 1. unfold bind at 1.
  destruct (fixed_at D HD 4 q) as (b2 & -> & _); [pows; lia|lia|]. unfold ret at 1. set (q2 := q + N.min 4 (len D - q)).
  assert (Hq2 : p <= q2 <= len D) by (unfold q2; lia). set (ver := le_dec b1).
  unfold bind at 1. rewrite tell_at by exact HD. unfold bind at 1. cbn [rdata rpos].
  pose proof (chunks_fwd (S (N.to_nat (len D - q2))) q2) as C.
  assert (HC2 : skip_chunks (S (N.to_nat (len D - q2))) (mkR D q2) <> Fuel).
  { destruct (HC q2) as [n Hn]; [exists p0, h0, p; repeat split; try assumption; unfold q2, q; lia|].
    rewrite <- (LLevel.skip_enough n (mkR D q2)) in Hn; [exact Hn|split; cbn [rdata rpos]; [lia | pows; lia]|exact HD|exact Hn]. }
  clearbody q2 q.
  destruct (skip_chunks _ (mkR D q2)) as [[[] s]| | |]; try exact I; [|exfalso; apply HC2; reflexivity].
  destruct C as (q3 & -> & Hq3); [lia|].
  unfold bind at 1. assert (Hs3 : r_ok (mkR D q3)) by (split; cbn [rdata rpos]; [lia | pows; lia]).
  pose proof (bsp_ends t ver _ Hs3) as B. destruct (bsp_load t ver (mkR D q3)) as [[t' [d q4]]| | |]; try exact I; [|contradiction].
  destruct B as (Ed & [Hs4 _] & Hq4). cbn [rdata rpos] in *. subst d.
  unfold bind at 1. rewrite tell_at by exact HD. unfold bind at 1. rewrite (back_fwd q2 0) by lia.
  unfold bind at 1. unfold mesh_load_leaves, bind at 1.
  assert (F : fwd D true q2 any (mesh_load m xzen)) by (apply mesh_fwd; [exact HD|split; [exact HA|discriminate]|discriminate]). specialize (F q2).
  destruct (mesh_load m xzen (mkR D q2)) as [[m' s]| | |]; try exact I; [|apply F; lia].
  destruct F as (_ & q5 & -> & Hq5); [lia|]. unfold lift.
  pose proof (triangulate_ends (bt_leaf_polygons t') m') as T. destruct (triangulate (bt_leaf_polygons t') m') as [m2| | |]; try exact I; [|congruence].
  unfold bind at 1. rewrite (back_fwd q4 0) by lia. exists q4. split; [reflexivity | lia].
Qed.
Section Root.
Variable c : cfg.
Hypothesis Hc : (length D < cf_depth c)%nat.
Variable lo : N.
Variable rec : M (@rg rar object) (option oid).
Hypothesis Hrec : recok D lo (len D) rec.
Variable xzen : bool.
Let raw := fun m t => rdl (load_mesh_bsp xzen m t) : ard (mesh * bsp).
Let fl := c_flags (library c).
Lemma sections_far : forall f m t s p E ca h, (f <= cf_depth c)%nat -> lo <= p <= len D -> (N.to_nat (len D - p) < f)%nat ->
  far D p 0 (level_sections (fmt_prims ABinsafe) fl rec raw c f m t s (mkRg (st D p E) ca h)).
Proof using HD HA HC Hc Hrec.
  induction f as [|f IH]; intros m t s p E ca h Hf Hp Hl; [lia|]. cbn [level_sections].
  apply (far_bind D HD p 0 0).
  { unfold rgl. cbn [rg_s rg_cache rg_heap fmt_prims p_end]. pose proof (end_far D HD p E (proj2 Hp)) as M.
    destruct (ar_end ABinsafe (st D p E)) as [[v s']| | |]; try exact M. destruct M as (q & -> & Hq). exists q, E, ca, h. split; [reflexivity | lia]. }
  intros e q F c' h' _ Hq. destruct e; [exists q, F, c', h'; split; [reflexivity | lia]|].
  unfold bind at 1, rgl at 1. cbn [rg_s rg_cache rg_heap fmt_prims p_begin]. 
  pose proof (begin_far D HD q F ltac:(lia)) as M. destruct (ar_begin ABinsafe (st D q F)) as [[[o|] s']| | |] eqn:Eb; try exact M; [|exact I].
  destruct M as (q1 & -> & Hq1 & _ & _).
  assert (Eb2 : bs_begin (mkR D q) = Ret (Some o, mkR D q1)).
  { cbn [ar_begin] in Eb. unfold rdl, st in Eb. cbn [ra_r ra_ends] in Eb. destruct (bs_begin (mkR D q)) as [[x y]| | |]; try discriminate. injection Eb as -> ->. reflexivity. } apply (far_trans D HD q q1 0 0); [lia|].
  destruct (bytes_eqb (oh_name o) (lit "EndMarker")).
  { apply (far_bind D HD q1 0 0).
    - unfold rgl. cbn [rg_s rg_cache rg_heap fmt_prims p_end]. pose proof (end_far D HD q1 F ltac:(lia)) as M.
      destruct (ar_end ABinsafe (st D q1 F)) as [[v s']| | |]; try exact M. destruct M as (q2 & -> & Hq2). exists q2, F, c', h'. split; [reflexivity | lia].
    - intros b q2 G c2 h2 _ Hq2. exists q2, G, c2, h2. split; [reflexivity | lia]. }
  apply (far_bind D HD q1 0 0).
  { destruct (bytes_eqb (oh_name o) (lit "MeshAndBsp")) eqn:Em.
    - apply (far_bind D HD q1 0 0).
      + unfold rgl, raw, rdl, st. cbn [rg_s rg_cache rg_heap ra_r ra_ends]. apply bytes_eqb_spec in Em. pose proof (raw_far xzen m t q1 q o ltac:(lia) ltac:(lia) Eb2 Em) as M.
        destruct (load_mesh_bsp xzen m t (mkR D q1)) as [[v s']| | |]; try exact M. destruct M as (q2 & -> & Hq2).
        exists q2, F, c', h'. split; [reflexivity | lia].
      + intros b q2 G c2 h2 _ Hq2. exists q2, G, c2, h2. split; [reflexivity | lia].
    - apply (far_bind D HD q1 0 0).
      + apply (sp_section D HD fl lo c _ s Em rec (len D) Hrec); lia.
      + intros b q2 G c2 h2 _ Hq2. exists q2, G, c2, h2. split; [reflexivity | lia]. }
  intros [[m' t'] s'] q2 G c2 h2 _ Hq2. apply (close_far D HD lo); [lia|]. intros q3 G' Hq3. cbn [fst snd]. apply IH; lia.
Qed.
Lemma into_far x p E ca h : lo <= p <= len D -> far D p 0 (load_into (fmt_prims ABinsafe) fl rec raw c x (mkRg (st D p E) ca h)).
Proof using HD HA HC Hc Hrec.
  intros Hp. unfold load_into. apply (far_bind D HD p 0 0); [apply sections_far; unfold len in *; lia|].
  intros [[m t] s] q F c' h' _ Hq. apply (far_bind D HD q 0 0).
  { destruct (cf_save c).
    - apply (sp_tail D HD fl lo c _ (S (N.to_nat (len D - q))) rec (len D) Hrec); lia.
    - exists q, F, c', h'. split; [reflexivity | lia]. }
  intros [[[npcs spawns] en] flags] q2 G c2 h2 _ Hq2. exists q2, G, c2, h2. split; [reflexivity | lia].
Qed.
End Root.
End Level.
Lemma world_type cl : is_world (type_of_class cl) = true -> cl = world_class.
Proof.
  unfold type_of_class. destruct (find _ objects_table) as [[n t]|] eqn:F; [|discriminate]. apply find_some in F. destruct F as [Hin E].
  cbn [fst snd] in *. apply bytes_eqb_spec in E. subst cl. intros W.
  assert (T : t = oCWorld) by (unfold is_world in W; destruct t; try discriminate W; reflexivity). subst t.
  assert (A : forallb (fun e => implb (otype_eqb (snd e) oCWorld) (bytes_eqb (fst e) world_class)) objects_table = true) by (vm_compute; reflexivity).
  rewrite forallb_forall in A. specialize (A _ Hin). cbn [fst snd] in A. apply bytes_eqb_spec. exact A.
Qed.
Lemma level_ends c n x h0 D head r : len D < 2 ^ 62 -> (length D < n)%nat -> (length D < cf_depth c)%nat ->
  ar_open (mkR D 0) = Ret (head, r) -> ah_format head = ABinsafe ->
  lacks (lit "ASCII") D -> once world_class D ->
  meshes_end D ->
  load_level c n x h0 (mkR D 0) <> Fuel.
Proof.
  intros HD Hn Hc Eo Hf HA HO HC. unfold load_level. pose proof (opens D HD) as O. rewrite Eo in O |- *. destruct O as (p & -> & Hp). rewrite Hf. cbv zeta.
  set (c2 := mkCfg (cf_game c) (ah_save head) (cf_pack c) (cf_depth c)).
  set (xz := bytes_eqb (ah_user head) (lit "XZEN")).
  set (rec := read_obj _ _ _ n).
  match goal with |- match ?r with _ => _ end <> _ => assert (H : far D p 0 r); [|destruct r as [[y g]| | |]; try discriminate; contradiction] end.
  unfold load_root, bind at 1, rgl at 1. cbn [rg_s rg_cache rg_heap fmt_prims p_begin]. fold (st D p []).
  pose proof (begin_far D HD p [] Hp) as M. destruct (ar_begin ABinsafe (st D p [])) as [[[o|] s]| | |]; try exact M; [|exact I].
  destruct M as (q & -> & Hq & _ & W). apply (far_trans D HD p q 0 0); [lia|].
  destruct (negb (bytes_eqb (oh_class o) (lit "oCWorld:zCWorld"))) eqn:Ec; [exact I|].
  apply Bool.negb_false_iff, bytes_eqb_spec in Ec. rewrite Ec in W. fold world_class in W.
  assert (HR : recok D q (len D) rec).
  { intros p' E' c' h' Hp' Hn'. apply (reads_any D HD _ q); [|lia|unfold len in *; lia].
    intros o' pr W' El. cbn [c_load library] in El.
    destruct (is_world (type_of_class (oh_class o'))) eqn:Ew; [|apply sp_plain; [exact HD|]; exact (other_classes c2 _ _ Ew El)].
    exfalso. apply world_type in Ew. rewrite Ew in W'. destruct W as (i & Hi1 & Hi2 & Oi). destruct W' as (j & Hj1 & Hj2 & Oj).
    specialize (HO i j Oi Oj). change (len world_class) with 15 in Hi2. lia. }
  apply (far_bind D HD q 0 0); [apply (into_far D HD HA HC c2 Hc q rec HR xz); lia|].
  intros y q2 F c' h' _ Hq2. apply (close_far D HD q); [lia|]. intros q3 G Hq3. exists q3, G, c', h'. split; [reflexivity | lia].
Qed.

(** ** Checking the conditions of a concrete file *)
Definition mesh_check (b : bytes) (p : N) : bool :=
  match bs_begin (mkR b p) with
  | Ret (Some h, s) =>
      if bytes_eqb (oh_name h) (lit "MeshAndBsp") then
        match skip_chunks (length b) (mkR b (N.min (rpos s + 8) (len b))) with Fuel => false | _ => true end
      else true
  | _ => true
  end.
Fixpoint upto (n : nat) (i : N) : list N := match n with O => [] | S n => i :: upto n (i + 1) end.
Lemma in_upto : forall n i p, i <= p < i + N.of_nat n -> In p (upto n i).
Proof.
  induction n as [|n IH]; intros i p H; [lia|]. cbn [upto In]. destruct (N.eq_dec i p) as [E|E]; [left; exact E|]. right. apply IH. lia.
Qed.
Lemma meshes_checked b : forallb (mesh_check b) (upto (S (length b)) 0) = true -> meshes_end b.
Proof.
  intros H q (p & h & s & Hp & Eb & En & ->). exists (length b). rewrite forallb_forall in H.
  specialize (H p). unfold mesh_check in H. rewrite Eb in H. cbn [rpos] in H. rewrite En, bytes_eqb_refl in H.
  intros F. rewrite F in H. assert (X : false = true) by (apply H, in_upto; unfold len in *; lia). discriminate X.
Qed.
Lemma once_checked pat b : (length (filter (fun i => bytes_eqb (take (len pat) (drop i b)) pat) (upto (length b) 0)) <= 1)%nat -> pat <> [] -> once pat b.
Proof.
  intros H Hn i j Hi Hj.
  assert (G : forall i, occurs_at pat b i -> In i (filter (fun i => bytes_eqb (take (len pat) (drop i b)) pat) (upto (length b) 0))).
  { intros k Hk. apply filter_In. split; [|apply bytes_eqb_spec; exact Hk]. apply in_upto. split; [lia|].
    destruct (N.lt_ge_cases k (len b)) as [L|L]; [unfold len in *; lia|]. exfalso. unfold occurs_at in Hk.
    assert (Z : len (take (len pat) (drop k b)) = 0) by (rewrite len_take, len_drop; lia). rewrite Hk in Z. destruct pat; [congruence|]. discriminate Z. }
  apply G in Hi. apply G in Hj. destruct (filter _ _) as [|x [|y l]]; [contradiction| |cbn [length] in H; lia].
  destruct Hi as [<-|[]]. destruct Hj as [<-|[]]. reflexivity.
Qed.
