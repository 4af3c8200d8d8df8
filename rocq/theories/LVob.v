(** Lemmas: loading what a class saved. *)

From Coq Require Import String.
From Verif Require Import MBase MStream SStream LBase LStream LStreamHist MBoxes SBoxes LBoxes MText MClasses MArchive SArchive MVob.
Local Open Scope N_scope.

(** The program takes exactly the operations [ops] and returns [a]. *)
Definition gives {A} (f : fmt) (ph : oid -> oid) (ty : oid -> otype) (fl : oid -> Z)
    (p : prog oid A) (ops : list (wop oid)) (a : A) : Prop :=
  forall rest st, flat f ph ty fl p ((ops ++ rest) :: st) = Some (a, rest :: st).

Lemma flat_pbind {A B} f ph ty fl (p : prog oid A) (k : A -> prog oid B) : forall st,
  flat f ph ty fl (pbind p k) st =
  match flat f ph ty fl p st with Some (a, st') => flat f ph ty fl (k a) st' | None => None end.
Proof.
  induction p as [a | e | | | kd c IH | c IH | c IH | c IH | b p IH]; intros st; cbn [pbind flat]; try reflexivity.
  - destruct st as [|[|[n e| | | | ] l] st]; try reflexivity. destruct (kmatch kd e); [apply IH | reflexivity].
  - destruct st as [|[|[ | n r| | | ] l] st]; try reflexivity. apply IH.
  - destruct st as [|[|[ | | n cl v cs| | ] l] st]; try reflexivity. destruct (no_class cl); [apply IH | reflexivity].
  - destruct st as [|[|o l] st]; try reflexivity; [destruct st as [|l2 st]; [reflexivity|]|]; apply IH.
Qed.
Lemma gives_ret {A} f ph ty fl (a b : A) : a = b -> gives f ph ty fl (PRet a) [] b.
Proof. intros -> rest st. reflexivity. Qed.
Lemma gives_bind {A B} f ph ty fl (p : prog oid A) (k : A -> prog oid B) o1 o2 a b :
  gives f ph ty fl p o1 a -> gives f ph ty fl (k a) o2 b -> gives f ph ty fl (pbind p k) (o1 ++ o2) b.
Proof. intros H1 H2 rest st. rewrite flat_pbind, <- app_assoc, H1. apply H2. Qed.
Lemma gives_last {A B} f ph ty fl (p : prog oid A) (k : A -> prog oid B) o1 a b :
  gives f ph ty fl p o1 a -> gives f ph ty fl (k a) [] b -> gives f ph ty fl (pbind p k) o1 b.
Proof. intros H1 H2. rewrite <- (app_nil_r o1). eapply gives_bind; eassumption. Qed.
Lemma gives_none {A B} f ph ty fl (p : prog oid A) (k : A -> prog oid B) o a b :
  gives f ph ty fl p [] a -> gives f ph ty fl (k a) o b -> gives f ph ty fl (pbind p k) o b.
Proof. intros H1 H2. change o with ([] ++ o). eapply gives_bind; eassumption. Qed.
Lemma gives_cons {A B} f ph ty fl (p : prog oid A) (k : A -> prog oid B) x l a b :
  gives f ph ty fl p [x] a -> gives f ph ty fl (k a) l b -> gives f ph ty fl (pbind p k) (x :: l) b.
Proof. intros H1 H2. change (x :: l) with ([x] ++ l). eapply gives_bind; eassumption. Qed.
Lemma gives_assoc {A B C} f ph ty fl (p : prog oid A) (k : A -> prog oid B) (k2 : B -> prog oid C) l b :
  gives f ph ty fl (pbind p (fun a => pbind (k a) k2)) l b -> gives f ph ty fl (pbind (pbind p k) k2) l b.
Proof.
  intros H rest st. rewrite flat_pbind, flat_pbind. specialize (H rest st). rewrite flat_pbind in H.
  destruct (flat f ph ty fl p ((l ++ rest) :: st)) as [[a st']|]; [|exact H]. rewrite flat_pbind in H. exact H.
Qed.
Lemma gives_pret {A B} f ph ty fl (a : A) (k : A -> prog oid B) l b :
  gives f ph ty fl (k a) l b -> gives f ph ty fl (pbind (PRet a) k) l b.
Proof. intros H. exact H. Qed.
Lemma gives_rd f ph ty fl k n e v : kmatch k e = Some v -> gives f ph ty fl (p_rd k) [WEntry n e] v.
Proof. intros H rest st. cbn [app p_rd flat]. rewrite H. reflexivity. Qed.
Lemma otype_eqb_refl t : otype_eqb t t = true.
Proof. unfold otype_eqb. apply N.eqb_refl. Qed.
Lemma gives_obj f ph ty fl n r t : match r with None => True | Some r => ty r = t end ->
  gives f ph ty fl (p_obj t) [WObj n r] (option_map ph r).
Proof.
  intros H rest st. destruct r as [r|]; cbn [app p_obj flat option_map]; [rewrite H, otype_eqb_refl|]; reflexivity.
Qed.
Lemma gives_any f ph ty fl n r : gives f ph ty fl p_any [WObj n r] (option_map ph r).
Proof. intros rest st. destruct r as [r|]; reflexivity. Qed.
Lemma gives_vob f ph ty fl n r : match r with None => True | Some r => is_vobject (ty r) = true end ->
  gives f ph ty fl p_vob [WObj n r] (option_map ph r).
Proof. intros H rest st. destruct r as [r|]; cbn [app p_vob flat option_map]; [rewrite H|]; reflexivity. Qed.
Lemma gives_rep {A B} f ph ty fl (p : prog oid B) (w : A -> list (wop oid)) (g : A -> B) l :
  (forall a, In a l -> gives f ph ty fl p (w a) (g a)) ->
  gives f ph ty fl (p_rep (length l) p) (flat_map w l) (map g l).
Proof.
  induction l as [|a l IH]; intros H; cbn [length p_rep flat_map map]; [apply gives_ret; reflexivity|].
  eapply gives_bind; [apply H; left; reflexivity|]. eapply gives_last; [apply IH; intros x Hx; apply H; right; exact Hx|].
  apply gives_ret. reflexivity.
Qed.
Lemma gives_rep1 {A B} f ph ty fl (p : prog oid B) (w : A -> wop oid) (g : A -> B) l :
  (forall a, In a l -> gives f ph ty fl p [w a] (g a)) ->
  gives f ph ty fl (p_rep (length l) p) (map w l) (map g l).
Proof.
  intros H. replace (map w l) with (flat_map (fun a => [w a]) l) by (clear; induction l; cbn [flat_map map app]; congruence).
  apply gives_rep. exact H.
Qed.
(** The same for lists whose entries are numbered. *)
Lemma map_snd_indexed {A} (l : list A) : forall i, map snd (indexed i l) = l.
Proof. induction l as [|a l IH]; intros i; cbn [indexed map snd]; [reflexivity | rewrite IH; reflexivity]. Qed.
Lemma length_indexed {A} (l : list A) : forall i, length (indexed i l) = length l.
Proof. induction l as [|a l IH]; intros i; cbn [indexed length]; [reflexivity | rewrite IH; reflexivity]. Qed.
Lemma in_indexed {A} (l : list A) p : forall i, In p (indexed i l) -> In (snd p) l.
Proof. intros i H. rewrite <- (map_snd_indexed l i). apply in_map. exact H. Qed.
Lemma gives_repi {A B} f ph ty fl (p : prog oid B) (w : N * A -> list (wop oid)) (g : A -> B) l n :
  n = length l ->
  (forall a i, In a l -> gives f ph ty fl p (w (i, a)) (g a)) ->
  gives f ph ty fl (p_rep n p) (flat_map w (indexed 0 l)) (map g l).
Proof.
  intros -> H. rewrite <- (length_indexed l 0).
  replace (map g l) with (map (fun q : N * A => g (snd q)) (indexed 0 l)) by (rewrite <- map_map, map_snd_indexed; reflexivity).
  apply gives_rep. intros [i a] Hq. apply H. exact (in_indexed l (i, a) 0 Hq).
Qed.
Lemma gives_repi1 {A B} f ph ty fl (p : prog oid B) (w : N * A -> wop oid) (g : A -> B) l n :
  n = length l ->
  (forall a i, In a l -> gives f ph ty fl p [w (i, a)] (g a)) ->
  gives f ph ty fl (p_rep n p) (map w (indexed 0 l)) (map g l).
Proof.
  intros Hn H. replace (map w (indexed 0 l)) with (flat_map (fun a => [w a]) (indexed 0 l))
    by (clear; generalize (indexed 0 l); intros m; induction m; cbn [flat_map map app]; congruence).
  apply gives_repi; [exact Hn | exact H].
Qed.
(** Counts. *)
Lemma sint32_count {A} (l : list A) : len l < 2 ^ 31 -> sint 32 (len l) = Z.of_N (len l).
Proof. intros H. unfold sint. change (2 ^ 31) with 2147483648 in H. replace (len l mod 2 ^ 32) with (len l) by (symmetry; apply N.mod_small; change (2 ^ 32) with 4294967296; lia). change (2 ^ (32 - 1)) with 2147483648. destruct (N.ltb_spec (len l) 2147483648); lia. Qed.
Lemma gives_size {A} f ph ty fl n (l : list A) : len l < 2 ^ 31 -> gives f ph ty fl p_size [wCount n l] (length l).
Proof.
  intros H rest st. unfold p_size, wCount, wI. cbn [pbind p_rd app flat kmatch]. rewrite sint32_count by exact H.
  destruct (Z.ltb_spec (Z.of_N (len l)) 0); [lia|]. cbn [flat]. unfold len. rewrite nat_N_Z, Nat2Z.id. reflexivity.
Qed.
Lemma gives_upto {A} f ph ty fl n (l : list A) : len l < 2 ^ 31 -> gives f ph ty fl p_upto [wCount n l] (length l).
Proof.
  intros H rest st. unfold p_upto, wCount, wI. cbn [pbind p_rd app flat kmatch]. rewrite sint32_count by exact H.
  cbn [flat]. unfold len. rewrite nat_N_Z, Nat2Z.id. reflexivity.
Qed.
(** Raw bytes. *)
Lemma raw_of_writes m bs : writes m bs -> len bs < max_size -> raw_of m = bs.
Proof. intros H Hl. unfold raw_of. rewrite (H w_empty); [reflexivity | reflexivity | exact Hl]. Qed.
Lemma from_raw_reads {A} (m : rd A) bs a : reads m bs a -> len bs < max_size -> from_raw bs m = Ret a.
Proof.
  intros H Hl. unfold from_raw. specialize (H [] [] I). rewrite !app_nil_r in H. cbn [app] in H.
  change (len (@nil byte)) with 0 in H. rewrite (H Hl). reflexivity.
Qed.
Lemma gives_raw {A} f ph ty fl n (m : rd A) name bs a : reads m bs a -> len bs = n -> n < max_size ->
  gives f ph ty fl (p_raw n m) [wR name bs] a.
Proof.
  intros H Hl Hn rest st. unfold p_raw. rewrite flat_pbind. unfold wR. cbn [app p_rd flat kmatch].
  rewrite Hl, N.eqb_refl. rewrite (from_raw_reads _ _ _ H) by (rewrite Hl; exact Hn). reflexivity.
Qed.

(** One step of a straight-line class. *)
Ltac g_step :=
  lazymatch goal with
  | |- gives _ _ _ _ (PRet _) [] _ => apply gives_ret; try reflexivity
  | |- gives _ _ _ _ (pbind (PRet _) _) _ _ => apply gives_pret; cbn beta iota
  | |- gives _ _ _ _ (pbind (pbind _ _) _) _ _ => apply gives_assoc
  | |- gives _ _ _ _ (pbind (p_rd _) _) (_ :: _) _ => eapply gives_cons; [apply gives_rd; reflexivity | cbn beta iota]
  | |- gives _ _ _ _ (pbind (p_obj _) _) (_ :: _) _ => eapply gives_cons; [apply gives_obj; solve [assumption | exact I] | cbn beta iota]
  | |- gives _ _ _ _ (pbind p_any _) (_ :: _) _ => eapply gives_cons; [apply gives_any | cbn beta iota]
  | |- gives _ _ _ _ (pbind p_vob _) (_ :: _) _ => eapply gives_cons; [apply gives_vob; solve [assumption | exact I] | cbn beta iota]
  end.
(** Split on the configuration and use what that says about the fields. *)
Ltac g_cfg c :=
  let ga := fresh in let sv := fresh in let pk := fresh in let dp := fresh in
  destruct c as [ga sv pk dp]; destruct ga, sv.
Ltac g_use :=
  repeat match goal with
  | H : _ /\ _ |- _ => destruct H
  | H : false = false -> _ |- _ => specialize (H eq_refl)
  | H : true = false -> _ |- _ => clear H
  | H : true = true -> _ |- _ => specialize (H eq_refl)
  | H : false = true -> _ |- _ => clear H
  end.
Ltac g_base law := eapply gives_bind; [apply law; assumption | cbn beta iota].
Ltac g_base_last law := eapply gives_last; [apply law; assumption | cbn beta iota].
Ltac g_run law := repeat first [g_step | g_base law | g_base_last law].
