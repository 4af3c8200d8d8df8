(** Lemmas: the bundled script classes. *)

From Coq Require Import String Ascii Lia.
From Verif Require Import MBase MStream MDaedalus MAddon SVmOps SAddon LBase LVm LVmProps.
From Verif Require Import MVm SSym SDaedalus LDaedalus.
Local Open Scope N_scope.

(** ** Lists without duplicates, decided in linear time *)
Inductive trie := TLeaf | TNode (l : trie) (b : bool) (r : trie).
Fixpoint tmem (p : positive) (t : trie) : bool :=
  match p, t with
  | _, TLeaf => false
  | xH, TNode l b r => b
  | xO q, TNode l b r => tmem q l
  | xI q, TNode l b r => tmem q r
  end.
Fixpoint tadd (p : positive) (t : trie) : trie :=
  let '(l, b, r) := match t with TLeaf => (TLeaf, false, TLeaf) | TNode l b r => (l, b, r) end in
  match p with
  | xH => TNode l true r
  | xO q => TNode (tadd q l) b r
  | xI q => TNode l b (tadd q r)
  end.
Lemma tmem_leaf p : tmem p TLeaf = false.
Proof. destruct p; reflexivity. Qed.
Lemma tmem_add p : forall t q, tmem q (tadd p t) = (Pos.eqb q p || tmem q t)%bool.
Proof.
  induction p as [p IH|p IH|]; intros t q; destruct t as [|l b r], q; cbn; rewrite ?IH, ?tmem_leaf; cbn; rewrite ?orb_false_r; reflexivity.
Qed.
Definition bit (b : bool) (p : positive) : positive := if b then xI p else xO p.
Lemma bit_inj a b p q : bit a p = bit b q -> a = b /\ p = q.
Proof. destruct a, b; cbn; intros E; inversion E; auto. Qed.
Fixpoint pos_of (s : string) : positive :=
  match s with
  | EmptyString => xH
  | String (Ascii a b c d e f g h) r => bit a (bit b (bit c (bit d (bit e (bit f (bit g (bit h (pos_of r))))))))
  end.
Lemma pos_of_inj : forall s t, pos_of s = pos_of t -> s = t.
Proof.
  induction s as [|[] s IH]; intros [|[] t] E; cbn [pos_of] in E; [reflexivity | | | ].
  1: exfalso; destruct b; discriminate.
  1: exfalso; destruct b; discriminate.
  repeat (apply bit_inj in E as [-> E]). rewrite (IH t E). reflexivity.
Qed.
Fixpoint uniq_in (t : trie) (l : list string) : bool :=
  match l with [] => true | s :: r => negb (tmem (pos_of s) t) && uniq_in (tadd (pos_of s) t) r end.
Lemma uniq_in_ok l : forall t, uniq_in t l = true -> NoDup l /\ (forall s, In s l -> tmem (pos_of s) t = false).
Proof.
  induction l as [|x l IH]; intros t H; [split; [constructor | intros ? []]|]. cbn [uniq_in] in H. apply andb_prop in H as [H1 H2].
  apply negb_true_iff in H1. destruct (IH _ H2) as [N F]. split.
  - constructor; [|exact N]. intros I. specialize (F _ I). rewrite tmem_add, Pos.eqb_refl in F. discriminate.
  - intros s [<-|I]; [exact H1|]. specialize (F _ I). rewrite tmem_add in F. apply orb_false_iff in F as [_ F]. exact F.
Qed.
Definition uniq (l : list string) : bool := uniq_in TLeaf l.
Lemma uniq_ok l : uniq l = true -> NoDup l.
Proof. intros H. apply (uniq_in_ok l TLeaf H). Qed.

(** ** The checks of the tables *)
Definition pairs (k : klass_reg) : list (string * string) := map (fun x => (snd (fst x), snd x)) (members k).
Definition field_ok (k : klass_reg) (f : string) : bool :=
  match find_field base_size (k_fields k) f with
  | Some (off, ty, n) => off + n * ty_size ty <=? 2 ^ 31
  | None => false
  end.
Definition key (s : string) : string := string_of_list_byte (upper (lit s)).
Definition names_of (l : list klass_reg) : list string := map k_sym l ++ flat_map (fun k => map fst (pairs k)) l.
Definition tables_ok : bool :=
  uniq (map key (names_of script_classes)) &&
  forallb (fun k => uniq (map snd (pairs k)) && forallb (fun mf => field_ok k (snd mf)) (pairs k)) script_classes.
Lemma tables_are_ok : tables_ok = true.
Proof. vm_compute. reflexivity. Qed.
Lemma lit_inj a b : lit a = lit b -> a = b.
Proof. unfold lit. intros H. rewrite <- (string_of_list_byte_of_string a), <- (string_of_list_byte_of_string b), H. reflexivity. Qed.
Lemma in_names k m f : In k script_classes -> In (m, f) (pairs k) -> In m (names_of script_classes).
Proof.
  intros Hk Hm. unfold names_of. apply in_or_app. right. apply in_flat_map. exists k. split; [exact Hk|]. apply (in_map fst _ _ Hm).
Qed.
Lemma names_uniq : NoDup (map key (names_of script_classes)).
Proof. pose proof tables_are_ok as T. unfold tables_ok in T. apply andb_prop in T as [T _]. apply uniq_ok. exact T. Qed.
Lemma nodup_map {A B} (f : A -> B) l : NoDup (map f l) -> forall a b, In a l -> In b l -> f a = f b -> a = b.
Proof.
  induction l as [|x l IH]; intros N a b I J E; [destruct I|]. cbn [map] in N. inversion N as [|? ? N1 N2]; subst.
  destruct I as [<-|I], J as [<-|J]; [reflexivity | | |].
  - exfalso. apply N1. rewrite E. apply in_map. exact J.
  - exfalso. apply N1. rewrite <- E. apply in_map. exact I.
  - apply IH; assumption.
Qed.
Lemma names_differ a b : In a (names_of script_classes) -> In b (names_of script_classes) -> upper (lit a) = upper (lit b) -> a = b.
Proof. intros I J E. apply (nodup_map key _ names_uniq); try assumption. unfold key. rewrite E. reflexivity. Qed.
Lemma class_ok k : In k script_classes -> NoDup (map snd (pairs k)) /\ forall m f, In (m, f) (pairs k) -> field_ok k f = true.
Proof.
  intros Hk. pose proof tables_are_ok as T. unfold tables_ok in T. apply andb_prop in T as [_ T].
  rewrite forallb_forall in T. specialize (T _ Hk). cbv beta in T. apply andb_prop in T as [T1 T2]. split; [apply uniq_ok; exact T1|].
  rewrite forallb_forall in T2. intros m f I. exact (T2 _ I).
Qed.
Lemma ids_uniq : forall k k', In k script_classes -> In k' script_classes -> k_id k = k_id k' -> k = k'.
Proof.
  assert (H : NoDup (map k_id script_classes)).
  { cbn [map script_classes k_id]. repeat (constructor; [cbn [In]; intuition discriminate|]). constructor. }
  intros k k' I J E. apply (nodup_map k_id _ H); assumption.
Qed.

(** ** The registrations in a row *)
Definition ops (names : list (bytes * N)) : list (klass_reg * (string * string)) :=
  flat_map (fun k => if has names (k_sym k) then
    flat_map (fun r => match r with
      | Reg s f => [(k, (s, f))]
      | When g l => if has names g then map (fun sf => (k, sf)) l else []
      end) (k_regs k) else []) script_classes.
Lemma in_turn_app {A} (st : A -> list sym -> list sym * outcome unit) a : forall b l,
  in_turn st (a ++ b) l = match in_turn st a l with (l', Ret _) => in_turn st b l' | (l', o) => (l', o) end.
Proof.
  induction a as [|x a IH]; intros b l; [reflexivity|]. cbn [app in_turn]. destruct (st x l) as [l1 [?| | |]]; try reflexivity. apply IH.
Qed.
Lemma in_turn_flat {A B} (st : A -> list sym -> list sym * outcome unit) (g : B -> list A) (st' : B -> list sym -> list sym * outcome unit) xs :
  (forall x l, st' x l = in_turn st (g x) l) -> forall l, in_turn st' xs l = in_turn st (flat_map g xs) l.
Proof.
  intros H. induction xs as [|x xs IH]; intros l; [reflexivity|]. cbn [flat_map]. rewrite in_turn_app. cbn [in_turn].
  rewrite <- H. destruct (st' x l) as [l1 [?| | |]]; try reflexivity. apply IH.
Qed.
Definition step (names : list (bytes * N)) (o : klass_reg * (string * string)) : list sym -> list sym * outcome unit :=
  register_field names (fst o) (snd o).
Lemma register_all_ops names l : register_all names l = in_turn (step names) (ops names) l.
Proof.
  unfold register_all, ops. apply in_turn_flat. clear l. intros k l. unfold register_class, has at 1.
  destruct (find_by_name names (lit (k_sym k))); [|reflexivity].
  apply in_turn_flat. clear l. intros [s f|g m] l; cbn [register_reg].
  - cbn [in_turn]. unfold step. cbn [fst snd]. destruct (register_field names k (s, f) l) as [l1 [[]| | |]]; reflexivity.
  - unfold has. destruct (find_by_name names (lit g)); [|reflexivity].
    revert l. induction m as [|x m IH]; intros l; [reflexivity|]. cbn [map in_turn]. unfold step at 1. cbn [fst snd].
    destruct (register_field names k x l) as [l1 [?| | |]]; try reflexivity. apply IH.
Qed.
Lemma in_ops names k m f : In (k, (m, f)) (ops names) <-> offered names k m f.
Proof.
  unfold ops, offered, members. rewrite in_flat_map. split.
  - intros (k' & Hk & I). destruct (has names (k_sym k')) eqn:E; [|destruct I]. apply in_flat_map in I as (r & Hr & I).
    destruct r as [s g|g l].
    + destruct I as [I|[]]. injection I as -> -> ->. split; [exact Hk|]. split; [exact E|]. exists None. split; [|exact I].
      apply in_flat_map. eexists. split; [exact Hr|]. left. reflexivity.
    + destruct (has names g) eqn:E2; [|destruct I]. apply in_map_iff in I as ([s f'] & I & Hl). injection I as -> -> ->.
      split; [exact Hk|]. split; [exact E|]. exists (Some g). split; [|exact E2].
      apply in_flat_map. eexists. split; [exact Hr|]. apply in_map_iff. eexists. split; [|exact Hl]. reflexivity.
  - intros (Hk & E & g & I & Hg). exists k. split; [exact Hk|]. rewrite E. apply in_flat_map in I as (r & Hr & I). apply in_flat_map. exists r. split; [exact Hr|].
    destruct r as [s f'|g' l].
    + destruct I as [I|[]]. injection I as <- -> ->. left. reflexivity.
    + apply in_map_iff in I as ([s f'] & I & Hl). cbn [fst snd] in I. injection I as <- -> ->. rewrite Hg. apply in_map. exact Hl.
Qed.
Lemma offered_pair names k m f : offered names k m f -> In k script_classes /\ In (m, f) (pairs k).
Proof.
  intros (Hk & _ & g & I & _). split; [exact Hk|]. unfold pairs. apply in_map_iff. exists (g, m, f). split; [reflexivity | exact I].
Qed.

(** ** One registration *)
Definition alike (y y' : sym) : Prop :=
  s_name y' = s_name y /\ s_val y' = s_val y /\ s_parent y' = s_parent y /\ s_count y' = s_count y /\ s_type y' = s_type y /\ s_flags y' = s_flags y.
Lemma alike_refl y : alike y y.
Proof. repeat split. Qed.
Lemma alike_trans x y z : alike x y -> alike y z -> alike x z.
Proof. unfold alike. intros (A1 & A2 & A3 & A4 & A5 & A6) (B1 & B2 & B3 & B4 & B5 & B6). repeat split; congruence. Qed.
Definition effect (names : list (bytes * N)) (name : bytes) (ty n cls off : N) (l l' : list sym) (o : outcome unit) : Prop :=
  (o = Ret tt \/ exists e, o = Throw e) /\
  (forall j y, nth_N l j = Some y -> exists y', nth_N l' j = Some y' /\ alike y y' /\
     (find_by_name names name <> Some j ->
       s_moff y' = s_moff y /\ (s_reg y' = s_reg y \/ s_reg y = None /\ s_reg y' = Some cls) /\
       ((forall i x, find_by_name names name = Some i -> nth_N l i = Some x -> s_parent x <> j) -> y' = y))) /\
  (o = Ret tt -> exists i x x', find_by_name names name = Some i /\ nth_N l i = Some x /\ nth_N l' i = Some x' /\
     is_member x = true /\ s_count x <= n /\ binds (s_type x) ty /\ alike x x' /\ s_moff x' = u32 off /\ s_reg x' = Some cls) /\
  (forall i x p, find_by_name names name = Some i -> nth_N l i = Some x -> is_member x = true -> s_count x <= n -> binds (s_type x) ty ->
     nth_N l (s_parent x) = Some p -> s_reg p = None \/ s_reg p = Some cls -> o = Ret tt).
Lemma binds_b t ty : (if ty =? 0 then t =? T_STRING else if ty =? 1 then t =? T_FLOAT
   else if ty =? 2 then (t =? T_INT) || (t =? T_FUNCTION) else false) = true <-> binds t ty.
Proof.
  destruct (N.eqb_spec ty 0) as [->|N0]; [apply N.eqb_eq|]. destruct (N.eqb_spec ty 1) as [->|N1]; [apply N.eqb_eq|].
  destruct (N.eqb_spec ty 2) as [->|N2]; [cbn [binds]; rewrite orb_true_iff, !N.eqb_eq; reflexivity|].
  split; [discriminate|]. intros H. exfalso. destruct ty as [|[[p|p|]|[p|p|]|]]; cbn in H; try contradiction; congruence.
Qed.
Lemma same_effect names name ty n cls off l e :
  (forall i x p, find_by_name names name = Some i -> nth_N l i = Some x -> is_member x = true -> s_count x <= n -> binds (s_type x) ty ->
     nth_N l (s_parent x) = Some p -> s_reg p = None \/ s_reg p = Some cls -> False) ->
  effect names name ty n cls off l l (Throw e).
Proof.
  intros H. split; [eauto|]. split; [|split].
  - intros j y E. exists y. split; [exact E|]. split; [apply alike_refl|]. auto.
  - discriminate.
  - intros. exfalso. eapply H; eassumption.
Qed.
Lemma set_alike l p y y0 : nth_N l p = Some y0 -> alike y0 y -> forall j z, nth_N l j = Some z ->
  exists z', nth_N (set_N l p y) j = Some z' /\ alike z z' /\ (j <> p -> z' = z) /\ (j = p -> z' = y).
Proof.
  intros P A j z J. rewrite nth_set_N. destruct (N.eqb_spec j p) as [->|Ne].
  - pose proof (nth_N_lt _ _ _ P) as L. apply N.ltb_lt in L. rewrite L. exists y. rewrite P in J. injection J as ->. split; [reflexivity|]. split; [exact A|]. split; [congruence | auto].
  - exists z. split; [exact J|]. split; [apply alike_refl|]. split; [auto | congruence].
Qed.
Lemma register_effect names name ty n cls off l : named names l ->
  let (l', o) := register_member l names ty n name cls off in effect names name ty n cls off l l' o.
Proof.
  intros Hn. unfold register_member, check_member. destruct (find_by_name names name) as [i|] eqn:F.
  2:{ apply same_effect. intros; congruence. }
  destruct (Hn _ _ F) as (x & X & _). rewrite X. destruct (is_member x) eqn:M; cbn [negb].
  2:{ apply same_effect. intros i' x' p E1 E2. rewrite F in E1. injection E1 as <-. rewrite X in E2. injection E2 as <-. congruence. }
  destruct (N.ltb_spec n (s_count x)) as [C|C].
  { apply same_effect. intros i' x' p E1 E2 _ ?. rewrite F in E1. injection E1 as <-. rewrite X in E2. injection E2 as <-. lia. }
  destruct (nth_N l (s_parent x)) as [p|] eqn:P.
  2:{ apply same_effect. intros i' x' p E1 E2 _ _ _ ? _. rewrite F in E1. injection E1 as <-. rewrite X in E2. injection E2 as <-. congruence. }
  pose proof (binds_b (s_type x) ty) as B.
  set (b := if ty =? 0 then s_type x =? T_STRING else if ty =? 1 then s_type x =? T_FLOAT else if ty =? 2 then (s_type x =? T_INT) || (s_type x =? T_FUNCTION) else false) in *.
  (* the common end: [l1] is [l] with the class perhaps bound *)
  assert (K : forall l1, (s_reg p = None /\ l1 = set_N l (s_parent x) (with_class p (s_csize p) (Some cls)) \/ s_reg p = Some cls /\ l1 = l) ->
    let (l', o) := match (if b then Ret i else Throw MemberRegistration) with
                   | Ret i => match nth_N l1 i with None => (l1, Undef) | Some s => (set_N l1 i (with_member s (u32 off) (Some cls)), Ret tt) end
                   | Throw e => (l1, Throw e) | Undef => (l1, Undef) | Fuel => (l1, Fuel) end in
    effect names name ty n cls off l l' o).
  { intros l1 Hl1.
    assert (S1 : forall j z, nth_N l j = Some z -> exists z', nth_N l1 j = Some z' /\ alike z z' /\ s_moff z' = s_moff z /\
       (s_reg z' = s_reg z \/ s_reg z = None /\ s_reg z' = Some cls) /\ (j <> s_parent x -> z' = z)).
    { intros j z J. destruct Hl1 as [[R ->]|[R ->]].
      - destruct (set_alike l (s_parent x) (with_class p (s_csize p) (Some cls)) p P ltac:(repeat split) j z J) as (z' & E & A & Q1 & Q2).
        exists z'. split; [exact E|]. split; [exact A|]. destruct (N.eq_dec j (s_parent x)) as [Ej|Ne].
        + rewrite (Q2 Ej). rewrite Ej in J. rewrite P in J. injection J as <-. cbn [with_class s_moff s_reg]. split; [reflexivity|]. split; [right; auto | congruence].
        + rewrite (Q1 Ne). auto.
      - exists z. split; [exact J|]. split; [apply alike_refl|]. auto. }
    destruct (S1 i x X) as (x1 & X1 & A1 & M1 & R1 & Q1).
    destruct b eqn:Eb.
    - rewrite X1. split; [auto|]. split; [|split].
      + intros j y J. destruct (S1 j y J) as (y1 & J1 & B1 & B2 & B3 & B4).
        destruct (set_alike l1 i (with_member x1 (u32 off) (Some cls)) x1 X1 ltac:(repeat split) j y1 J1) as (y' & E & A & C1 & C2).
        exists y'. split; [exact E|]. split; [eapply alike_trans; eassumption|]. intros Ne.
        assert (Hj : j <> i) by (intros ->; apply Ne; exact F). rewrite (C1 Hj). split; [exact B2|]. split; [exact B3|].
        intros Hp. apply B4. intros Ej. exact (Hp i x F X (eq_sym Ej)).
      + intros _. destruct (set_alike l1 i (with_member x1 (u32 off) (Some cls)) x1 X1 ltac:(repeat split) i x1 X1) as (y' & E & A & C1 & C2).
        exists i, x, y'. rewrite (C2 eq_refl) in *. split; [exact F|]. split; [exact X|]. split; [exact E|]. split; [exact M|].
        split; [exact C|]. split; [apply B; reflexivity|]. split; [eapply alike_trans; eassumption|]. split; reflexivity.
      + auto.
    - split; [eauto|]. split; [|split; [discriminate|]].
      + intros j y J. destruct (S1 j y J) as (y1 & J1 & B1 & B2 & B3 & B4). exists y1. split; [exact J1|]. split; [exact B1|].
        intros _. split; [exact B2|]. split; [exact B3|]. intros Hp. apply B4. intros Ej. exact (Hp i x F X (eq_sym Ej)).
      + intros i' x' p' E1 E2 _ _ Hb _ _. rewrite F in E1. injection E1 as <-. rewrite X in E2. injection E2 as <-. apply B in Hb. discriminate. }
  destruct (s_reg p) as [r|] eqn:R.
  - destruct (N.eqb_spec r cls) as [->|Ne]; [apply K; auto|].
    apply same_effect. intros i' x' p' E1 E2 _ _ _ E3 E4. rewrite F in E1. injection E1 as <-. rewrite X in E2. injection E2 as <-.
    rewrite P in E3. injection E3 as <-. destruct E4 as [E4|E4]; congruence.
  - apply K; auto.
Qed.

(** ** All registrations *)
Lemma alike_member y y' : alike y y' -> is_member y' = is_member y.
Proof. intros (_ & _ & _ & _ & _ & E). unfold is_member, has_flag. rewrite E. reflexivity. Qed.
Lemma nodup_parts {A B} (g : A -> list B) l : NoDup (flat_map g l) -> forall a b m, In a l -> In b l -> In m (g a) -> In m (g b) -> a = b.
Proof.
  induction l as [|x l IH]; intros N a b m I J Ha Hb; [destruct I|]. cbn [flat_map] in N.
  assert (D : forall c, In m (g x) -> In c l -> In m (g c) -> False).
  { intros c H1 H2 H3. clear - N H1 H2 H3. induction (g x) as [|y q IHq]; [destruct H1|]. cbn [app] in N. inversion N as [|? ? N1 N2]; subst.
    destruct H1 as [->|H1]; [|apply IHq; assumption]. apply N1. apply in_or_app. right. apply in_flat_map. eauto. }
  destruct I as [<-|I], J as [<-|J]; [reflexivity | exfalso; eapply D; eassumption | exfalso; eapply D; eassumption |].
  apply (IH) with (m := m); try assumption. clear - N. induction (g x); [exact N|]. inversion N; auto.
Qed.
Lemma nodup_right {A} (a b : list A) : NoDup (a ++ b) -> NoDup b.
Proof. induction a; intros N; [exact N|]. inversion N; auto. Qed.
Lemma nodup_part {A B} (g : A -> list B) l : NoDup (flat_map g l) -> forall a, In a l -> NoDup (g a).
Proof.
  induction l as [|x l IH]; intros N a I; [destruct I|]. cbn [flat_map] in N. destruct I as [<-|I].
  - clear - N. induction (g x) as [|y q IHq]; [constructor|]. cbn [app] in N. inversion N as [|? ? N1 N2]; subst. constructor; [|auto].
    intros H. apply N1. apply in_or_app. auto.
  - apply IH; [apply nodup_right in N; exact N | exact I].
Qed.
Lemma member_once k k' m f f' : In k script_classes -> In k' script_classes -> In (m, f) (pairs k) -> In (m, f') (pairs k') -> k = k' /\ f = f'.
Proof.
  intros Hk Hk' I J. assert (N : NoDup (flat_map (fun k => map fst (pairs k)) script_classes)).
  { pose proof names_uniq as N. apply NoDup_map_inv in N. apply nodup_right in N. exact N. }
  assert (E : k = k') by (apply (nodup_parts _ _ N k k' m); try assumption; [apply (in_map fst _ _ I) | apply (in_map fst _ _ J)]).
  subst k'. split; [reflexivity|]. pose proof (nodup_part _ _ N k Hk) as N2.
  assert (E : (m, f) = (m, f')) by (apply (nodup_map fst _ N2); try assumption; reflexivity). congruence.
Qed.
Lemma class_once k k' : In k script_classes -> In k' script_classes -> k_sym k = k_sym k' -> k = k'.
Proof.
  intros I J E. pose proof names_uniq as N. apply NoDup_map_inv in N. unfold names_of in N.
  assert (N2 : NoDup (map k_sym script_classes)).
  { clear - N. induction (map k_sym script_classes) as [|y q IHq]; [constructor|]. cbn [app] in N. inversion N as [|? ? N1 N2]; subst. constructor; [|auto].
    intros H. apply N1. apply in_or_app. auto. }
  apply (nodup_map k_sym _ N2); assumption.
Qed.
Lemma class_no_member k k' m f : In k script_classes -> In k' script_classes -> In (m, f) (pairs k) -> m <> k_sym k'.
Proof.
  intros I J H E. pose proof names_uniq as N. apply NoDup_map_inv in N. unfold names_of in N.
  assert (H1 : In m (map k_sym script_classes)) by (rewrite E; apply in_map; exact J).
  assert (H2 : In m (flat_map (fun k => map fst (pairs k)) script_classes)).
  { apply in_flat_map. exists k. split; [exact I | apply (in_map fst _ _ H)]. }
  clear - N H1 H2. induction (map k_sym script_classes) as [|y q IHq]; [destruct H1|]. cbn [app] in N. inversion N as [|? ? N1 N2]; subst.
  destruct H1 as [->|H1]; [|auto]. apply N1. apply in_or_app. auto.
Qed.

Section Run.
  Variable names : list (bytes * N).
  Definition hits (o : klass_reg * (string * string)) (i : N) : Prop := find_by_name names (lit (fst (snd o))) = Some i.
  Definition known (o : klass_reg * (string * string)) : Prop := In (fst o) script_classes /\ In (snd o) (pairs (fst o)).
  Lemma same_index l a b i : named names l -> In a (names_of script_classes) -> In b (names_of script_classes) ->
    find_by_name names (lit a) = Some i -> find_by_name names (lit b) = Some i -> a = b.
  Proof.
    intros Hn I J A B. destruct (Hn _ _ A) as (x & X & E1). destruct (Hn _ _ B) as (y & Y & E2). rewrite X in Y. injection Y as <-.
    apply names_differ; congruence.
  Qed.
  Lemma hits_once l a b i : named names l -> known a -> known b -> hits a i -> hits b i -> a = b.
  Proof.
    intros Hn [A1 A2] [B1 B2] H1 H2. destruct a as [k [m f]], b as [k' [m' f']]. cbn [fst snd] in *. unfold hits in *. cbn [fst snd] in *.
    assert (E : m = m') by (apply (same_index l m m' i Hn); try assumption; [exact (in_names k m f A1 A2) | exact (in_names k' m' f' B1 B2)]). subst m'.
    destruct (member_once k k' m f f' A1 B1 A2 B2) as [-> ->]. reflexivity.
  Qed.
  Definition at_field (o : klass_reg * (string * string)) (l' : list sym) : Prop :=
    exists i x off ty n, hits o i /\ nth_N l' i = Some x /\ find_field base_size (k_fields (fst o)) (snd (snd o)) = Some (off, ty, n) /\
      s_reg x = Some (k_id (fst o)) /\ s_moff x = off /\ s_count x <= n /\ binds (s_type x) ty /\ is_member x = true.
  Lemma known_field o : known o -> exists off ty n, find_field base_size (k_fields (fst o)) (snd (snd o)) = Some (off, ty, n) /\ off + n * ty_size ty <= 2 ^ 31.
  Proof.
    intros [H1 H2]. destruct o as [k [m f]]. cbn [fst snd] in *. destruct (class_ok k H1) as [_ F]. specialize (F m f H2). unfold field_ok in F.
    destruct (find_field base_size (k_fields k) f) as [[[off ty] n]|]; [|discriminate]. exists off, ty, n. split; [reflexivity | apply N.leb_le; exact F].
  Qed.
  Lemma step_is o l off ty n : find_field base_size (k_fields (fst o)) (snd (snd o)) = Some (off, ty, n) ->
    step names o l = register_member l names ty n (lit (fst (snd o))) (k_id (fst o)) off.
  Proof. intros E. unfold step, register_field. rewrite E. reflexivity. Qed.
  Lemma named_alike l l' : named names l -> (forall j y, nth_N l j = Some y -> exists y', nth_N l' j = Some y' /\ alike y y') -> named names l'.
  Proof.
    intros Hn H a i F. destruct (Hn _ _ F) as (x & X & E). destruct (H _ _ X) as (x' & X' & A). exists x'. split; [exact X'|].
    destruct A as (A & _). congruence.
  Qed.
  Lemma run_effect xs : forall l l' o, named names l -> Forall known xs -> in_turn (step names) xs l = (l', o) ->
    (o = Ret tt \/ exists e, o = Throw e) /\
    (forall j y, nth_N l j = Some y -> exists y', nth_N l' j = Some y' /\ alike y y' /\
       ((forall a, In a xs -> ~ hits a j) ->
         s_moff y' = s_moff y /\ (s_reg y <> None -> s_reg y' = s_reg y) /\
         ((forall a i x, In a xs -> hits a i -> nth_N l i = Some x -> s_parent x <> j) -> y' = y))) /\
    (o = Ret tt -> forall a, In a xs -> at_field a l').
  Proof.
    induction xs as [|a xs IH]; intros l l' o Hn Hk H.
    { injection H as <- <-. split; [auto|]. split; [|intros _ ? []]. intros j y J. exists y. split; [exact J|]. split; [apply alike_refl|]. auto. }
    inversion Hk as [|? ? Ka Kx]; subst. cbn [in_turn] in H.
    destruct (known_field a Ka) as (off & ty & n & Ff & Fo). rewrite (step_is a l off ty n Ff) in H.
    pose proof (register_effect names (lit (fst (snd a))) ty n (k_id (fst a)) off l Hn) as E.
    destruct (register_member l names ty n (lit (fst (snd a))) (k_id (fst a)) off) as [l1 o1]. destruct E as (E1 & E2 & E3 & _).
    destruct o1 as [[]|e| |].
    - assert (Hn1 : named names l1) by (apply (named_alike l l1 Hn); intros j y J; destruct (E2 j y J) as (y' & A & B & _); eauto).
      destruct (IH l1 l' o Hn1 Kx H) as (I1 & I2 & I3). split; [exact I1|]. split.
      + intros j y J. destruct (E2 j y J) as (y1 & J1 & A1 & Q1). destruct (I2 j y1 J1) as (y2 & J2 & A2 & Q2).
        exists y2. split; [exact J2|]. split; [eapply alike_trans; eassumption|]. intros Hh.
        destruct Q1 as (Q3 & Q4 & Q5); [exact (Hh a (or_introl eq_refl))|].
        destruct Q2 as (Q6 & Q7 & Q8); [intros b Hb; apply Hh; right; exact Hb|].
        split; [congruence|]. split.
        * intros Hr. destruct Q4 as [Q4|[Q4 _]]; [|contradiction]. rewrite Q7; congruence.
        * intros Hp. assert (E : y1 = y) by (apply Q5; intros i x F X; apply (Hp a i x (or_introl eq_refl) F X)). subst y1.
          apply Q8. intros b i x Hb F X. destruct (Hn _ _ F) as (x0 & X0 & _). destruct (E2 i x0 X0) as (x1 & X1 & A3 & _).
          rewrite X1 in X. injection X as <-. destruct A3 as (_ & _ & -> & _). apply (Hp b i x0 (or_intror Hb) F X0).
      + intros Eo b [<-|Hb]; [|exact (I3 Eo b Hb)].
        destruct (E3 eq_refl) as (i & x & x1 & F & X & X1 & M & C & B & A & O & R).
        destruct (I2 i x1 X1) as (x2 & X2 & A2 & Q2).
        (* either a later registration is the same one, or nothing touches the symbol again *)
        assert (Hd : (exists b, In b xs /\ hits b i) \/ (forall b, In b xs -> ~ hits b i)).
        { clear. induction xs as [|b xs IH]; [right; intros ? []|]. unfold hits in *.
          destruct (find_by_name names (lit (fst (snd b)))) as [j|] eqn:Fb.
          - destruct (N.eq_dec j i) as [->|Ne]; [left; exists b; split; [left; reflexivity | exact Fb]|].
            destruct IH as [(c & Hc & Fc)|IH]; [left; exists c; split; [right; exact Hc | exact Fc]|].
            right. intros c [<-|Hc]; [congruence | apply IH; exact Hc].
          - destruct IH as [(c & Hc & Fc)|IH]; [left; exists c; split; [right; exact Hc | exact Fc]|].
            right. intros c [<-|Hc]; [congruence | apply IH; exact Hc]. }
        destruct Hd as [(b & Hb & Fb)|Hd].
        * assert (Eab : b = a).
          { apply (hits_once l b a i Hn); [rewrite Forall_forall in Kx; apply Kx; exact Hb | exact Ka | exact Fb | exact F]. }
          subst b. exact (I3 Eo a Hb).
        * destruct (Q2 Hd) as (Q3 & Q4 & _). exists i, x2, off, ty, n. split; [exact F|]. split; [exact X2|]. split; [exact Ff|].
          split; [rewrite Q4; congruence|]. split.
          { rewrite Q3, O. unfold u32. apply N.mod_small. change (2 ^ 31) with 2147483648 in Fo. change (2 ^ 32) with 4294967296. lia. }
          pose proof (alike_trans _ _ _ A A2) as A3. pose proof (alike_member _ _ A3) as A4. destruct A3 as (_ & _ & _ & -> & -> & _). rewrite A4. auto.
    - injection H as <- <-. split; [eauto|]. split; [|discriminate]. intros j y J. destruct (E2 j y J) as (y1 & J1 & A1 & Q1).
      exists y1. split; [exact J1|]. split; [exact A1|]. intros Hh. destruct Q1 as (Q3 & Q4 & Q5); [exact (Hh a (or_introl eq_refl))|].
      split; [exact Q3|]. split; [intros Hr; destruct Q4 as [Q4|[Q4 _]]; [exact Q4 | contradiction]|].
      intros Hp. apply Q5. intros i x F X. exact (Hp a i x (or_introl eq_refl) F X).
    - exfalso. destruct E1 as [E1|(? & E1)]; discriminate.
    - exfalso. destruct E1 as [E1|(? & E1)]; discriminate.
  Qed.
  Lemma run_succeeds xs : forall l, named names l -> Forall known xs ->
    (forall k m f, In (k, (m, f)) xs -> declared names l k m f) -> exists l', in_turn (step names) xs l = (l', Ret tt).
  Proof.
    induction xs as [|a xs IH]; intros l Hn Hk Hd; [eexists; reflexivity|]. inversion Hk as [|? ? Ka Kx]; subst. cbn [in_turn].
    destruct a as [k [m f]]. destruct (Hd k m f (or_introl eq_refl)) as (i & x & off & ty & n & p & y & F & X & Ff & M & C & B & P & Pp & Y & R).
    rewrite (step_is (k, (m, f)) l off ty n Ff). cbn [fst snd].
    pose proof (register_effect names (lit m) ty n (k_id k) off l Hn) as E.
    destruct (register_member l names ty n (lit m) (k_id k) off) as [l1 o1]. destruct E as (_ & E2 & _ & E4).
    rewrite <- Pp in Y. rewrite (E4 i x y F X M C B Y R). rewrite Pp in Y.
    assert (Hn1 : named names l1) by (apply (named_alike l l1 Hn); intros j z J; destruct (E2 j z J) as (z' & A & A' & _); eauto).
    apply IH; [exact Hn1 | exact Kx|]. intros k' m' f' I'.
    destruct (Hd k' m' f' (or_intror I')) as (i' & x' & off' & ty' & n' & p' & y' & F' & X' & Ff' & M' & C' & B' & P' & Pp' & Y' & R').
    destruct (E2 i' x' X') as (x1 & X1 & A1 & _). destruct (E2 p' y' Y') as (y1 & Y1 & A2 & Q).
    rewrite Forall_forall in Kx. destruct (Kx _ I') as [Kk' Km']. destruct Ka as [Kk Km]. cbn [fst snd] in *.
    exists i', x1, off', ty', n', p', y1. split; [exact F'|]. split; [exact X1|]. split; [exact Ff'|].
    rewrite (alike_member _ _ A1). pose proof A1 as (_ & _ & -> & -> & -> & _). split; [exact M'|]. split; [exact C'|]. split; [exact B'|].
    split; [exact P'|]. split; [exact Pp'|]. split; [exact Y1|].
    assert (Nh : find_by_name names (lit m) <> Some p').
    { intros E. apply (class_no_member k k' m f Kk Kk' Km).
      apply (same_index l m (k_sym k') p' Hn); [exact (in_names k m f Kk Km) | unfold names_of; apply in_or_app; left; apply in_map; exact Kk' | exact E | exact P']. }
    destruct (Q Nh) as (_ & Q2 & Q3). destruct (N.eq_dec p p') as [->|Ne].
    - assert (Ek : k = k').
      { apply class_once; try assumption. apply (same_index l _ _ p' Hn); [| | exact P | exact P']; unfold names_of; apply in_or_app; left; apply in_map; assumption. }
      subst k'. destruct Q2 as [->|[_ ->]]; auto.
    - rewrite Q3; [exact R'|]. intros i2 x2 F2 X2. rewrite F in F2. injection F2 as <-. rewrite X in X2. injection X2 as <-. congruence.
  Qed.
End Run.

(** ** Fields do not overlap *)
Lemma align_up off t : off <= (off + (ty_align t - 1)) / ty_align t * ty_align t.
Proof.
  assert (H : ty_align t = 4 \/ ty_align t = 8) by (unfold ty_align; destruct ((t =? 0) || (t =? 3)); auto).
  destruct H as [->| ->].
  - pose proof (N.div_mod (off + (4 - 1)) 4 ltac:(discriminate)) as D. pose proof (N.mod_lt (off + (4 - 1)) 4 ltac:(discriminate)). lia.
  - pose proof (N.div_mod (off + (8 - 1)) 8 ltac:(discriminate)) as D. pose proof (N.mod_lt (off + (8 - 1)) 8 ltac:(discriminate)). lia.
Qed.
Lemma find_field_from fs : forall off name o ty n, find_field off fs name = Some (o, ty, n) -> off <= o.
Proof.
  induction fs as [|f fs IH]; intros off name o ty n H; [discriminate|]. cbn [find_field] in H.
  pose proof (align_up off (fd_ty f)) as A. set (z := (off + (ty_align (fd_ty f) - 1)) / ty_align (fd_ty f) * ty_align (fd_ty f)) in *.
  destruct (String.eqb (fd_name f) name).
  - injection H as <- _ _. exact A.
  - apply IH in H. lia.
Qed.
Lemma fields_apart fs : forall off a b o1 t1 n1 o2 t2 n2, a <> b ->
  find_field off fs a = Some (o1, t1, n1) -> find_field off fs b = Some (o2, t2, n2) ->
  o1 + n1 * ty_size t1 <= o2 \/ o2 + n2 * ty_size t2 <= o1.
Proof.
  induction fs as [|f fs IH]; intros off a b o1 t1 n1 o2 t2 n2 Ne A B; [discriminate|]. cbn [find_field] in A, B.
  set (z := (off + (ty_align (fd_ty f) - 1)) / ty_align (fd_ty f) * ty_align (fd_ty f)) in *.
  destruct (String.eqb_spec (fd_name f) a) as [Ea|_], (String.eqb_spec (fd_name f) b) as [Eb|_].
  - congruence.
  - injection A as <- <- <-. apply find_field_from in B. auto.
  - injection B as <- <- <-. apply find_field_from in A. auto.
  - eapply IH; eassumption.
Qed.
Lemma el_size_ty t ty : binds t ty -> el_size t = ty_size ty.
Proof.
  destruct ty as [|[[p|p|]|[p|p|]|]]; cbn [binds]; intros H; try contradiction; try (rewrite H; reflexivity).
  destruct H as [->| ->]; reflexivity.
Qed.

(** ** The properties *)
Lemma ops_known names : Forall known (ops names).
Proof. apply Forall_forall. intros [k [m f]] I. apply in_ops in I. apply offered_pair in I. exact I. Qed.
Lemma members_bound : forall names l l', named names l -> register_all names l = (l', Ret tt) ->
  forall k m f, offered names k m f ->
  exists i x off ty n, find_by_name names (lit m) = Some i /\ nth_N l' i = Some x /\
    find_field base_size (k_fields k) f = Some (off, ty, n) /\
    s_reg x = Some (k_id k) /\ s_moff x = off /\ s_count x <= n /\ binds (s_type x) ty /\ is_member x = true.
Proof.
  intros names l l' Hn H k m f Ho. rewrite register_all_ops in H.
  destruct (run_effect names _ l l' _ Hn (ops_known names) H) as (_ & _ & A). apply in_ops in Ho. exact (A eq_refl _ Ho).
Qed.
Lemma members_apart : forall names l l' s, named names l -> register_all names l = (l', Ret tt) -> v_syms s = l' ->
  layout_ok (offered_symbol names) s.
Proof.
  intros names l l' s Hn H Es i x (k & m & f & Ho & F) X _. rewrite Es in *.
  destruct (members_bound names l l' Hn H k m f Ho) as (i1 & x1 & o1 & t1 & n1 & F1 & X1 & G1 & R1 & O1 & C1 & B1 & _).
  rewrite F in F1. injection F1 as <-. rewrite X in X1. injection X1 as <-.
  destruct (offered_pair names k m f Ho) as [Hk Hp]. destruct (class_ok k Hk) as [Hu Hf]. specialize (Hf m f Hp). unfold field_ok in Hf. rewrite G1 in Hf. apply N.leb_le in Hf.
  rewrite O1, (el_size_ty _ _ B1).
  assert (S1 : s_count x * ty_size t1 <= n1 * ty_size t1) by (apply N.mul_le_mono_r; exact C1).
  split; [change (2 ^ 31) with 2147483648 in Hf; change (2 ^ 32) with 4294967296; lia|].
  intros j y (k' & m' & f' & Ho' & F') Ne Y _ Er.
  destruct (members_bound names l l' Hn H k' m' f' Ho') as (i2 & x2 & o2 & t2 & n2 & F2 & X2 & G2 & R2 & O2 & C2 & B2 & _).
  rewrite F' in F2. injection F2 as <-. rewrite Y in X2. injection X2 as <-.
  destruct (offered_pair names k' m' f' Ho') as [Hk' Hp'].
  assert (Ek : k = k') by (apply ids_uniq; [exact Hk | exact Hk' | congruence]). subst k'.
  assert (Nf : f <> f').
  { intros ->. assert (E : (m, f') = (m', f')) by (apply (nodup_map snd _ Hu); try assumption; reflexivity). injection E as ->. congruence. }
  rewrite O2, (el_size_ty _ _ B2).
  assert (S2 : s_count y * ty_size t2 <= n2 * ty_size t2) by (apply N.mul_le_mono_r; exact C2).
  destruct (fields_apart (k_fields k) base_size f f' _ _ _ _ _ _ Nf G1 G2); lia.
Qed.
Lemma loaded_named : forall b sc r extra, load_script b = Ret (sc, r) -> named (sc_names sc) (sc_syms sc ++ extra).
Proof.
  intros b sc r extra H n i F. destruct (load_script_lookup _ _ _ H) as [L _]. specialize (L n). rewrite F in L. cbn in L.
  destruct L as [(x & X & E) _]. apply bytes_eqb_spec in E. exists x. split; [|exact E].
  rewrite nth_N_error in *. rewrite nth_error_app1; [exact X|]. apply nth_error_Some. congruence.
Qed.
Lemma registers : forall names l, named names l -> (forall k m f, offered names k m f -> declared names l k m f) ->
  exists l', register_all names l = (l', Ret tt).
Proof.
  intros names l Hn Hd. rewrite register_all_ops. apply run_succeeds; [exact Hn | apply ops_known|].
  intros k m f I. apply Hd. apply in_ops. exact I.
Qed.
Lemma registering_rest : forall names l l' o, named names l -> register_all names l = (l', o) ->
  (o = Ret tt \/ exists e, o = Throw e) /\
  forall j y, nth_N l j = Some y -> ~ offered_symbol names j ->
    (forall i x, offered_symbol names i -> nth_N l i = Some x -> s_parent x <> j) -> nth_N l' j = Some y.
Proof.
  intros names l l' o Hn H. rewrite register_all_ops in H.
  destruct (run_effect names _ l l' _ Hn (ops_known names) H) as (A & B & _). split; [exact A|].
  intros j y J Nj Np. destruct (B j y J) as (y' & J' & _ & Q). rewrite J'. f_equal.
  assert (Hh : forall a i, In a (ops names) -> hits names a i -> offered_symbol names i).
  { intros [k [m f]] i I F. apply in_ops in I. exists k, m, f. split; [exact I | exact F]. }
  destruct Q as (_ & _ & Q); [intros a I F; apply Nj; eapply Hh; eassumption|]. apply Q. intros a i x I F X. apply (Np i x); [eapply Hh; eassumption | exact X].
Qed.
Lemma members_spelled : forall names k m f, offered names k m f -> same_name m f \/ In (m, f) renamed.
Proof.
  intros names k m f H. apply offered_pair in H as [Hk Hp].
  assert (T : forallb (fun k => forallb (fun mf => String.eqb (plain_name (after_dot (fst mf))) (plain_name (snd mf)) ||
     existsb (fun r => String.eqb (fst r) (fst mf) && String.eqb (snd r) (snd mf)) renamed) (pairs k)) script_classes = true)
    by (vm_compute; reflexivity).
  rewrite forallb_forall in T. specialize (T _ Hk). cbv beta in T. rewrite forallb_forall in T. specialize (T _ Hp). cbn [fst snd] in T.
  apply orb_prop in T as [T|T]; [left; apply String.eqb_eq in T; exact T|].
  right. apply existsb_exists in T as ([a b] & I & E). apply andb_prop in E as [E1 E2]. apply String.eqb_eq in E1, E2. cbn [fst snd] in *. subst. exact I.
Qed.

(** ** The tables are complete *)
Definition covered_b (ms : list (option string * string * string)) (f : field) : bool :=
  (fd_ty f =? 3) || existsb (fun x => String.eqb (snd x) (fd_name f)) ms.
Lemma covered_check : forallb (fun k => let ms := members k in forallb (covered_b ms) (k_fields k)) script_classes = true.
Proof. vm_compute. reflexivity. Qed.
Lemma fields_covered : forall k f, In k script_classes -> In f (k_fields k) -> fd_ty f = 3 \/ exists g m, In (g, m, fd_name f) (members k).
Proof.
  intros k f Hk Hf. pose proof covered_check as C. rewrite forallb_forall in C. specialize (C k Hk).
  cbv beta zeta in C. rewrite forallb_forall in C. specialize (C f Hf). unfold covered_b in C. apply Bool.orb_true_iff in C as [C|C].
  - left. apply N.eqb_eq, C.
  - right. apply existsb_exists in C as [[[g m] n] [I E]]. apply String.eqb_eq in E. cbn in E. subst n. eauto.
Qed.
Lemma class_check : forallb (fun k => let ms := members k in let kn := plain_name (k_sym k) in
   forallb (fun x => String.eqb (plain_name (before_dot (snd (fst x)))) kn
     && match fst (fst x) with None => true | Some g => String.eqb g (snd (fst x)) || existsb (fun y => String.eqb g (snd (fst y))) ms end) ms) script_classes = true.
Proof. vm_compute. reflexivity. Qed.
Lemma members_of_class : forall k g m f, In k script_classes -> In (g, m, f) (members k) -> of_class m (k_sym k) /\
  match g with None => True | Some g => exists g' f', In (g', g, f') (members k) end.
Proof.
  intros k g m f Hk Hm. pose proof class_check as C. rewrite forallb_forall in C. specialize (C k Hk).
  cbv beta zeta in C. rewrite forallb_forall in C. specialize (C _ Hm). cbn [fst snd] in C. apply Bool.andb_true_iff in C as [C D].
  split; [apply String.eqb_eq, C|]. destruct g as [g|]; [|exact I]. apply Bool.orb_true_iff in D as [D|D]; [apply String.eqb_eq in D; subst g; eauto|]. apply existsb_exists in D as [[[g' m'] f'] [I E]].
  apply String.eqb_eq in E. cbn in E. subst m'. eauto.
Qed.
Lemma classes_known : map k_sym script_classes = class_names /\ NoDup (map k_id script_classes).
Proof.
  split; [vm_compute; reflexivity|]. change (NoDup [1;2;3;4;5;6;7;8;9;10;11;12;13;14;15;16;17;18;19;20;21]).
  repeat (constructor; [cbn; intuition discriminate|]). constructor.
Qed.
