(** Proofs of the archive properties from the lemmas of the layers. *)

From Coq Require Import String.
From Verif Require Import MBase MStream MBoxes MText MClasses MArchive SStream SArchive.
From Verif Require Import LBase LGraph LArchW LArchR LArchH LArchP.
Local Open Scope N_scope.
Local Open Scope m_scope.

Lemma class_names : forall t,
  (t <> ignored -> t <> unknown -> exists c, class_of_type t = Some c) /\
  (forall c, class_of_type t = Some c -> type_of_class c = t).
Proof.
  intros t. split.
  - intros H1 H2. destruct t; try (eexists; vm_compute; reflexivity); [contradiction H1 | contradiction H2]; reflexivity.
  - intros c Hc. destruct t; vm_compute in Hc; try discriminate; injection Hc as <-; vm_compute; reflexivity.
Qed.
Lemma class_types : forall c t, type_of_class c = t -> t <> unknown -> class_of_type t = Some c.
Proof.
  intros c t H Hu. unfold type_of_class in H. destruct (find _ objects_table) as [e|] eqn:Ef; [|congruence].
  apply find_some in Ef as [Hin Hc]. apply (proj1 (bytes_eqb_spec _ _)) in Hc. subst c.
  assert (HF : Forall (fun e => class_of_type (snd e) = Some (fst e)) objects_table) by (repeat (constructor; [vm_compute; reflexivity|]); constructor).
  rewrite Forall_forall in HF. rewrite <- H. apply HF, Hin.
Qed.

Lemma binsafe_entries : forall e save l,
  Forall (fun x => len (fst x) < 2 ^ 16 /\ entry_ok ABinsafe (snd x) = true) l -> entries_fit ABinsafe e l ->
  entries_come_back ABinsafe e save l.
Proof.
  intros e save l H. apply entries_round_trip. eapply Forall_impl; [|exact H]. intros x [H1 H2]. split; [|exact H2].
  apply N.ltb_lt. exact H1.
Qed.
Lemma binary_entries : forall e save l,
  Forall (fun x => entry_ok ABinary (snd x) = true) l -> entries_fit ABinary e l ->
  entries_come_back ABinary e save l.
Proof.
  intros e save l H. apply entries_round_trip. eapply Forall_impl; [|exact H]. intros x H2. split; [reflexivity | exact H2].
Qed.
Lemma ascii_entries : forall e save l,
  Forall (fun x => key_ok AAscii (fst x) = true /\ entry_ok AAscii (snd x) = true) l -> entries_fit AAscii e l ->
  entries_come_back AAscii e save l.
Proof. intros e save l H. apply entries_round_trip. exact H. Qed.

Definition no_env : wenv := mkEnv [] [].
(** A single entry that is read as something else, or not at all. *)
Lemma comes_back_one f e save x s0 : ar_create f e save w_empty = Ret s0 ->
  (forall s1, write_all f [x] s0 = Ret (tt, s1) ->
     forall s, read_all f [kind_of (snd x)] (mkRar (mkR (wbuf (wa_w s1)) (wpos (wa_w s0))) []) <> Ret ([typed (snd x)], s)) ->
  ~ entries_come_back f e save [x].
Proof.
  intros E0 H (s0' & s1 & A & B & D). rewrite E0 in A. injection A as <-. exact (H s1 B _ D).
Qed.
Definition untyped (x : { k : kind & kval k }) : entry :=
  match x with existT _ k v =>
    match k return kval k -> entry with
    | KStr => EStr | KInt => EInt | KFloat => EFloat | KByte => EByte | KWord => EWord | KEnum => EEnum | KBool => EBool
    | KColor => EColor | KVec3 => EVec3 | KVec2 => EVec2 | KBox => EBox | KMat3 => EMat3 | KRaw n => ERaw
    end v
  end.
Definition first_read (o : outcome (list { k : kind & kval k } * rar)) : option entry :=
  match o with Ret (x :: _, _) => Some (untyped x) | _ => None end.
Ltac one := eapply comes_back_one; [vm_compute; reflexivity|]; let s1 := fresh in let B := fresh in
  intros s1 B; vm_compute in B; try discriminate; injection B as <-; intros s X; apply (f_equal first_read) in X; vm_compute in X; discriminate.
Lemma binary_entries_not :
  (exists e save n, n < 2 ^ 32 /\ entries_fit ABinary e [(lit "x", EEnum n)] /\ ~ entries_come_back ABinary e save [(lit "x", EEnum n)]) /\
  (exists e save s, entries_fit ABinary e [(lit "x", EStr s)] /\ ~ entries_come_back ABinary e save [(lit "x", EStr s)]).
Proof.
  split.
  - exists no_env, false, 256. split; [reflexivity|]. split; [split; vm_compute; [reflexivity | discriminate]|]. one.
  - exists no_env, false, ([x41; x0a; x42]). split; [split; vm_compute; [reflexivity | discriminate]|]. one.
Qed.

Lemma comes_back_type f e save x s0 : ar_create f e save w_empty = Ret s0 ->
  (forall s1, write_all f [x] s0 = Ret (tt, s1) ->
     ar_read f (kind_of (snd x)) (mkRar (mkR (wbuf (wa_w s1)) (wpos (wa_w s0))) []) = Throw ParserError) ->
  ~ entries_come_back f e save [x].
Proof.
  intros E0 H. eapply comes_back_one; [exact E0|]. intros s1 B s X. cbn [read_all] in X. unfold bind at 1 in X. rewrite (H s1 B) in X. discriminate.
Qed.
Lemma ascii_never e save name en : entries_fit AAscii e [(name, en)] ->
  key_ok AAscii name = true -> entry_fit AAscii en = true -> stored_type AAscii en <> asked_type AAscii (kind_of en) ->
  ~ entries_come_back AAscii e save [(name, en)].
Proof.
  intros [Hl Hn] Hk Hf Ht. destruct (create_at AAscii e save) as (old & Hold & Lold & E0); [lia|]. specialize (Hold ltac:(discriminate)). subst old.
  eapply comes_back_type; [exact E0|]. intros s1 B. cbn [snd].
  set (hd := header_text AAscii e false ++ head_rest AAscii 0 0) in *.
  assert (Lhd : len hd <= len (header_text AAscii e false) + 25).
  { unfold hd. rewrite len_app, (len_head_rest AAscii) by reflexivity. lia. }
  assert (EP : penc AAscii (put_all [(name, en)] nw_empty) = enc_entry AAscii 0 name 0 en ++ []) by reflexivity.
  cbn [flat_map fst snd] in Hl. rewrite app_nil_r in Hl.
  destruct (write_all_at AAscii hd [] 0 save [(name, en)] nw_empty) as [_ W].
  { split; [|split; [constructor|split; [|split; [reflexivity | exact Hn]]]].
    - change (key_ok AAscii name && (0 <? 2 ^ 32) && entry_fit AAscii en && true = true). rewrite Hk, Hf. reflexivity.
    - rewrite EP, app_nil_r. lia. }
  assert (Es : s1 = Wst AAscii hd [] 0 save (put_all [(name, en)] nw_empty)) by congruence. subst s1. unfold Wst. cbn [wa_w]. unfold wat. rewrite EP, drop_nil, !app_nil_r. cbn [wbuf wpos].
  change (penc AAscii nw_empty) with (@nil byte). change (len (@nil byte)) with 0. rewrite N.add_0_r.
  assert (ST : strip AAscii (enc_entry AAscii 0 name 0 en ++ []) = enc_entry AAscii 0 name 0 en).
  { rewrite app_nil_r. cbn [strip]. pose proof (strip_entry 0 name 0 en [] Hk) as K. rewrite app_nil_r in K. rewrite K.
    cbn [enc_entry tabs repeat]. unfold as_line. rewrite <- ?app_assoc, ?app_nil_r. reflexivity. }
  assert (LD : len (hd ++ enc_entry AAscii 0 name 0 en) < 2 ^ 31) by (rewrite len_app; lia).
  pose proof (wrong_type AAscii _ (kind_of en) 0 name 0 en [] [] LD ltac:(discriminate) Hk Hf ltac:(cbn; discriminate)) as Wt.
  unfold rat in Wt. rewrite ST in Wt. unfold pos in Wt. rewrite len_app, N.add_sub in Wt. apply Wt; [exists hd; reflexivity | exact Ht].
Qed.
Lemma ascii_entries_not :
  (forall e save n, n < 2 ^ 8 -> entries_fit AAscii e [(lit "x", EByte n)] -> ~ entries_come_back AAscii e save [(lit "x", EByte n)]) /\
  (forall e save n, n < 2 ^ 16 -> entries_fit AAscii e [(lit "x", EWord n)] -> ~ entries_come_back AAscii e save [(lit "x", EWord n)]) /\
  (forall e save m, length m = 9%nat -> Forall f32 m -> entries_fit AAscii e [(lit "x", EMat3 m)] ->
     ~ entries_come_back AAscii e save [(lit "x", EMat3 m)]) /\
  (exists e save, ~ entries_come_back AAscii e save [(lit "x", EInt (- 1000000000))]) /\
  (exists e save, ~ entries_come_back AAscii e save [(lit "x", ERaw [x10; x05])]).
Proof.
  split; [|split; [|split; [|split]]].
  - intros e save n Hn Hf. apply ascii_never; [exact Hf | reflexivity | | vm_compute; discriminate].
    unfold entry_fit. cbn [entry_wf]. apply N.ltb_lt in Hn. rewrite Hn. reflexivity.
  - intros e save n Hn Hf. apply ascii_never; [exact Hf | reflexivity | | vm_compute; discriminate].
    unfold entry_fit. cbn [entry_wf]. apply N.ltb_lt in Hn. rewrite Hn. reflexivity.
  - intros e save m Hm Hm' Hf. apply ascii_never; [exact Hf | reflexivity | | vm_compute; discriminate].
    unfold entry_fit. cbn [entry_wf]. rewrite Hm. cbn [Nat.eqb andb]. rewrite andb_true_r. apply forallb_forall. intros x Hx.
    rewrite Forall_forall in Hm'. apply N.ltb_lt. apply Hm', Hx.
  - exists no_env, false. one.
  - exists no_env, false. one.
Qed.

Lemma skips_next : forall f D h l d X E, len D < 2 ^ 31 ->
  head_ok h = true -> forallb (node_fit f) l = true -> forallb (skip_ok f) l = true -> after_ok f X ->
  suf D (strip f (encode f d (NObj h l) ++ X)) ->
  ar_skip f false (rat f D (encode f d (NObj h l) ++ X) E) = Ret (tt, rat f D X E).
Proof. intros. eapply skip_next; eassumption. Qed.
Lemma skips_inside : forall f D h l1 l2 d X E, len D < 2 ^ 31 ->
  head_ok h = true -> forallb (node_ok f) l1 = true -> forallb (node_fit f) l2 = true ->
  forallb (skip_ok f) (l1 ++ l2) = true -> after_ok f X ->
  suf D (strip f (encode f d (NObj h (l1 ++ l2)) ++ X)) ->
  exists s1 s2,
    ar_begin f (rat f D (encode f d (NObj h (l1 ++ l2)) ++ X) E) =
      Ret (Some (mkH (oh_name h) (shown_class f (oh_class h)) (oh_ver h) (oh_idx h)), s1) /\
    iterM (pass f) l1 s1 = Ret (tt, s2) /\ ar_skip f true s2 = Ret (tt, rat f D X E).
Proof. intros. eapply skip_inside; eassumption. Qed.
Lemma skip_not : exists D h l d X E,
  D = encode ABinsafe d (NObj h l) ++ X /\
  head_ok h = true /\ forallb (node_ok ABinsafe) l = true /\
  ar_skip ABinsafe false (rat ABinsafe D D E) <> Ret (tt, rat ABinsafe D X E).
Proof.
  exists (encode ABinsafe 0 (NObj (mkH (lit "a") (lit "b") 0 1) [NEntry (lit "n") 0 (EStr (lit "[]"))]) ++ []),
    (mkH (lit "a") (lit "b") 0 1), [NEntry (lit "n") 0 (EStr (lit "[]"))], 0%nat, [], [].
  split; [reflexivity|]. split; [reflexivity|]. split; [reflexivity|]. vm_compute. discriminate.
Qed.

Lemma finite_graphs_come_back : forall C G f dom name root e1 e2 save,
  graph_ok C G f -> (forall r, G r <> None -> In r dom) -> (forall a b, refers C G a b -> G b <> None) ->
  (forall r, root = Some r -> G r <> None) ->
  len (we_date e1) = len (we_date e2) -> len (we_user e1) = len (we_user e2) -> env_ok e2 ->
  exists n nd w wc, content C G n name root = Some (nd, w, wc) /\
    (archive_fits f e2 nd (nw_idx w) (nw_keys w) ->
     exists b head h ph,
       save_archive f e1 e2 save (g_graph C G) n name root = Ret b /\
       load_archive (c_load C) (c_flags C) n b = Ret (head, option_map ph root, h) /\
       isomorphic C G root ph h).
Proof.
  intros C G f dom name root e1 e2 save H1 H2 H3 H4 H5 H6 H7.
  destruct (content_total C G f name root dom H1 H2 H3 H4) as (nd & w & wc & Hc).
  exists (S (length dom)), nd, w, wc. split; [exact Hc|]. intros Hf.
  destruct (graphs_come_back C G f e1 e2 save _ name root nd w wc H1 Hc H5 H6 H7 Hf) as (b & h & ph & A & B & D & _).
  exists b. eexists. exists h, ph. split; [exact A|]. split; [exact B | exact D].
Qed.
Lemma headers_come_back : forall C G f e1 e2 save n name root nd w wc,
  graph_ok C G f -> content C G n name root = Some (nd, w, wc) ->
  len (we_date e1) = len (we_date e2) -> len (we_user e1) = len (we_user e2) -> env_ok e2 ->
  archive_fits f e2 nd (nw_idx w) (nw_keys w) ->
  exists b head root' h, save_archive f e1 e2 save (g_graph C G) n name root = Ret b /\
    load_archive (c_load C) (c_flags C) n b = Ret (head, root', h) /\
    header_states f e2 save (len h) b /\
    ah_version head = 1%Z /\ ah_format head = f /\ ah_save head = save /\ ah_archiver head = archiver_of f /\
    ah_user head = we_user e2 /\ ah_date head = we_date e2.
Proof.
  intros C G f e1 e2 save n name root nd w wc H1 Hc H5 H6 H7 Hf.
  destruct (graphs_come_back C G f e1 e2 save _ name root nd w wc H1 Hc H5 H6 H7 Hf) as (b & h & ph & A & B & _ & D).
  exists b. do 2 eexists. exists h. split; [exact A|]. split; [exact B|]. split; [exact D|]. repeat split.
Qed.
(** One object holding a string and a reference to itself. *)
Definition loop_classes : classes :=
  mkClasses (bytes * option oid) (fun ph x => (fst x, option_map ph (snd x)))
    (fun t => if otype_eqb t zCVob then Some (pbind (p_rd KStr) (fun s => pbind (p_obj zCVob) (fun r => PRet (s, r)))) else None)
    (fun _ x => [WEntry (lit "n") (EStr (fst x)); WObj (lit "a") (snd x)])
    (fun _ => zCVob) (fun _ => 1) (fun _ => 0%Z) (fun _ => []).
Definition loop_graph (k : nat) (r : oid) : option (bytes * option oid) := if r =? 0 then Some (repeat x41 k, Some 0) else None.
Lemma loop_ok k f : graph_ok loop_classes (loop_graph k) f.
Proof.
  intros r x Hx. unfold loop_graph in Hx. destruct (N.eqb_spec r 0) as [->|]; [|discriminate]. injection Hx as <-.
  split; [|intros i []]. split; [reflexivity|]. split; [discriminate|].
  intros ph fl rest _ _. eexists. split; [reflexivity|]. reflexivity.
Qed.
Lemma headers_not : exists C G n name root e save b head r h,
  graph_ok C G ABinary /\ G root <> None /\ env_ok e /\
  save_archive ABinary e e save (g_graph C G) n name (Some root) = Ret b /\ len b < 2 ^ 10 /\
  load_archive (c_load C) (c_flags C) n b = Ret (head, r, h) /\
  forall ph, ~ isomorphic C G (Some root) ph h.
Proof.
  exists loop_classes, (loop_graph 233), 2%nat, (lit "x"), 0, no_env, false.
  do 4 eexists. split; [apply loop_ok|]. split; [discriminate|]. split; [split; constructor|].
  split; [vm_compute; reflexivity|]. split; [vm_compute; reflexivity|]. split; [vm_compute; reflexivity|].
  intros ph [Hi _]. destruct (Hi 0) as (x & i & Hx & Hn).
  { exists 0. split; [reflexivity | apply reach_refl]. }
  injection Hx as <-. 
  apply (f_equal (fun o => match o with Some e => match ho_val e with Some v => snd v | None => None end | None => None end)) in Hn.
  unfold nth_N in Hn. cbn [ho_val c_map loop_classes snd option_map] in Hn.
  destruct (ph 0 <? _); [|discriminate]. destruct (N.to_nat (ph 0)) as [|[|]]; cbn [nth_error ho_val snd] in Hn; discriminate.
Qed.
Lemma wrong_types : forall f D k d name key e X E, len D < 2 ^ 31 -> f <> ABinary ->
  key_ok f name = true -> entry_fit f e = true -> after_ok f X ->
  suf D (strip f (enc_entry f d name key e ++ X)) -> stored_type f e <> asked_type f k ->
  ar_read f k (rat f D (enc_entry f d name key e ++ X) E) = Throw ParserError.
Proof. intros. apply wrong_type; assumption. Qed.
Lemma wrong_types_not :
  (exists D b v s, D = enc_entry ABinsafe 0 (lit "x") 0 (EBox b) /\ entry_ok ABinsafe (EBox b) = true /\
     ar_read ABinsafe KVec2 (rat ABinsafe D D []) = Ret (v, s)) /\
  (exists D z n s, D = enc_entry AAscii 0 (lit "x") 0 (EInt z) /\ entry_ok AAscii (EInt z) = true /\
     ar_read AAscii KByte (rat AAscii D D []) = Ret (n, s) /\ Z.of_N n <> z).
Proof.
  split.
  - eexists. exists (mkAabb (mkV3 1 2 3) (mkV3 4 5 6)). do 2 eexists. split; [reflexivity|]. split; [reflexivity|]. vm_compute. reflexivity.
  - eexists. exists 300%Z. do 2 eexists. split; [reflexivity|]. split; [reflexivity|]. split; [vm_compute; reflexivity | discriminate].
Qed.
