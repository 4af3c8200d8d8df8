(** How loading meshes ends. *)

From Coq Require Import String Lia ZifyN ZifyBool ZifyNat.
From Verif Require Import MBase MStream SStream LBase LStream LStreamHist MZipped MBoxes MTexture MText MClasses MArchive SArchive SFormat LFormat LTexture.
From Verif Require Import MVob MVobs MNpc MCutscene MMaterial MWorld MLib SArchEnd LArchEnd LArchEndX MMesh.
From Verif Require Import LMeshIO SMeshEnd.
Local Open Scope N_scope.
Local Open Scope m_scope.

(** ** Lines are parts of the data *)
Lemma char_drop s c s' : r_ok s -> read_char s = Ret (c, s') -> c <> x00 ->
  drop (rpos s) (rdata s) = c :: drop (rpos s + 1) (rdata s) /\ s' = mkR (rdata s) (rpos s + 1).
Proof.
  intros Hs E Hc. destruct (read_char_cases s Hs) as [(c' & E' & Hlt)|(E' & _)]; rewrite E' in E; [|congruence].
  injection E as <- <-. split; [|reflexivity]. destruct s as [d p]. destruct Hs as [_ Hl]. cbn [rdata rpos] in *.
  destruct (drop p d) as [|x post] eqn:Ed.
  { exfalso. pose proof (len_drop p d) as H. rewrite Ed, len_nil in H. lia. }
  assert (El : take p d ++ x :: post = d) by (rewrite <- Ed; apply take_drop).
  pose proof (read_char_at (take p d) x post) as R. rewrite El in R. specialize (R Hl).
  rewrite len_take, N.min_l in R by lia. rewrite R in E'. injection E' as <-.
  f_equal. rewrite N.add_comm, <- drop_drop, Ed, drop_skipn. reflexivity.
Qed.
Lemma until_at : forall fuel s l c s', r_ok s -> read_until_eol fuel s = Ret ((l, c), s') ->
  take (len l) (drop (rpos s) (rdata s)) = l.
Proof.
  induction fuel as [|fuel IH]; intros s l c s' Hs E; [discriminate|]. cbn [read_until_eol] in E. unfold bind in E at 1.
  destruct (read_char s) as [[x s1]| | |] eqn:Ec; try discriminate.
  destruct (beq x x00 || beq x x0d || beq x x0a) eqn:Eb.
  { injection E as <- _ _. apply take_0. }
  assert (Hx : x <> x00) by (intros ->; discriminate Eb).
  destruct (char_drop s x s1 Hs Ec Hx) as [Hd ->].
  unfold bind in E. destruct (read_until_eol fuel (mkR (rdata s) (rpos s + 1))) as [[[l' c'] s2]| | |] eqn:Er; try discriminate.
  injection E as <- _ _. cbn [fst]. assert (Hs1 : r_ok (mkR (rdata s) (rpos s + 1))).
  { destruct Hs as [Hp Hl]. split; cbn [rdata rpos]; [|exact Hl].
    assert (H : len (drop (rpos s) (rdata s)) = len (x :: drop (rpos s + 1) (rdata s))) by (f_equal; exact Hd).
    rewrite len_drop, len_cons in H. lia. }
  specialize (IH _ _ _ _ Hs1 Er). cbn [rdata rpos] in IH. rewrite Hd, len_cons.
  replace (1 + len l') with (N.succ (len l')) by lia. rewrite take_firstn in *. rewrite N2Nat.inj_succ. cbn [firstn]. f_equal. exact IH.
Qed.
Lemma line_part b s l s' : r_ok s -> read_line b s = Ret (l, s') -> exists i, take (len l) (drop i (rdata s)) = l.
Proof.
  intros Hs E. unfold read_line, read_line_then_ignore in E.
  destruct (read_until_eol_fw (S (N.to_nat (len (rdata s) - rpos s))) s Hs ltac:(lia)) as (l' & c & p & E1 & Hp).
  unfold bind in E. rewrite E1 in E. exists (rpos s). cbn [fst snd] in E.
  assert (El : l = l').
  { repeat match type of E with
    | context [if ?x then _ else _] => destruct x
    | context [match ?x with Ret _ => _ | _ => _ end] => destruct x as [[? ?]| | |]; try discriminate
    end; injection E as <- _; reflexivity. }
  subst l'. apply (until_at _ _ _ _ _ Hs E1).
Qed.
(** The format in a header is a line of the file. *)
Lemma format_part s h s' : r_ok s -> head_load s = Ret (h, s') ->
  ah_format h = ABinary \/ (ah_format h = AAscii /\ ~ lacks (lit "ASCII") (rdata s)) \/
  (ah_format h = ABinsafe /\ ~ lacks (lit "BIN_SAFE") (rdata s)).
Proof.
  intros Hs E. unfold head_load in E. cbv zeta in E.
  assert (Step : forall {A B} (r : rd A) (k : A -> rd B) t v t', r_ok t -> rdata t = rdata s -> forward r -> bind r k t = Ret (v, t') ->
     exists a t1, r t = Ret (a, t1) /\ k a t1 = Ret (v, t') /\ r_ok t1 /\ rdata t1 = rdata s).
  { intros A B r k t v t' Ht Hd Hr Ek. unfold bind in Ek. specialize (Hr t Ht). destruct (r t) as [[a t1]| | |]; try discriminate.
    destruct Hr as (Hd1 & Ht1 & _). exists a, t1. rewrite Hd1. auto. }
  apply Step in E as (l1 & s1 & _ & E & H1 & D1); [|assumption|reflexivity|auto with forward].
  match type of E with (if ?x then _ else _) _ = _ => destruct x; [discriminate|] end.
  apply Step in E as (l2 & s2 & _ & E & H2 & D2); [|assumption|assumption|auto with forward].
  match type of E with (if ?x then _ else _) _ = _ => destruct x; [discriminate|] end.
  apply Step in E as (l3 & s3 & _ & E & H3 & D3); [|assumption|assumption|auto with forward].
  match type of E with (if ?x then _ else _) _ = _ => destruct x; [discriminate|] end.
  apply Step in E as (l4 & s4 & _ & E & H4 & D4); [|assumption|assumption|auto with forward].
  apply Step in E as (fl & s5 & Ef & E & H5 & D5); [|assumption|assumption|auto with forward].
  apply line_part in Ef as [i Hi]; [|exact H4]. rewrite D4 in Hi.
  assert (Hf : ah_format h = (if bytes_eqb fl (lit "ASCII") then AAscii else if bytes_eqb fl (lit "BINARY") then ABinary
                              else if bytes_eqb fl (lit "BIN_SAFE") then ABinsafe else ABinary)).
  { apply Step in E as (l6 & s6 & _ & E & H6 & D6); [|assumption|assumption|auto with forward].
    match type of E with (if ?x then _ else _) _ = _ => destruct x; [discriminate|] end.
    apply Step in E as (l7 & s7 & _ & E & H7 & D7); [|assumption|assumption|auto with forward].
    apply Step in E as (l8 & s8 & _ & E & H8 & D8); [|assumption|assumption|auto with forward].
    apply Step in E as (l9 & s9 & _ & E & H9 & D9); [|assumption|assumption|destruct (starts_with _ _); fsteps].
    apply Step in E as (la & sa & _ & E & Ha & Da); [|assumption|assumption|destruct (starts_with _ _); fsteps].
    match type of E with (if ?x then _ else _) _ = _ => destruct x; [discriminate|] end.
    injection E as <- _. reflexivity. }
  destruct (bytes_eqb fl (lit "ASCII")) eqn:E1.
  { right. left. split; [exact Hf|]. intros L. apply bytes_eqb_spec in E1. apply (L i). rewrite <- E1. exact Hi. }
  destruct (bytes_eqb fl (lit "BINARY")); [left; exact Hf|].
  destruct (bytes_eqb fl (lit "BIN_SAFE")) eqn:E2; [|left; exact Hf].
  right. right. split; [exact Hf|]. intros L. apply bytes_eqb_spec in E2. apply (L i). rewrite <- E2. exact Hi.
Qed.

(** ** Materials *)
Inductive flat {A} : prog oid A -> Prop :=
| flat_ret a : flat (PRet a)
| flat_throw e : flat (PThrow e)
| flat_read k c : kind_fit k -> (forall v, flat (c v)) -> flat (PRead k c).
Lemma flat_bind {A B} (p : prog oid A) (k : A -> prog oid B) : flat p -> (forall a, flat (k a)) -> flat (pbind p k).
Proof. intros H Hk. induction H; cbn [pbind]; [apply Hk | constructor | constructor; assumption]. Qed.
Lemma flat_rd k : kind_fit k -> flat (p_rd k).
Proof. intros H. unfold p_rd. constructor; [exact H|]. intros v. constructor. Qed.
Lemma flat_if {A} (b : bool) (p q : prog oid A) : flat p -> flat q -> flat (if b then p else q).
Proof. destruct b; auto. Qed.
Lemma flat_material c : flat (load_material c).
Proof.
  unfold load_material.
  repeat lazymatch goal with
  | |- flat (pbind _ _) => apply flat_bind; [|intros]
  | |- flat p_enum8 => unfold p_enum8
  | |- flat (p_rd _) => apply flat_rd; exact I
  | |- flat (PRet _) => constructor
  | |- flat (PThrow _) => constructor
  | |- flat (if _ then _ else _) => apply flat_if
  | |- flat (match ?x with _ => _ end) => destruct x
  | |- _ => progress cbv zeta
  end.
Qed.

Section Mats.
Variable D : bytes.
Hypothesis HD : len D < 2 ^ 62.
Variable f : fmt.
Hypothesis Hf : f <> AAscii.
Variable u : bool.
Hypothesis Hu : und D f = true -> u = true.
Context {Ob : Type} (flags_of : Ob -> Z).

Lemma runs_flat rec A (pr : prog oid A) : flat pr -> forall p E c h, p <= len D ->
  gmoves D u p E (runp (fmt_prims f) flags_of rec pr (mkRg (st D p E) c h)).
Proof using HD Hf Hu.
  induction 1 as [a|e|k c Hk Hc IH]; intros p E cc h Hp; cbn [runp].
  - exists p, E, cc, h. split; [reflexivity | apply adv_refl; assumption].
  - exact I.
  - apply (gmoves_rgl D HD u p E (val_fit k)); [apply moves_read; assumption|]. intros v q F Hv Hq. destruct Hq as [Hq _].
    apply IH; lia.
Qed.
Lemma gmoves_bind p E {A B} (r : M rg A) (k : A -> M rg B) g :
  gmoves D u p E (r g) -> (forall a q F c h, adv D p E q F -> gmoves D u q F (k a (mkRg (st D q F) c h))) ->
  @gmoves D u Ob p E _ (bind r k g).
Proof using HD.
  intros H Hk. unfold bind. destruct (r g) as [[a g']| | |]; [|exact I|exact H|exact H].
  destruct H as (q & F & c & h & -> & Hq). eapply gmoves_trans; [exact HD|exact Hq|]. apply Hk, Hq.
Qed.
Lemma one_mat rec p E c h : p <= len D -> gmoves D u p E (runp (fmt_prims f) flags_of rec mat_load (mkRg (st D p E) c h)).
Proof using HD Hf Hu.
  intros Hp. unfold mat_load. rewrite prun_bind.
  apply gmoves_bind; [apply runs_flat; [apply flat_rd; exact I|exact Hp]|].
  intros _ q F cc hh [Hq _]. cbn [runp]. unfold bind at 1, rgl at 1. cbn [rg_s rg_cache rg_heap fmt_prims p_begin].
  assert (Hq2 : q <= len D) by lia.
  pose proof (begins D HD f q F Hf Hq2) as B. destruct (ar_begin f (st D q F)) as [[[o|] s]| | |]; [| |exact I|apply Hu, B|contradiction].
  2:{ subst s. exact I. }
  destruct B as (x & G & -> & Ho). destruct (negb _); [exact I|]. cbn [runp]. rewrite prun_bind.
  unfold bind at 1. pose proof (runs_flat rec _ _ (flat_material (mkCfg (if oh_ver o =? 17408 then G1 else G2) false false 0)) x G cc hh) as R.
  destruct (runp _ _ _ (load_material _) _) as [[m g]| | |]; [|exact I|apply R; destruct Ho; lia|apply R; destruct Ho; lia].
  destruct R as (y & H & c2 & h2 & -> & Hy); [destruct Ho; lia|].
  pose proof (closes D HD u f q F x G y H Hf Hu Hq2 Ho Hy) as C. unfold closing, bind in C.
  cbn [runp]. unfold bind, rgl. cbn [rg_s rg_cache rg_heap fmt_prims p_end p_skip].
  destruct (ar_end f (st D y H)) as [[[|] s]| | |]; try exact C.
  - cbn in C. destruct C as (_ & z & K & -> & Hz). exists z, K, c2, h2. split; [reflexivity | exact Hz].
  - cbn [runp]. unfold bind, rgl. cbn [rg_s rg_cache rg_heap fmt_prims p_end p_skip]. destruct (ar_skip f true s) as [[[] s']| | |]; try exact C.
    destruct C as (_ & z & K & -> & Hz). exists z, K, c2, h2. split; [reflexivity | exact Hz].
Qed.
Lemma rep_mats rec : forall n p E c h, p <= len D ->
  gmoves D u p E (runp (fmt_prims f) flags_of rec (p_rep n mat_load) (mkRg (st D p E) c h)).
Proof using HD Hf Hu.
  induction n as [|n IH]; intros p E c h Hp; cbn [p_rep].
  { exists p, E, c, h. split; [reflexivity | apply adv_refl; assumption]. }
  rewrite prun_bind. apply gmoves_bind; [apply one_mat, Hp|]. intros a q F cc hh [Hq _].
  rewrite prun_bind. apply gmoves_bind; [apply IH; lia|]. intros l x G c2 h2 [Hx _].
  exists x, G, c2, h2. split; [reflexivity | apply adv_refl; [exact HD | lia]].
Qed.
End Mats.

(** A file whose materials are not those of a text archive; nor, unless [u], of a safe binary one. *)
Definition told (u : bool) (D : bytes) : Prop := lacks (lit "ASCII") D /\ (u = false -> lacks (lit "BIN_SAFE") D).
Section Reads.
Variable D : bytes.
Hypothesis HD : len D < 2 ^ 62.
Variable u : bool.
Hypothesis Ht : told u D.
Definition opens_as (h : ahead) : Prop := ah_format h <> AAscii /\ (ah_format h <> ABinary -> u = true).
Lemma head_fwd m : fwd D u m opens_as head_load.
Proof using HD Ht.
  intros p Hp. assert (Hs : r_ok (mkR D p)) by (split; cbn [rdata rpos]; [lia | pows; lia]).
  pose proof (fw_head _ Hs) as F. destruct (head_load (mkR D p)) as [[h r]| | |] eqn:E; [|exact I|contradiction|contradiction].
  destruct F as (Hd & [Hr _] & Hp2). apply format_part in E; [|exact Hs]. cbn [rdata rpos] in *. destruct Ht as [T1 T2].
  split.
  - destruct E as [E|[[E N]|[E N]]]; unfold opens_as; rewrite E; [split; [discriminate|congruence]|contradiction|]. split; [discriminate|]. intros _.
    destruct u; [reflexivity|]. destruct N. apply T2. reflexivity.
  - exists (rpos r). destruct r as [d q]. cbn [rdata rpos] in *. subst d. split; [reflexivity | lia].
Qed.
Lemma bs_header_fwd m : fwd D true m any bs_header.
Proof using HD.
  unfold bs_header. eapply fwd_ignore; [exact HD|apply fwd_uint, HD|]. intros _.
  eapply fwd_ignore; [exact HD|apply fwd_uint, HD|]. intros _.
  eapply fwd_bind; [exact HD|apply fwd_uint, HD|]. intros off Hoff. cbv beta in Hoff.
  apply (fwd_bind D HD true m (fun k => m <= k <= len D)).
  { intros q Hq. cbn. split; [lia|]. exists q. split; [reflexivity | exact Hq]. }
  intros mark Hm q Hq. cbv beta in Hm.
  unfold bind at 1. pose proof (back_at D HD off q) as B. unfold r_back in B.
  rewrite sint_small in B by (clear -Hoff; pows; lia). rewrite B by (clear -Hoff; pows; lia). clear B.
  set (y := if len D <? off then q else off). assert (Hy : 0 <= y <= len D) by (unfold y; destruct (N.ltb_spec (len D) off); lia).
  clearbody y. unfold bind at 1. pose proof (fwd_uint D HD true 0 y Hy) as F.
  destruct (read_uint (mkR D y)) as [[size s]| | |]; [|exact I|reflexivity|contradiction]. destruct F as (_ & z & -> & Hz).
  unfold bind. pose proof (table_ends D HD (S (N.to_nat size)) size size ltac:(lia) z Hz) as G.
  destruct (bs_table _ size size _) as [[a s]| | |]; [|exact I|reflexivity|contradiction]. destruct G as (_ & w & -> & Hw).
  rewrite back_at by (try exact HD; clear -Hm HD; pows; lia). split; [exact I|]. eexists. split; [reflexivity|].
  destruct (N.ltb_spec (len D) mark); lia.
Qed.
Lemma open_fwd m : fwd D u m opens_as ar_open.
Proof using HD Ht.
  unfold ar_open. eapply fwd_bind; [exact HD|apply head_fwd|]. intros h Hh.
  apply fwd_seq; [exact HD| |intros _; apply fwd_ret; [exact HD|exact Hh]].
  destruct (ah_format h) eqn:Ef; [| |destruct Hh; congruence].
  - apply fwd_of; [exact HD|]. apply fw_objects, fw_line_ignore.
  - destruct Hh as [_ Hh]. rewrite Ef in Hh. rewrite Hh by discriminate. apply bs_header_fwd.
Qed.
Lemma run_mats_fwd m h n : opens_as h ->
  fwd D u m any (fun r => match runp (Ob := unit) (fmt_prims (ah_format h)) (fun _ => 0%Z) undef (p_rep n mat_load)
                           (mkRg (mkRar r []) [] []) with
    | Ret (l, g) => Ret (l, ra_r (rg_s g))
    | Throw e => Throw e | Undef => Undef | Fuel => Fuel
    end).
Proof using HD.
  intros [Hf Hu0] p Hp. assert (Hu : und D (ah_format h) = true -> u = true).
  { unfold und. destruct (ah_format h); [discriminate| |]; intros _; apply Hu0; discriminate. }
  pose proof (rep_mats D HD (ah_format h) Hf u Hu (fun _ : unit => 0%Z) undef n p [] [] []) as R.
  unfold st in R. destruct (runp _ _ _ _ _) as [[l g]| | |]; [|exact I|apply R; lia|apply R; lia].
  destruct R as (q & F & c & h' & -> & Hq & _); [lia|]. split; [exact I|]. exists q. split; [reflexivity | lia].
Qed.
Lemma mats_fwd m : fwd D u m any mats_load.
Proof using HD Ht.
  unfold mats_load. eapply fwd_bind; [exact HD|apply open_fwd|]. intros h Hh.
  eapply fwd_ignore; [exact HD|apply fwd_uint, HD|]. intros n. apply run_mats_fwd; assumption.
Qed.

(** ** Chunks *)
Lemma chunked_as_t {A} (cb : N -> A -> rd (bool * A)) : forall fuel a s,
  read_chunked fuel cb a s = read_chunked_t fuel (fun ty fin a => let* r := cb ty a in ret (fst r, fin, snd r)) a s.
Proof using.
  induction fuel as [|fuel IH]; intros a s; [reflexivity|]. cbn [read_chunked read_chunked_t]. unfold bind.
  destruct (read_ushort s) as [[ty s1]| | |]; try reflexivity.
  destruct (read_uint s1) as [[sz s2]| | |]; try reflexivity. unfold rd_tell.
  destruct (cb ty a s2) as [[[d a'] s3]| | |]; try reflexivity. cbn [fst snd ret]. unfold ret at 1.
  destruct (rd_seek _ _ s3) as [[? s4]| | |]; try reflexivity. destruct d; [reflexivity|].
  unfold rd_eof. destruct (len (rdata s4) <=? rpos s4); [reflexivity | apply IH].
Qed.
Definition seen (ty q : N) : Prop := ty < 256 \/ chunk_at D ty q.
Lemma ushort_seen p : p <= len D ->
  exists ty, read_ushort (mkR D p) = Ret (ty, mkR D (N.min (p + 2) (len D))) /\ seen ty (N.min (p + 6) (len D)).
Proof using HD.
  intros Hp. unfold read_ushort, rd_fixed, bind.
  rewrite rd_read_spec; [|split; cbn [rdata rpos]; [lia|pows; lia]|pows; lia]. cbn [rdata rpos]. unfold ret.
  eexists. split; [do 3 f_equal; lia|]. unfold seen, pad_to.
  rewrite len_take, len_drop.
  destruct (N.le_gt_cases 2 (len D - p)) as [L|L].
  - right. rewrite N.min_l by lia. rewrite (N.min_l 2) by lia. change (zeros (2 - 2)) with (@nil byte). rewrite app_nil_r.
    set (b := take 2 (drop p D)). assert (Hb : len b = 2) by (unfold b; rewrite len_take, len_drop; lia).
    exists p. fold b. split; [|reflexivity]. rewrite <- (le_enc_dec b) at 1. f_equal. unfold len in Hb. lia.
  - left. replace (N.min 2 (len D - p)) with (len D - p) by lia. rewrite N.min_l by lia.
    destruct (N.eq_dec (len D - p) 0) as [->|E].
    + rewrite take_0. reflexivity.
    + replace (len D - p) with 1 by lia. destruct (drop p D) as [|x l] eqn:Ed; [rewrite take_nil; reflexivity|].
      rewrite take_firstn. change (N.to_nat 1) with 1%nat. cbn [firstn]. change (zeros (2 - 1)) with [x00].
      pose proof (b2n_bound x) as Hx. cbn [app le_dec]. change (b2n x00) with 0. lia.
Qed.
Lemma uint_at p : p <= len D ->
  exists n, read_uint (mkR D p) = Ret (n, mkR D (N.min (p + 4) (len D))) /\ n < 2 ^ 32.
Proof using HD.
  intros Hp. unfold read_uint, bind. destruct (fixed_at D HD 4 p) as (b & E & Hb); [pows; lia | exact Hp|]. rewrite E.
  exists (le_dec b). unfold ret. split; [do 3 f_equal; lia|]. change (2 ^ 32) with (256 ^ 4). rewrite <- Hb. apply le_dec_bound.
Qed.
(** What a reader does at one position. *)
Definition at_pos (p : N) {A} (ok : A -> Prop) (r : rd A) : Prop :=
  match r (mkR D p) with
  | Ret (a, s) => ok a /\ exists q, s = mkR D q /\ p <= q <= len D
  | Throw _ => True
  | Undef => u = true
  | Fuel => False
  end.
Lemma at_of p {A} (ok : A -> Prop) (r : rd A) : p <= len D -> fwd D u p ok r -> at_pos p ok r.
Proof using. intros Hp H. apply H. split; [apply N.le_refl | exact Hp]. Qed.
Lemma at_bind p {A B} (q : B -> Prop) (r : rd A) (k : A -> rd B) : p <= len D -> at_pos p any r ->
  (forall a, fwd D u p q (k a)) -> at_pos p q (bind r k).
Proof using HD.
  intros Hp H Hk. unfold at_pos, bind in *. destruct (r (mkR D p)) as [[a s]| | |]; [|exact I|exact H|exact H].
  destruct H as (_ & x & -> & Hx). apply Hk. lia.
Qed.
Definition t_ok {A} (cb : N -> N -> A -> rd (bool * N * A)) : Prop :=
  forall ty fin a p, seen ty p -> p <= len D -> p <= fin < 2 ^ 63 ->
  at_pos p (fun r => p <= snd (fst r) < 2 ^ 63) (cb ty fin a).
Lemma chunked_t_fwd {A} (cb : N -> N -> A -> rd (bool * N * A)) : t_ok cb -> forall fuel m a,
  (N.to_nat (len D - m) < fuel)%nat -> fwd D u m any (read_chunked_t fuel cb a).
Proof using HD.
  intros H. induction fuel as [|fuel IH]; intros m a Hf p Hp; [lia|]. cbn [read_chunked_t].
  unfold bind at 1. destruct (ushort_seen p) as (ty & -> & Hs); [lia|].
  unfold bind at 1. destruct (uint_at (N.min (p + 2) (len D))) as (sz & -> & Hsz); [lia|].
  set (q2 := N.min (N.min (p + 2) (len D) + 4) (len D)).
  assert (Eq : N.min (p + 6) (len D) = q2) by (unfold q2; lia). rewrite Eq in Hs.
  assert (Hq2 : p <= q2 <= len D /\ (p < len D -> p < q2)) by (unfold q2; lia). clear Eq. clearbody q2.
  unfold bind at 1. rewrite tell_at by exact HD. unfold bind at 1.
  assert (Hfin : u64 (q2 + sz) = q2 + sz).
  { unfold u64. apply N.mod_small. clear -Hsz Hq2 HD. pows. lia. }
  rewrite Hfin. assert (Hfin2 : q2 <= q2 + sz < 2 ^ 63) by (clear -Hsz Hq2 HD; pows; lia).
  specialize (H ty (q2 + sz) a q2 Hs ltac:(lia) Hfin2). unfold at_pos in H.
  destruct (cb ty (q2 + sz) a (mkR D q2)) as [[[[d t] a'] s3]| | |]; [|exact I|exact H|contradiction].
  destruct H as (Ht2 & q3 & -> & Hq3). cbn [fst snd] in Ht2. unfold bind at 1.
  pose proof (back_at D HD t q3 (proj2 Ht2)) as Es. unfold r_back in Es. rewrite Es. clear Es.
  set (y := if len D <? t then q3 else t). assert (Hy : q2 <= y <= len D) by (unfold y; destruct (N.ltb_spec (len D) t); lia).
  clearbody y. destruct d.
  { split; [exact I|]. exists y. split; [reflexivity | lia]. }
  unfold bind. rewrite eof_at by exact HD. destruct (N.leb_spec (len D) y) as [L|L].
  { split; [exact I|]. exists y. split; [reflexivity | lia]. }
  specialize (IH (m + 1) a' ltac:(lia) y ltac:(lia)).
  destruct (read_chunked_t fuel cb a' (mkR D y)) as [[a2 s]| | |]; auto.
  destruct IH as (_ & z & -> & Hz). split; [exact I|]. exists z. split; [reflexivity | lia].
Qed.
Lemma all_chunks_t_fwd {A} (cb : N -> N -> A -> rd (bool * N * A)) m a : t_ok cb ->
  fwd D u m any (fun s => read_chunked_t (S (N.to_nat (len (rdata s) - rpos s))) cb a s).
Proof using HD.
  intros H p Hp. cbn [rdata rpos]. pose proof (chunked_t_fwd cb H (S (N.to_nat (len D - p))) p a ltac:(lia) p ltac:(lia)) as R.
  destruct (read_chunked_t _ cb a _) as [[a2 s]| | |]; auto.
  destruct R as (_ & z & -> & Hz). split; [exact I|]. exists z. split; [reflexivity | lia].
Qed.
Lemma all_chunks_at {A} (cb : N -> A -> rd (bool * A)) m a : (forall ty a p, seen ty p -> p <= len D -> at_pos p any (cb ty a)) ->
  fwd D u m any (fun s => read_chunked (S (N.to_nat (len (rdata s) - rpos s))) cb a s).
Proof using HD.
  intros H p Hp. rewrite chunked_as_t. refine (all_chunks_t_fwd _ m a _ p Hp). intros ty fin b q Hs Hq Hfin.
  apply at_bind; [exact Hq|apply H; assumption|]. intros [d b']. cbn [fst snd]. apply fwd_ret; [exact HD|]. exact Hfin.
Qed.
Lemma all_chunks_fwd {A} (cb : N -> A -> rd (bool * A)) m a : (forall ty a p, fwd D u p any (cb ty a)) ->
  fwd D u m any (fun s => read_chunked (S (N.to_nat (len (rdata s) - rpos s))) cb a s).
Proof using HD. intros H. apply all_chunks_at. intros ty b p _ Hp. apply at_of; [exact Hp | apply H]. Qed.
(** ** Boxes *)
Lemma obb_f_fwd : forall fuel m, (N.to_nat (len D - m) < fuel)%nat -> fwd D u m any (obb_load_f fuel).
Proof using HD.
  induction fuel as [|fuel IH]; intros m Hf p Hp; [lia|]. cbn [obb_load_f].
  assert (Hs : r_ok (mkR D p)) by (split; cbn [rdata rpos]; [lia | pows; lia]).
  unfold bind at 1. destruct (vec3_at _ Hs) as [c ->]. cbn [rdata rpos].
  destruct (N.eq_dec p (len D)) as [->|E].
  - rewrite N.min_r by lia. assert (Em : N.min (len D + 12) (len D) = len D) by lia.
    do 4 (unfold bind at 1; destruct (vec3_at _ Hs) as [? ->]; cbn [rdata rpos]; rewrite Em).
    unfold bind at 1. destruct (ushort_at D HD (len D)) as (n & -> & _ & Hn); [lia|]. rewrite (Hn eq_refl). rewrite (N.min_r 2) by lia.
    change (N.to_nat 0) with O. cbn [repM]. unfold bind, ret. split; [exact I|]. eexists. split; [reflexivity | lia].
  - match goal with |- match ?r _ with _ => _ end => assert (R : fwd D u (m + 1) any r) end.
    { do 4 (apply fwd_seq; [exact HD|apply fwd_of; [exact HD|apply fw_vec3]|]; intros ?).
      eapply fwd_ignore; [exact HD|apply fwd_ushort, HD|]. intros n.
      apply fwd_seq; [exact HD| |intros ?; apply fwd_ret; [exact HD | exact I]].
      specialize (IH (m + 1) ltac:(lia)). induction (N.to_nat n) as [|k IHk]; cbn [repM].
      { apply fwd_ret; [exact HD | exact I]. }
      apply fwd_seq; [exact HD|exact IH|]. intros ?. apply fwd_seq; [exact HD|exact IHk|]. intros ?. apply fwd_ret; [exact HD | exact I]. }
    specialize (R (N.min (p + 12) (len D)) ltac:(lia)).
    match goal with |- match ?r with _ => _ end => destruct r as [[a2 s]| | |]; auto end.
    destruct R as (_ & z & -> & Hz). split; [exact I|]. exists z. split; [reflexivity | lia].
Qed.
Lemma obb_fwd m : fwd D u m any obb_load.
Proof using HD.
  intros p Hp. unfold obb_load. cbn [rdata rpos]. pose proof (obb_f_fwd (S (N.to_nat (len D - p))) p ltac:(lia) p ltac:(lia)) as R.
  destruct (obb_load_f _ _) as [[a2 s]| | |]; auto.
  destruct R as (_ & z & -> & Hz). split; [exact I|]. exists z. split; [reflexivity | lia].
Qed.

Lemma repM_fwd {A} n m (r : rd A) : fwd D u m any r -> fwd D u m any (repM n r).
Proof using HD.
  intros H. induction n as [|n IH]; cbn [repM]; [apply fwd_ret; [exact HD | exact I]|].
  apply fwd_seq; [exact HD|exact H|]. intros ?. apply fwd_seq; [exact HD|exact IH|]. intros ?. apply fwd_ret; [exact HD | exact I].
Qed.
Lemma polys_forward version wide old : forall off vs fs, forward (polys_load version wide old off vs fs).
Proof using.
  induction old as [|p old IH]; intros off vs fs; cbn [polys_load]; [apply fw_ret|].
  unfold flags_load. fsteps; first [apply IH | apply corner_forward].
Qed.
Lemma own_lightmaps_forward : forall n base, forward (own_lightmaps n base).
Proof using.
  induction n as [|n IH]; intros base; cbn [own_lightmaps]; [apply fw_ret|]. fsteps; first [apply IH | apply tex_forward].
Qed.
Ltac fwds := repeat first
  [ solve [apply fwd_of; [exact HD | eauto with forward]]
  | match goal with
    | |- fwd _ _ _ _ (bind _ _) => apply fwd_seq; [exact HD| |intros ?]
    | |- fwd _ _ _ _ (repM _ _) => apply repM_fwd
    | |- fwd _ _ _ _ (let (_, _) := ?x in _) => destruct x
    | |- fwd _ _ _ _ obb_load => apply obb_fwd
    end ].
(** A lightmap is 40 bytes, the last four of which are a number. *)
Lemma lightmaps_at base n : forall k p, p <= len D ->
  (forall j, j < N.of_nat k -> exists i s, read_uint (mkR D (N.min (p + 40 * j + 36) (len D))) = Ret (i, s) /\ (u = true \/ i < n)) ->
  at_pos p any (repM k (lightmap_load base n)).
Proof using HD.
  induction k as [|k IH]; intros p Hp H; cbn [repM].
  { apply at_of; [exact Hp|]. apply fwd_ret; [exact HD | exact I]. }
  unfold at_pos, lightmap_load. unfold bind at 1.
  assert (V : forall q, q <= len D -> exists v, read_vec3 (mkR D q) = Ret (v, mkR D (N.min (q + 12) (len D)))).
  { intros q Hq. apply (vec3_at (mkR D q)). split; cbn [rdata rpos]; [exact Hq | pows; lia]. }
  unfold bind at 1. destruct (V p Hp) as [o ->]. unfold bind at 1. destruct (V (N.min (p + 12) (len D))) as [a ->]; [lia|].
  unfold bind at 1. destruct (V (N.min (N.min (p + 12) (len D) + 12) (len D))) as [b ->]; [lia|].
  unfold bind at 1. set (q := N.min (N.min (N.min (p + 12) (len D) + 12) (len D) + 12) (len D)).
  assert (Eq : N.min (p + 40 * 0 + 36) (len D) = q) by (unfold q; lia).
  destruct (H 0) as (i & s & Ei & Hi); [lia|]. rewrite Eq in Ei. destruct (uint_at q) as (i' & Ei' & _); [unfold q; lia|].
  rewrite Ei. rewrite Ei' in Ei. injection Ei as -> <-.
  destruct (N.ltb_spec i n) as [L|L]; [|destruct Hi as [Hi|Hi]; [exact Hi | lia]].
  unfold ret at 1. unfold bind at 1.
  set (y := N.min (q + 4) (len D)). assert (Hy : y = N.min (p + 40) (len D)) by (unfold y, q; lia).
  assert (G : at_pos y any (repM k (lightmap_load base n))).
  { apply IH; [lia|]. intros j Hj. destruct (H (j + 1)) as (i2 & s2 & E2 & Hi2); [lia|]. exists i2, s2. split; [|exact Hi2].
    rewrite <- E2. do 2 f_equal. lia. }
  unfold at_pos in G. destruct (repM k _ (mkR D y)) as [[l s2]| | |]; auto.
  destruct G as (_ & z & -> & Hz). split; [exact I|]. exists z. split; [reflexivity | lia].
Qed.
Lemma shared_at p version me : (u = false -> ~ wrong_lightmap D) -> chunk_at D M_LIGHTMAPS_SHARED p -> p <= len D ->
  at_pos p any (let* n := read_uint in
    let* ts := repM (N.to_nat n) (tex_load tex_new) in
    let* k := read_uint in
    let* ls := repM (N.to_nat k) (lightmap_load (len (me_images me)) n) in
    ret (false, (version : N, with_lightmaps (me_images me ++ ts) (me_lightmaps me ++ ls) me))).
Proof using HD.
  intros Hw Hc Hp. unfold at_pos. unfold bind at 1. destruct (uint_at p Hp) as (n & En & Hn). rewrite En.
  set (p1 := N.min (p + 4) (len D)) in *. assert (Hp1 : p <= p1 <= len D) by (unfold p1; lia). clearbody p1.
  unfold bind at 1. assert (F : fwd D u p1 any (repM (N.to_nat n) (tex_load tex_new))).
  { apply repM_fwd, fwd_of; [exact HD | apply tex_forward]. }
  specialize (F p1 ltac:(lia)). destruct (repM (N.to_nat n) (tex_load tex_new) (mkR D p1)) as [[ts s2]| | |] eqn:Et; [|exact I|exact F|exact F].
  destruct F as (_ & p2 & -> & Hp2). unfold bind at 1. destruct (uint_at p2) as (k & Ek & Hk); [lia|]. rewrite Ek.
  set (p3 := N.min (p2 + 4) (len D)) in *. assert (Hp3 : p2 <= p3 <= len D) by (unfold p3; lia). clearbody p3.
  unfold bind. pose proof (lightmaps_at (len (me_images me)) n (N.to_nat k) p3 ltac:(lia)) as L.
  match type of L with ?P -> _ => assert (HP : P) end.
  { intros j Hj. destruct (uint_at (N.min (p3 + 40 * j + 36) (len D))) as (i & Ei & _); [lia|]. exists i. eexists. split; [exact Ei|].
    destruct (Bool.bool_dec u true) as [Eu|Eu]; [left; exact Eu|right]. apply Bool.not_true_is_false in Eu.
    destruct (N.lt_ge_cases i n) as [Hl|Hl]; [exact Hl|]. exfalso. apply Hw; [exact Eu|].
    exists p, n, (mkR D p1), ts, (mkR D p2), k, (mkR D p3), j, i. eexists. cbn [rpos].
    split; [exact Hc|]. split; [exact En|]. split; [exact Et|]. split; [exact Ek|]. split; [lia|]. split; [exact Ei | exact Hl]. }
  specialize (L HP). unfold at_pos in L. destruct (repM (N.to_nat k) _ _) as [[l s2]| | |]; auto.
  destruct L as (_ & z & -> & Hz). split; [exact I|]. exists z. split; [reflexivity | lia].
Qed.
Lemma mesh_chunk_at wide ty st p : (u = false -> ~ wrong_lightmap D) -> seen ty p -> p <= len D -> at_pos p any (mesh_chunk wide ty st).
Proof using HD Ht.
  intros Hw Hs Hp. destruct st as [version me]. unfold mesh_chunk.
  destruct (N.eqb_spec ty M_MARKER); [apply at_of; [exact Hp|fwds]|].
  destruct (N.eqb_spec ty M_BBOX); [apply at_of; [exact Hp|fwds]|].
  destruct (N.eqb_spec ty M_MATERIAL); [apply at_of; [exact Hp|]; apply fwd_seq; [exact HD|apply mats_fwd|intros; fwds]|].
  destruct (N.eqb_spec ty M_VERTICES); [apply at_of; [exact Hp|fwds]|].
  destruct (N.eqb_spec ty M_FEATURES); [apply at_of; [exact Hp|]; fwds; apply fwd_of; [exact HD|apply feature_forward]|].
  destruct (N.eqb_spec ty M_POLYGONS); [apply at_of; [exact Hp|]; fwds; apply fwd_of; [exact HD|apply polys_forward]|].
  destruct (N.eqb_spec ty M_LIGHTMAPS_SHARED) as [->|E].
  { destruct Hs as [Hs|Hs]; [discriminate Hs|]. apply shared_at; assumption. }
  apply at_of; [exact Hp|].
  destruct (N.eqb_spec ty M_LIGHTMAPS); [fwds; apply fwd_of; [exact HD|apply own_lightmaps_forward]|].
  destruct (N.eqb_spec ty M_END); fwds.
Qed.
Lemma mesh_fwd me wide m : (u = false -> ~ wrong_lightmap D) -> fwd D u m any (mesh_load me wide).
Proof using HD Ht.
  intros Hl. unfold mesh_load. 
  pose proof (all_chunks_at (mesh_chunk wide) m (0, me)) as R.
  match type of R with ?P -> _ => assert (HP : P) end.
  { intros ty a p Hs Hp. apply mesh_chunk_at; assumption. }
  specialize (R HP). intros p Hp. specialize (R p Hp). cbn [rdata rpos] in *. unfold bind.
  destruct (read_chunked _ _ _ _) as [[a s]| | |]; auto.
Qed.
End Reads.
