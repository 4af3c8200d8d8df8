(** Skeletons from files and streams; loops that do not end. *)

From Coq Require Import Lia ZifyN ZifyBool ZifyNat.
From Verif Require Import MBase MStream SStream MBoxes MModel MSource SSource SBoxes SFormat LBase LStream LStreamHist LBoxes LFormat LModel LSource.
Local Open Scope N_scope.

(** ** A saved skeleton *)
Lemma sreads_aabb b : aabb_ok b -> sreads paabb (aabb_enc b) b.
Proof.
  intros [H1 H2]. unfold paabb, aabb_enc. eapply sreads_bind; [apply sreads_vec3, H1|].
  eapply sreads_last; [apply sreads_vec3, H2|]. destruct b; apply sreads_ret.
Qed.
Lemma sreads_date d : date_ok d -> sreads pdate (date_enc d) d.
Proof.
  intros (H1 & H2 & H3 & H4 & H5 & H6). unfold pdate, date_enc.
  eapply sreads_bind; [apply sreads_uint, H1|]. do 5 (eapply sreads_bind; [apply sreads_ushort; assumption|]).
  eapply sreads_last; [apply sreads_ushort; reflexivity|]. destruct d; apply sreads_ret.
Qed.
Lemma sreads_hnode fuel n : hnode_ok n -> (length (hn_name n) < fuel)%nat -> sreads (phnode fuel) (hnode_bytes n) n.
Proof.
  intros (H1 & H2 & H3 & H4) Hf. unfold phnode, hnode_bytes.
  eapply sreads_bind; [apply sreads_line; [exact H1|reflexivity|exact Hf]|].
  eapply sreads_bind; [apply sreads_short, H2|]. eapply sreads_last; [apply sreads_mat4; assumption|].
  destruct n; apply sreads_ret.
Qed.

Lemma in_flat_map_len {A} (f : A -> bytes) (x : A) l : In x l -> len (f x) <= len (flat_map f l).
Proof. induction l as [|y l IH]; intros []; cbn [flat_map]; lens; [subst; lia|specialize (IH H); lia]. Qed.

Definition skeleton_bytes (h : hierarchy) : bytes := flat_map chunk_bytes (hier_chunks h).

Lemma sreads_hier h h0 fuel : hier_ok h -> len (skeleton_bytes h) <= N.of_nat fuel ->
  sreads (phier_load fuel h0) (skeleton_bytes h) h.
Proof.
  intros H Hf. pose proof (hier_fits h H) as F. unfold skeleton_bytes, hier_chunks in *. unfold phier_load.
  assert (Hsz : len (hier_payload h) + len (hi_path h) + 18 + 17 <= N.of_nat fuel).
  { revert Hf. cbn [flat_map]. unfold chunk_bytes; cbn [fst snd]. unfold date_enc. lens. intros. 
    change (N.of_nat 2) with 2 in *. change (N.of_nat 4) with 4 in *. lia. }
  clear Hf.
  inversion F as [|? ? F1 F']; subst. inversion F' as [|? ? F2 F'']; subst. inversion F'' as [|? ? F3 _]; subst.
  destruct H as (H1 & H2 & H3 & H4 & H5 & H6 & H7 & H8 & H9 & H10). rewrite Forall_forall in H1.
  apply schunked; [|cbn [length]; lia].
  eapply srun_more; [exact F1| |]; cbn [fst snd].
  { unfold phier_chunk. replace (H_HIERARCHY =? H_HIERARCHY) with true by reflexivity. cbv iota. unfold hier_payload.
    eapply sreads_bind; [apply sreads_uint; reflexivity|]. eapply sreads_bind; [apply sreads_ushort, H2|].
    replace (N.to_nat (len (hi_nodes h))) with (length (hi_nodes h)) by (unfold len; lia).
    eapply sreads_bind.
    { apply sreads_rep. intros x Hx. apply sreads_hnode; [apply H1, Hx|].
      pose proof (in_flat_map_len hnode_bytes x _ Hx) as G. unfold hier_payload in Hsz. revert Hsz. unfold hnode_bytes in G at 1.
      lens. revert G. lens. unfold len. lia. }
    eapply sreads_bind; [apply sreads_aabb, H4|]. eapply sreads_bind; [apply sreads_aabb, H5|].
    eapply sreads_bind; [apply sreads_vec3, H6|]. eapply sreads_last; [apply sreads_uint, H7|]. apply sreads_ret. }
  eapply srun_more; [exact F2| |]; cbn [fst snd].
  { unfold phier_chunk. replace (H_SOURCE =? H_HIERARCHY) with false by reflexivity.
    replace (H_SOURCE =? H_SOURCE) with true by reflexivity. cbv iota.
    eapply sreads_bind; [apply sreads_date, H8|].
    eapply sreads_last; [apply sreads_line; [exact H9|reflexivity|unfold len in Hsz; lia]|]. apply sreads_ret. }
  apply srun_last; [exact F3|]. cbn [fst snd].
  unfold phier_chunk. replace (H_END =? H_HIERARCHY) with false by reflexivity.
  replace (H_END =? H_SOURCE) with false by reflexivity. replace (H_END =? H_END) with true by reflexivity. cbv iota.
  cbn [hi_nodes hi_bbox hi_collision hi_root hi_checksum]. destruct h; apply sreads_ret.
Qed.

Lemma sreads_all {A} (p : rprog A) bs a : sreads p bs a -> len bs < max_size ->
  from_memory p bs = Ret a /\ from_file p bs = Ret a /\ forall string, from_stream string p bs = Ret a.
Proof.
  intros H Hl. destruct (H [] []) as [Hi Hr]; [cbn [app]; rewrite app_nil_r; exact Hl|].
  cbn [app] in Hi, Hr. rewrite app_nil_r in Hi, Hr. change (len (@nil byte)) with 0 in Hi, Hr.
  destruct (inside_same p bs Hl Hi) as [E1 E2]. rewrite E1.
  assert (E : from_memory p bs = Ret a).
  { unfold from_memory, r_from. rewrite (sim r_step bs (mkR bs)) by (try lia; try exact Hi; intros; apply mem_inside; assumption).
    rewrite value_relabel, Hr. reflexivity. }
  rewrite E. repeat split. intros k. rewrite E2. exact E.
Qed.

Lemma file_writes w bs : writes w bs -> len bs < max_size -> file_of w = Ret bs.
Proof. intros H Hl. unfold file_of. rewrite (H w_empty eq_refl Hl). reflexivity. Qed.
Lemma skeleton_size h : hier_ok h -> len (skeleton_bytes h) < max_size.
Proof.
  intros H. pose proof (hier_fits h H) as F. unfold skeleton_bytes, hier_chunks in *.
  pose proof (Forall_inv F) as [_ F1]. pose proof (Forall_inv (Forall_inv_tail F)) as [_ F2]. cbn [fst snd] in *.
  cbn [flat_map]. unfold chunk_bytes. cbn [fst snd]. rewrite !len_app, !len_le_enc, !len_nil in *. pows. lia.
Qed.
Lemma skeleton_anywhere h h0 : hier_ok h -> exists bs, file_of (hier_save h) = Ret bs /\
  forall fuel, len bs <= N.of_nat fuel ->
    from_memory (phier_load fuel h0) bs = Ret h /\ from_file (phier_load fuel h0) bs = Ret h /\
    forall string, from_stream string (phier_load fuel h0) bs = Ret h.
Proof.
  intros H. exists (skeleton_bytes h). split; [apply file_writes; [apply hier_writes, H|apply skeleton_size, H]|].
  intros fuel Hf. apply sreads_all; [apply sreads_hier; assumption|apply skeleton_size, H].
Qed.

(** ** How programs end *)
Fixpoint ends {A} (Q : A -> Prop) (p : rprog A) : Prop :=
  match p with
  | PEnd (Ret a) => Q a
  | PEnd Fuel => True
  | PEnd _ => False
  | POp _ k => forall r, ends Q (k r)
  end.
Lemma ends_bind {A B} (Q1 : A -> Prop) (Q : B -> Prop) (p : rprog A) (f : A -> rprog B) :
  ends Q1 p -> (forall a, Q1 a -> ends Q (f a)) -> ends Q (pbind p f).
Proof. induction p as [[a|e| |]|o k IH]; cbn; intros H1 H2; try exact H1; [apply H2, H1|]. intros r. apply IH; [apply H1|exact H2]. Qed.
Lemma ends_get {A} n (f : bytes -> A) : ends (fun _ => True) (pget n f).
Proof. intros r. exact I. Qed.
Lemma ends_until fuel : ends (fun _ => True) (puntil fuel).
Proof.
  induction fuel as [|f IH]; [exact I|]. cbn [puntil]. eapply ends_bind; [apply ends_get|]. intros c _.
  destruct (_ || _)%bool; [exact I|]. eapply ends_bind; [apply IH|]. intros; exact I.
Qed.
Lemma ends_line fuel : ends (fun _ => True) (pline fuel []).
Proof. unfold pline. eapply ends_bind; [apply ends_until|]. intros r _. exact I. Qed.
Lemma ends_rep {A} n (p : rprog A) : ends (fun _ => True) p -> ends (fun _ => True) (prep n p).
Proof.
  intros H. induction n as [|n IH]; [exact I|]. cbn [prep]. eapply ends_bind; [exact H|]. intros a _.
  eapply ends_bind; [exact IH|]. intros; exact I.
Qed.
Ltac ebind := eapply ends_bind; [first [apply ends_get|apply ends_line]|intros ? _].
Lemma ends_hier fuel ty h : ty <> H_END -> ends (fun r => fst r = false) (phier_chunk fuel ty h).
Proof.
  intros Hty. unfold phier_chunk. destruct (ty =? H_HIERARCHY).
  { do 2 ebind. eapply ends_bind; [apply ends_rep; unfold phnode; do 3 ebind; exact I|intros ? _].
    do 2 (eapply ends_bind; [instantiate (1 := fun _ => True); unfold paabb; do 2 ebind; exact I|intros ? _]).
    do 2 ebind. reflexivity. }
  destruct (ty =? H_SOURCE).
  { eapply ends_bind; [instantiate (1 := fun _ => True); unfold pdate; do 7 ebind; exact I|intros ? _]. ebind. reflexivity. }
  destruct (N.eqb_spec ty H_END) as [E|_]; [destruct (Hty E)|reflexivity].
Qed.

Lemma fs_ends {A} (Q : A -> Prop) (p : rprog A) : ends Q p -> forall s,
  prun fs_step p s = Fuel \/ exists a s', prun fs_step p s = Ret (a, s') /\ Q a /\ fs_data s' = fs_data s.
Proof.
  induction p as [[a|e| |]|o k IH]; intros H s; cbn [ends] in H; try destruct H.
  - right. exists a, s. repeat split. exact H.
  - left. reflexivity.
  - assert (G : exists r s', fs_step o s = Ret (r, s') /\ fs_data s' = fs_data s).
    { destruct o as [n|off w| |]; cbn [fs_step]; try (eexists; eexists; split; reflexivity).
      destruct (_ && _)%bool; eexists; eexists; split; reflexivity. }
    destruct G as (r & s' & E & Ed). cbn [prun]. rewrite E. cbn [obind fst snd].
    destruct (IH r (H r) s') as [E'|(a & s2 & E' & Hq & Ed')]; [left; exact E'|].
    right. exists a, s2. repeat split; [exact E'|exact Hq|congruence].
Qed.
Lemma is_ends {A} (Q : A -> Prop) (p : rprog A) : ends Q p -> forall s,
  prun is_step p s = Fuel \/ exists a s', prun is_step p s = Ret (a, s') /\ Q a /\
    ist_data s' = ist_data s /\ is_string s' = is_string s /\ (ist_fail s = true -> ist_fail s' = true).
Proof.
  induction p as [[a|e| |]|o k IH]; intros H s; cbn [ends] in H; try destruct H.
  - right. exists a, s. repeat split; auto.
  - left. reflexivity.
  - assert (G : exists r s', is_step o s = Ret (r, s') /\ ist_data s' = ist_data s /\ is_string s' = is_string s /\
      (ist_fail s = true -> ist_fail s' = true)).
    { destruct s as [z d q e f]. destruct o as [n|off w| |]; cbn [is_step ist_data is_string ist_fail].
      - destruct e, f; cbn [orb]; eexists; eexists; (split; [reflexivity|]); cbn; auto.
        repeat split; auto. discriminate.
      - destruct f; [eexists; eexists; split; [reflexivity|]; cbn; auto|].
        match goal with |- context [if ?c then Ret _ else _] => destruct c end; eexists; eexists; (split; [reflexivity|]); cbn; auto.
      - eexists; eexists; split; [reflexivity|]; cbn; auto.
      - eexists; eexists; split; [reflexivity|]; cbn; auto. }
    destruct G as (r & s' & E & Ed & Ek & Ef). cbn [prun]. rewrite E. cbn [obind fst snd].
    destruct (IH r (H r) s') as [E'|(a & s2 & E' & Hq & Ed' & Ek' & Ef')]; [left; exact E'|].
    right. exists a, s2. repeat split; [exact E'|exact Hq|congruence|congruence|auto].
Qed.

(** ** Sections whose end is missing *)
Section Cut.
Variable A : Type.
Variable cb : N -> A -> rprog (bool * A).
Variable stop : N.
Hypothesis Hstop : 256 <= stop.
Hypothesis Hcb : forall ty a, ty <> stop -> ends (fun r => fst r = false) (cb ty a).
Variable cs : list chunk.
Variable fin : chunk.
Hypothesis Hok : Forall chunk_ok cs.
Hypothesis Hfin : fin = (stop, []).
Hypothesis Hcs : Forall (fun c => fst c <> stop) cs.
Let all : bytes := flat_map chunk_bytes (cs ++ [fin]).
Hypothesis Hall : len all < 2 ^ 61.
Variable k : N.
Hypothesis Hk : k + 4 < len all.
Let d : bytes := take k all.

(** Where the loop can be: behind the data or at the beginning of a section. *)
Definition here (pos : N) : Prop :=
  pos < 2 ^ 62 /\ (k <= pos \/ exists c1 c2, cs ++ [fin] = c1 ++ c2 /\ c2 <> [] /\ pos = len (flat_map chunk_bytes c1)).

Lemma len_d : len d = k.
Proof. unfold d. lens. lia. Qed.

(** What the two reads of the head of a section give. *)
Definition head_ty (pos : N) : N := le_dec (pad_to 2 (take 2 (drop pos d))).
Definition head_size (pos : N) : N :=
  le_dec (pad_to 4 (take 4 (drop (pos + len (take 2 (drop pos d))) d))).
Definition head_end (pos : N) : N :=
  pos + len (take 2 (drop pos d)) + len (take 4 (drop (pos + len (take 2 (drop pos d))) d)).

Lemma le_dec_zeros n : le_dec (zeros n) = 0.
Proof. unfold zeros. induction (N.to_nat n) as [|m IH]; [reflexivity|]. cbn [repeat le_dec]. rewrite IH. reflexivity. Qed.
Lemma le_dec_app_zeros b n : le_dec (b ++ zeros n) = le_dec b.
Proof. induction b as [|x b IH]; [apply le_dec_zeros|]. cbn [app le_dec]. rewrite IH. reflexivity. Qed.
Lemma head_behind pos : pos < 2 ^ 62 -> k <= pos -> head_ty pos <> stop /\ here (head_end pos + head_size pos) /\
  head_end pos + head_size pos < 2 ^ 62.
Proof.
  intros Hp Hge. assert (E : forall x, drop (pos + x) d = []) by (intros x; apply drop_all; rewrite len_d; lia).
    assert (E0 : drop pos d = []) by (rewrite <- (N.add_0_r pos); apply E).
    unfold head_ty, head_size, head_end. rewrite !E0. rewrite !take_nil. rewrite !E. rewrite !take_nil.
    change (le_dec (pad_to 2 [])) with 0. change (le_dec (pad_to 4 [])) with 0. change (len (@nil byte)) with 0.
    rewrite !N.add_0_r. repeat split; [lia|exact Hp|left; exact Hge|exact Hp].
Qed.
Lemma head_small pos : here pos -> head_ty pos <> stop /\ here (head_end pos + head_size pos) /\
  head_end pos + head_size pos < 2 ^ 62.
Proof.
  intros [Hp [Hge|(c1 & c2 & Ec & Hne & Ep)]].
  - apply head_behind; assumption.
  - destruct (N.le_gt_cases k pos) as [Hge|Hlt]; [apply head_behind; [exact Hp|exact Hge]|].
    destruct c2 as [|[ty p] c2]; [destruct (Hne eq_refl)|].
    set (rest := flat_map chunk_bytes c2).
    assert (Ea : all = flat_map chunk_bytes c1 ++ (le_enc 2 ty ++ le_enc 4 (len p) ++ p) ++ rest).
    { unfold all. rewrite Ec, flat_map_app. cbn [flat_map]. reflexivity. }
    assert (La : len all = pos + 6 + len p + len rest) by (rewrite Ea, Ep; lens; lia).
    assert (Hc : 2 <= k - pos -> ty < 2 ^ 16 /\ len p < 2 ^ 32 /\ ty <> stop /\ c2 <> []).
    { intros Hm. destruct c2 as [|c3 c2].
      - apply app_inj_tail in Ec. destruct Ec as [_ Ec]. rewrite Hfin in Ec. injection Ec as <- <-.
        unfold rest in La. cbn [flat_map] in La. rewrite !len_nil in La. lia.
      - destruct (@exists_last _ (c3 :: c2)) as (c4 & x & E4); [discriminate|]. rewrite E4 in Ec.
        change (c1 ++ (ty, p) :: c4 ++ [x]) with (c1 ++ ((ty, p) :: c4) ++ [x]) in Ec. rewrite app_assoc in Ec.
        apply app_inj_tail in Ec. destruct Ec as [Ec _].
        assert (Hin : In (ty, p) cs) by (rewrite Ec; apply in_or_app; right; left; reflexivity).
        rewrite Forall_forall in Hok, Hcs. destruct (Hok _ Hin) as [H1 H2]. pose proof (Hcs _ Hin) as H3.
        cbn [fst snd] in *. repeat split; try assumption. discriminate. }
    assert (Ed : drop pos d = take (k - pos) (le_enc 2 ty ++ le_enc 4 (len p) ++ p ++ rest)).
    { unfold d. replace k with ((k - pos) + pos) at 1 by lia. rewrite <- take_drop_comm, Ea.
      rewrite drop_app_exact by exact Ep. rewrite <- !app_assoc. reflexivity. }
    assert (Et : take 2 (drop pos d) = take (N.min 2 (k - pos)) (le_enc 2 ty)).
    { rewrite Ed, take_take, take_app_l by (rewrite len_le_enc; lia). reflexivity. }
    assert (Hbig : forall b : bytes, len b <= 4 -> le_dec b < 2 ^ 32).
    { intros b Hb. eapply N.lt_le_trans; [apply le_dec_bound|]. change (2 ^ 32) with (256 ^ 4).
      apply N.pow_le_mono_r; lia. }
    destruct (N.eq_dec (k - pos) 1) as [E1|N1].
    + unfold head_ty, head_size, head_end. rewrite Et, E1. change (N.min 2 1) with 1.
      change (take 1 (le_enc 2 ty)) with [n2b ty]. change (len [n2b ty]) with 1.
      rewrite (drop_all (pos + 1)) by (rewrite len_d; lia). rewrite take_nil.
      change (le_dec (pad_to 4 [])) with 0. change (len (@nil byte)) with 0.
      unfold pad_to. change (zeros (2 - len [n2b ty])) with [x00]. cbn [app le_dec].
      pose proof (b2n_bound (n2b ty)). change (b2n x00) with 0. unfold here. repeat split; pows; lia.
    + assert (Hm : 2 <= k - pos) by lia. destruct (Hc Hm) as (H1 & H2 & H3 & H4).
      replace (N.min 2 (k - pos)) with 2 in Et by lia.
      rewrite (take_all 2 (le_enc 2 ty)) in Et by (rewrite len_le_enc; lia).
      assert (Ed2 : drop (pos + 2) d = take (k - pos - 2) (le_enc 4 (len p) ++ p ++ rest)).
      { rewrite N.add_comm, <- drop_drop, Ed. replace (k - pos) with ((k - pos - 2) + 2) at 1 by lia.
        rewrite <- take_drop_comm, drop_app_exact by (rewrite len_le_enc; reflexivity). reflexivity. }
      assert (Es : take 4 (drop (pos + 2) d) = take (N.min 4 (k - pos - 2)) (le_enc 4 (len p))).
      { rewrite Ed2, take_take, take_app_l by (rewrite len_le_enc; lia). reflexivity. }
      assert (Ety : head_ty pos = ty).
      { unfold head_ty. rewrite Et. unfold pad_to. rewrite le_dec_app_zeros. apply le_dec_enc_small. exact H1. }
      unfold head_size, head_end. rewrite Ety, Et, !len_le_enc. change (N.of_nat 2) with 2. rewrite Es.
      destruct (N.lt_ge_cases (k - pos) 6) as [H6|H6].
      * assert (El : len (take (N.min 4 (k - pos - 2)) (le_enc 4 (len p))) = k - pos - 2) by (lens; lia).
        rewrite El. match goal with |- context [le_dec ?b] => pose proof (Hbig b) as Hb end.
        rewrite <- El in Hb. unfold pad_to in *. rewrite le_dec_app_zeros in *.
        pose proof (Hbig (take (N.min 4 (k - pos - 2)) (le_enc 4 (len p)))) as Hb'. rewrite El in Hb'. specialize (Hb' ltac:(lia)).
        clear Hb. unfold here. pows. repeat split; try assumption; try lia.
      * replace (N.min 4 (k - pos - 2)) with 4 by lia. rewrite take_all by (rewrite len_le_enc; lia).
        unfold pad_to. rewrite le_dec_app_zeros. rewrite le_dec_enc_small by exact H2. rewrite len_le_enc. change (N.of_nat 4) with 4.
        unfold here. pows. repeat split; try assumption; try lia. right. exists (c1 ++ [(ty, p)]), c2.
        split; [rewrite Ec, <- app_assoc; reflexivity|]. split; [exact H4|].
        rewrite flat_map_app, len_app, <- Ep. cbn [flat_map]. unfold chunk_bytes. cbn [fst snd]. lens. lia.
Qed.

Lemma target_val n : n < 2 ^ 62 -> sint 64 (u64 n) = Z.of_N n.
Proof. intros H. pows. rewrite u64_small by (pows; lia). rewrite sint_small by (pows; lia). reflexivity. Qed.

Lemma fs_loop : forall fuel a pos hit, here pos -> prun fs_step (pchunked fuel cb a) (mkFS d pos hit) = Fuel.
Proof.
  induction fuel as [|fuel IH]; intros a pos hit Hh; [reflexivity|]. cbn [pchunked].
  destruct (head_small pos Hh) as (Hty & Hn & Hb). rewrite prun_bind.
  assert (E1 : exists h1, prun fs_step pushort (mkFS d pos hit) = Ret (head_ty pos, mkFS d (pos + len (take 2 (drop pos d))) h1))
    by (eexists; reflexivity). destruct E1 as [h1 E1]. rewrite E1. cbn [obind fst snd]. rewrite prun_bind.
  assert (E2 : exists h2, prun fs_step puint (mkFS d (pos + len (take 2 (drop pos d))) h1) = Ret (head_size pos, mkFS d (head_end pos) h2))
    by (eexists; reflexivity). destruct E2 as [h2 E2]. rewrite E2. cbn [obind fst snd prun fs_step fs_pos res_pos].
  rewrite prun_bind. destruct (fs_ends _ _ (Hcb _ a Hty) (mkFS d (head_end pos) h2)) as [E|([b a'] & s' & E & Hf & Ed)];
    rewrite E; [reflexivity|]. cbn [obind fst snd prun] in *. subst b. rewrite target_val by exact Hb.
  destruct s' as [d' p' e']. cbn [fs_data] in Ed. subst d'. cbn [fs_step seek_target fs_pos fs_data].
  pows. replace ((0 <=? Z.of_N (head_end pos + head_size pos)) && (Z.of_N (head_end pos + head_size pos) <? 9223372036854775808))%Z with true by lia.
  cbn [obind fst snd prun fs_step res_bool fs_eof]. rewrite N2Z.id. apply IH, Hn.
Qed.

Lemma is_loop : forall fuel a s, ist_data s = d ->
  ist_fail s = true \/ (ist_eof s = false /\ ist_fail s = false /\ here (ist_pos s)) ->
  prun is_step (pchunked fuel cb a) s = Fuel.
Proof.
  induction fuel as [|fuel IH]; intros a s Ed Hs; [reflexivity|]. cbn [pchunked].
  rewrite prun_bind.
  assert (E : exists ty s1, prun is_step pushort s = Ret (ty, s1) /\ ty <> stop /\ ist_data s1 = d /\
    (ist_fail s1 = true \/ (ist_eof s1 = false /\ ist_fail s1 = false /\ here (ist_pos s) /\
       ist_pos s1 = ist_pos s + len (take 2 (drop (ist_pos s) d))))).
  { destruct s as [z d' q e f]. cbn [ist_data ist_fail ist_eof ist_pos] in *. subst d'.
    destruct Hs as [->|(-> & -> & Hh)].
    - exists 0. eexists. split; [cbn; rewrite orb_true_r; reflexivity|]. repeat split; [lia|left; reflexivity].
    - exists (head_ty q). eexists. split; [reflexivity|]. split; [apply head_small, Hh|]. cbn [ist_data ist_fail ist_eof ist_pos].
      split; [reflexivity|]. destruct (len (take 2 (drop q d)) <? 2); [left; reflexivity|right; repeat split; apply Hh]. }
  destruct E as (ty & s1 & E & Hty & Ed1 & H1). rewrite E. cbn [obind fst snd]. clear E. rewrite prun_bind.
  assert (E : exists size s2, prun is_step puint s1 = Ret (size, s2) /\ ist_data s2 = d /\
    (ist_fail s2 = true \/ (ist_eof s2 = false /\ ist_fail s2 = false /\ here (ist_pos s2 + size) /\ ist_pos s2 + size < 2 ^ 62))).
  { destruct s1 as [z d' q e f]. cbn [ist_data ist_fail ist_eof ist_pos] in *. subst d'.
    destruct H1 as [->|(-> & -> & Hh & Eq)].
    - exists 0. eexists. split; [cbn; rewrite orb_true_r; reflexivity|]. split; [reflexivity|left; reflexivity].
    - subst q. exists (head_size (ist_pos s)). eexists. split; [reflexivity|]. cbn [ist_data ist_fail ist_eof ist_pos].
      split; [reflexivity|]. destruct (head_small _ Hh) as (_ & Hn & Hb). unfold head_end in *.
      match goal with |- context [?a <? 4] => destruct (a <? 4) end; [left; reflexivity|right; repeat split; try apply Hn; exact Hb]. }
  destruct E as (size & s2 & E & Ed2 & H2). rewrite E. cbn [obind fst snd prun]. clear E H1 Ed1 s1.
  assert (E : is_step OTell s2 = Ret (RPos (if ist_fail s2 then 2 ^ 64 - 1 else ist_pos s2), s2)) by (destruct s2; reflexivity).
  rewrite E. cbn [obind fst snd res_pos]. clear E. rewrite prun_bind.
  destruct (is_ends _ _ (Hcb _ a Hty) s2) as [E|([b a'] & s3 & E & Hf & Ed3 & _ & Hm)]; rewrite E; [reflexivity|].
  clear E. cbn [obind fst snd prun] in *. subst b.
  destruct s3 as [z d' q e f]. cbn [ist_data ist_fail] in Ed3, Hm. rewrite Ed2 in Ed3. subst d'.
  destruct f.
  { cbn [is_step obind fst snd prun res_bool]. apply IH; [reflexivity|left; reflexivity]. }
  destruct H2 as [H2|(_ & H2 & Hn & Hb)]; [discriminate (Hm H2)|]. rewrite H2. rewrite target_val by exact Hb.
  cbn [is_step]. match goal with |- context [if ?c then Ret (RUnit, _) else _] => destruct c end;
    cbn [obind fst snd prun is_step res_bool]; (apply IH; [reflexivity|]); cbn [ist_fail ist_eof ist_pos]; [right|left; reflexivity].
  cbn [seek_target]. rewrite N2Z.id. repeat split; apply Hn.
Qed.
End Cut.

Lemma hier_cut h h0 k fuel : hier_ok h -> k + 4 < len (skeleton_bytes h) ->
  from_file (phier_load fuel h0) (take k (skeleton_bytes h)) = Fuel /\
  forall string, from_stream string (phier_load fuel h0) (take k (skeleton_bytes h)) = Fuel.
Proof.
  intros H Hk. pose proof (hier_fits h H) as F.
  set (cs := [(H_HIERARCHY, hier_payload h); (H_SOURCE, date_enc (hi_date h) ++ hi_path h ++ [x0a])]).
  assert (F1 : Forall chunk_ok cs).
  { unfold hier_chunks in F. apply Forall_cons; [apply (Forall_inv F)|].
    apply Forall_cons; [apply (Forall_inv (Forall_inv_tail F))|apply Forall_nil]. }
  assert (F2 : Forall (fun c => fst c <> H_END) cs) by (repeat apply Forall_cons; try apply Forall_nil; discriminate).
  assert (E : skeleton_bytes h = flat_map chunk_bytes (cs ++ [(H_END, [])])) by reflexivity.
  assert (Hl : len (flat_map chunk_bytes (cs ++ [(H_END, [])])) < 2 ^ 61).
  { rewrite <- E. unfold skeleton_bytes, hier_chunks. pose proof (Forall_inv F1) as [_ G1].
    pose proof (Forall_inv (Forall_inv_tail F1)) as [_ G2]. cbn [fst snd] in *.
    cbn [flat_map]. unfold chunk_bytes. cbn [fst snd]. rewrite !len_app, !len_le_enc, !len_nil in *. 
    change (2 ^ 61) with 2305843009213693952. pows. lia. }
  rewrite E in Hk |- *.
  assert (H0 : here cs (H_END, []) k 0).
  { split; [reflexivity|]. right. exists [], (cs ++ [(H_END, [])]). repeat split. discriminate. }
  assert (Hcb : forall ty a, ty <> H_END -> ends (fun r => fst r = false) (phier_chunk fuel ty a)) by (intros; apply ends_hier; assumption).
  split; [|intros z]; unfold from_file, from_stream, fs_open, is_open, phier_load.
  - erewrite fs_loop; [reflexivity|..]; try eassumption; try reflexivity; try discriminate.
  - erewrite is_loop; [reflexivity|..]; try eassumption; try reflexivity; try discriminate.
    right. repeat split; apply H0.
Qed.
