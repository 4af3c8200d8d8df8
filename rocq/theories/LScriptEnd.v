(** Compiled model scripts: loading returns. *)

From Coq Require Import Lia ZifyN ZifyBool ZifyNat.
From Verif Require Import MBase MStream SStream LBase LStream LStreamHist LFormat MBoxes SFormat SArchEnd MScript SScriptEnd LKind LThrows LUnknown SKind.
Local Open Scope N_scope.
Local Open Scope m_scope.

(** ** A loop over chunks that keeps an invariant *)
Section Loop.
  Context {A : Type} (cb : N -> A -> rd (bool * A)) (I : N -> A -> Prop) (data : bytes).
  Hypothesis Hlen : len data < max_size.
  Hypothesis step : forall ty a p0 p, p0 <= p <= len data -> I p0 a ->
    exists d a' p', cb ty a (mkR data p) = Ret ((d, a'), mkR data p') /\ p <= p' <= len data /\
      (p0 < p -> forall q, p <= q -> I q a').
  Lemma chunked_keeps : forall n a p, p <= len data -> (N.to_nat (len data - p) < n)%nat -> I p a ->
    exists a' p', read_chunked n cb a (mkR data p) = Ret (a', mkR data p') /\ p <= p' <= len data.
  Proof using Hlen step.
    induction n as [|n IH]; intros a p Hp Hn Ha; [lia|]. cbn [read_chunked]. unfold read_ushort, read_uint.
    assert (Hs : r_ok (mkR data p)) by (split; [exact Hp|exact Hlen]).
    destruct (rd_fixed_safe 2 (mkR data p) Hs) as [b1 E1]; [pows; lia|]. cbn [rdata rpos] in *.
    unfold bind at 1. unfold bind at 1. rewrite E1. unfold ret at 1.
    set (s1 := mkR data (N.min (p + 2) (len data))).
    assert (Hs1 : r_ok s1) by (split; cbn [s1 rdata rpos]; [lia | exact Hlen]).
    destruct (rd_fixed_safe 4 s1 Hs1) as [b2 E2]; [pows; lia|].
    unfold bind at 1. unfold bind at 1. rewrite E2. unfold ret at 1. cbn [s1 rdata rpos].
    set (p2 := N.min (N.min (p + 2) (len data) + 4) (len data)).
    unfold bind at 1. unfold rd_tell at 1. cbn [rpos]. unfold bind at 1.
    destruct (step (le_dec b1) a p p2) as (d & a' & p3 & E3 & H3 & K); [unfold p2; lia|exact Ha|]. rewrite E3. cbn [fst snd].
    assert (Hlb2 : len b2 <= 4).
    { unfold rd_fixed, bind in E2. rewrite rd_read_spec in E2 by (assumption || (pows; lia)).
      injection E2 as E2 _. rewrite <- E2. unfold pad_to. lens. lia. }
    assert (Hsz : le_dec b2 < 2 ^ 32).
    { eapply N.lt_le_trans; [exact (le_dec_bound b2)|]. change (2 ^ 32) with (256 ^ 4). apply N.pow_le_mono_r; lia. }
    assert (Eseek : rd_seek (sint 64 (u64 (p2 + le_dec b2))) BEG (mkR data p3) =
      Ret (tt, mkR data (if len data <? p2 + le_dec b2 then p3 else p2 + le_dec b2))).
    { unfold rd_seek, seek_internal. cbn [obind rdata rpos]. rewrite uint_sint by (unfold u64; pows; lia).
      rewrite u64_small by (pows; unfold p2; lia). destruct (len data <? p2 + le_dec b2); reflexivity. }
    unfold bind at 1. rewrite Eseek. clear Eseek. set (p4 := if len data <? p2 + le_dec b2 then p3 else p2 + le_dec b2).
    assert (H4 : p2 <= p4 <= len data) by (unfold p4; destruct (N.ltb_spec (len data) (p2 + le_dec b2)); lia).
    assert (H5 : p <= p4) by (unfold p2 in H4; lia).
    destruct d; [exists a', p4; split; [reflexivity|lia]|].
    unfold bind at 1. unfold rd_eof at 1. cbn [rdata rpos]. destruct (N.leb_spec (len data) p4) as [He|He].
    - exists a', p4. split; [reflexivity|lia].
    - destruct (IH a' p4) as (a2 & p5 & E5 & H6); [lia | unfold p2 in H4; lia | | exists a2, p5; split; [exact E5|lia]].
      apply K; [unfold p2 in *; lia | lia].
  Qed.
End Loop.

(** ** Readers that return *)
Definition tot {A} (m : rd A) (d : bytes) : Prop := forall p, p <= len d -> exists a p', m (mkR d p) = Ret (a, mkR d p') /\ p <= p' <= len d.
Lemma tot_of {A} (m : rd A) d : len d < max_size -> forward m -> only (fun _ => False) m -> tot m d.
Proof.
  intros Hl Hf Ho p Hp. specialize (Hf (mkR d p) (conj Hp Hl)). specialize (Ho (mkR d p)).
  destruct (m (mkR d p)) as [[a [d' p']]|e| |]; [|destruct (Ho e eq_refl)|destruct Hf|destruct Hf].
  cbn [rdata rpos] in Hf. destruct Hf as (-> & [Hp' _] & Hle). cbn [rdata rpos] in *. exists a, p'. split; [reflexivity|lia].
Qed.
Lemma tot_bind {A B} (m : rd A) (k : A -> rd B) d : tot m d -> (forall a, tot (k a) d) -> tot (bind m k) d.
Proof.
  intros Hm Hk p Hp. destruct (Hm p Hp) as (a & p1 & E & H1). destruct (Hk a p1) as (b & p2 & E2 & H2); [lia|].
  exists b, p2. unfold bind. rewrite E. split; [exact E2|lia].
Qed.
Lemma no_word w l d p : lacks w d -> first_line (drop p d) = l -> w <> [] -> l <> w.
Proof.
  intros Hw <- Hne E. apply (Hw p). rewrite <- E at 2. clear -E Hne. set (x := drop p d) in *. clearbody x.
  rewrite <- E. clear. induction x as [|c x IH]; [reflexivity|]. cbn [first_line].
  destruct (beq c x00 || beq c x0d || beq c x0a); [reflexivity|]. rewrite len_cons. rewrite take_firstn in *.
  replace (N.to_nat (N.succ (len (first_line x)))) with (S (N.to_nat (len (first_line x)))) by lia || idtac.
  replace (N.to_nat (1 + len (first_line x))) with (S (N.to_nat (len (first_line x)))) by lia || idtac.
  cbn [firstn]. f_equal. exact IH.
Qed.
Ltac easy_tot Hl := apply tot_of; [exact Hl | fsteps | onlys].
Lemma tot_tag d : len d < max_size -> frameless d -> tot b_tag d.
Proof.
  intros Hl Hf. unfold b_tag. apply tot_bind; [easy_tot Hl|]. intros fr p Hp.
  destruct (line_first false (mkR d p)) as ([d' p'] & E); [split; [exact Hp|exact Hl]|]. cbn [rdata rpos] in E.
  assert (F : d' = d /\ p <= p' <= len d).
  { pose proof (fw_line false (mkR d p) (conj Hp Hl)) as F. rewrite E in F. cbn [rdata rpos] in F. destruct F as (-> & [F _] & G). cbn [rdata rpos] in F. split; [reflexivity|lia]. }
  destruct F as (-> & Hp'). unfold bind at 1. rewrite E. set (tn := first_line (drop p d)) in *. cbv zeta.
  assert (W : forall w, In w frame_words -> tn <> w).
  { intros w Hw. apply (no_word w tn d p (Hf w Hw)); [reflexivity|]. intros ->. vm_compute in Hw. intuition discriminate. }
  assert (T : match event_type tn with E_DAMAGE_MULTIPLIER | E_PARRY_FRAME | E_OPTIMAL_FRAME | E_HIT_END | E_COMBO_WINDOW => False | _ => True end).
  { unfold event_type, event_types, event_type_in.
    repeat match goal with |- context [bytes_eqb tn ?w] => let B := fresh "B" in destruct (bytes_eqb tn w) eqn:B; [first [exact I | exfalso; apply bytes_eqb_spec in B; apply (W w); [unfold frame_words; cbn [In]; auto 10 | exact B]]|] end.
    exact I. }
  clearbody tn. destruct (event_type tn) eqn:Et; try destruct T;
    match goal with |- exists a q, ?m _ = _ /\ _ => assert (X : tot m d) by easy_tot Hl; destruct (X p') as (a0 & q0 & Ea & Hq); [lia|]; exists a0, q0; split; [exact Ea|lia] end.
Qed.

(** ** One chunk *)
Definition anis (s : mscript) : N := len (ms_animations s).
Lemma add_event_anis s ix e : ix < anis s -> exists s', add_event s ix e = Ret s' /\ anis s' = anis s.
Proof.
  intros H. unfold add_event, anis in *. rewrite (proj2 (N.ltb_lt _ _) H).
  destruct (nth_error (ms_animations s) (N.to_nat ix)) as [a|] eqn:E.
  - eexists. split; [reflexivity|]. cbn [with_animations ms_animations]. unfold set_at, len in *.
    rewrite app_length, firstn_length. cbn [length]. rewrite skipn_length. lia.
  - apply nth_error_None in E. unfold len in H. lia.
Qed.
Lemma tot_event d s ix (p : rd mevent) : tot p d -> ix < anis s -> forall q, q <= len d -> exists s' q',
  (let* e := p in let* s' := lift (add_event s ix e) in ret (false, (s', ix))) (mkR d q) = Ret ((false, (s', ix)), mkR d q') /\
  q <= q' <= len d /\ anis s' = anis s.
Proof.
  intros Hp Hi q Hq. destruct (Hp q Hq) as (e & q' & E & H). destruct (add_event_anis s ix e Hi) as (s' & Es & Hs).
  exists s', q'. unfold bind at 1. rewrite E. unfold bind at 1, lift. rewrite Es. split; [reflexivity|]. split; [exact H|exact Hs].
Qed.
Lemma tot_plain {A} d (m : rd A) (f : A -> mscript) (ix : N) : tot m d -> forall q, q <= len d -> exists a q',
  (let* e := m in ret (false, (f e, ix))) (mkR d q) = Ret ((false, (f a, ix)), mkR d q') /\ q <= q' <= len d.
Proof.
  intros Hm q Hq. destruct (Hm q Hq) as (e & q' & E & H). exists e, q'. unfold bind. rewrite E. split; [reflexivity|exact H].
Qed.
Ltac tev Hl Hix :=
  match goal with |- exists s2 ix2 q', (bind ?p _) (mkR ?d ?q) = _ /\ _ =>
    let X := fresh "X" in assert (X : tot p d) by first [solve [easy_tot Hl] | apply tot_bind; [apply tot_tag; assumption | intros; easy_tot Hl]];
    destruct (tot_event d _ _ p X Hix q) as (s2 & q2 & E2 & H2 & H3); [assumption|];
    eexists s2, _, q2; split; [exact E2|]; split; [exact H2|]; split; [exact H3|reflexivity] end.
Ltac tpl Hl :=
  match goal with |- exists s2 ix2 q', (bind ?p (fun e => ret (false, (@?f e, ?ix)))) (mkR ?d ?q) = _ /\ _ =>
    let X := fresh "X" in assert (X : tot p d) by easy_tot Hl;
    destruct (tot_plain d p f ix X q) as (a2 & q2 & E2 & H2); [assumption|];
    exists (f a2), ix, q2; split; [exact E2|]; split; [exact H2|] end.
Lemma chunk_returns d ty s ix q : len d < max_size -> frameless d -> q <= len d -> (In ty event_chunk_types -> ix < anis s) ->
  exists s2 ix2 q', b_chunk ty (s, ix) (mkR d q) = Ret ((false, (s2, ix2)), mkR d q') /\ q <= q' <= len d /\
    (if ty =? animation_chunk_type then anis s2 = anis s + 1 /\ ix2 = u32 (ix + 1) else anis s2 = anis s /\ ix2 = ix).
Proof.
  intros Hl Hf Hq Hev. unfold b_chunk. cbv zeta.
  destruct (N.eqb_spec ty B_MESH_AND_TREE) as [->|_].
  { change (B_MESH_AND_TREE =? animation_chunk_type) with false. cbv iota.
    assert (X : tot (let* d := read_uint in let* n := read_line false in ret (mkMdsSkel n (negb (d =? 0)))) d) by easy_tot Hl.
    destruct (X q Hq) as (k & q2 & E & H). exists (with_skeleton s k), ix, q2. split; [|split; [exact H|split; reflexivity]].
    revert E. unfold bind. destruct (read_uint (mkR d q)) as [[n s1]| | |]; try discriminate.
    destruct (read_line false s1) as [[l s3]| | |]; try discriminate. unfold ret. intros [= <- ->]. reflexivity. }
  destruct (N.eqb_spec ty B_REGISTER_MESH) as [->|_].
  { tpl Hl. split; reflexivity. }
  destruct (N.eqb_spec ty B_ANIMATION) as [->|Hani].
  { unfold b_animation. tpl Hl. split; [|reflexivity]. unfold anis, push_ani. cbn [with_animations ms_animations]. rewrite len_app. reflexivity. }
  replace (ty =? animation_chunk_type) with false by (symmetry; apply N.eqb_neq; exact Hani).
  destruct (N.eqb_spec ty B_ALIAS) as [_|_]. { unfold b_alias. tpl Hl. split; reflexivity. }
  destruct (N.eqb_spec ty B_BLEND) as [_|_]. { unfold b_blend. tpl Hl. split; reflexivity. }
  destruct (N.eqb_spec ty B_COMBINE) as [_|_]. { unfold b_combine. tpl Hl. split; reflexivity. }
  destruct (N.eqb_spec ty B_DISABLE) as [_|_]. { tpl Hl. split; reflexivity. }
  destruct (N.eqb_spec ty B_TREMOR) as [->|_]. { unfold b_tremor. assert (Hix : ix < anis s) by (apply Hev; vm_compute; auto 10). tev Hl Hix. }
  destruct (N.eqb_spec ty B_SFX) as [->|_]. { unfold b_sfx. assert (Hix : ix < anis s) by (apply Hev; vm_compute; auto 10). tev Hl Hix. }
  destruct (N.eqb_spec ty B_SFX_GROUND) as [->|_]. { unfold b_sfx. assert (Hix : ix < anis s) by (apply Hev; vm_compute; auto 10). tev Hl Hix. }
  destruct (N.eqb_spec ty B_MODEL_TAG) as [_|_]. { unfold b_model_tag. tpl Hl. split; reflexivity. }
  destruct (N.eqb_spec ty B_TAG) as [->|_]. { assert (Hix : ix < anis s) by (apply Hev; vm_compute; auto 10). tev Hl Hix. }
  destruct (N.eqb_spec ty B_PFX) as [->|_]. { unfold b_pfx. assert (Hix : ix < anis s) by (apply Hev; vm_compute; auto 10). tev Hl Hix. }
  destruct (N.eqb_spec ty B_PFX_STOP) as [->|_]. { unfold b_pfx_stop. assert (Hix : ix < anis s) by (apply Hev; vm_compute; auto 10). tev Hl Hix. }
  destruct (N.eqb_spec ty B_MM_ANI) as [->|_]. { unfold b_morph. assert (Hix : ix < anis s) by (apply Hev; vm_compute; auto 10). tev Hl Hix. }
  destruct (N.eqb_spec ty B_ROOT) as [_|_].
  { assert (X : tot (let* _ := read_uint in let* _ := read_line false in ret tt) d) by easy_tot Hl.
    destruct (X q Hq) as (k & q2 & E & H). exists s, ix, q2. split; [|split; [exact H|split; reflexivity]].
    revert E. unfold bind. destruct (read_uint (mkR d q)) as [[n s1]| | |]; try discriminate.
    destruct (read_line false s1) as [[l s3]| | |]; try discriminate. unfold ret. intros [= _ ->]. reflexivity. }
  destruct (N.eqb_spec ty B_SOURCE) as [_|_].
  { assert (X : tot (let* _ := date_load in let* _ := read_line false in ret tt) d) by easy_tot Hl.
    destruct (X q Hq) as (k & q2 & E & H). exists s, ix, q2. split; [|split; [exact H|split; reflexivity]].
    revert E. unfold bind at 1 3. destruct (date_load (mkR d q)) as [[n s1]| | |]; try discriminate. unfold bind.
    destruct (read_line false s1) as [[l s3]| | |]; try discriminate. unfold ret. intros [= _ ->]. reflexivity. }
  destruct (N.eqb_spec ty B_EVENTS) as [_|_].
  { assert (X : tot read_uint d) by easy_tot Hl.
    destruct (X q Hq) as (k & q2 & E & H). exists s, ix, q2. split; [|split; [exact H|split; reflexivity]].
    unfold bind. rewrite E. reflexivity. }
  exists s, ix, q. split; [reflexivity|]. split; [lia|]. split; reflexivity.
Qed.

(** ** The file *)
Lemma rest_returns d s ix n p : len d < 2 ^ 32 -> frameless d -> p <= len d -> (N.to_nat (len d - p) < n)%nat ->
  ix + 1 <= anis s -> ix + 1 <= p ->
  exists x p', read_chunked n b_chunk (s, ix) (mkR d p) = Ret (x, mkR d p').
Proof.
  intros Hl Hf Hp Hn H1 H2.
  assert (Hl2 : len d < max_size) by (eapply N.lt_trans; [exact Hl|pows; lia]).
  destruct (chunked_keeps b_chunk (fun p st => snd st + 1 <= anis (fst st) /\ snd st + 1 <= p) d Hl2) with (n := n) (a := (s, ix)) (p := p) as (x & p' & E & _).
  - intros ty [s0 i0] p0 p1 Hp1 [I1 I2]. cbn [fst snd] in *.
    destruct (chunk_returns d ty s0 i0 p1 Hl2 Hf) as (s2 & i2 & q' & E & Hq & K); [lia | intros; lia |].
    exists false, (s2, i2), q'. split; [exact E|]. split; [exact Hq|]. intros Hlt q Hle. cbn [fst snd].
    destruct (ty =? animation_chunk_type); destruct K as [K1 K2]; rewrite K1, K2; [|lia].
    rewrite u32_small by lia. lia.
  - exact Hp.
  - exact Hn.
  - cbn [fst snd]. lia.
  - exists x, p'. exact E.
Qed.
Lemma one_chunk n c pre post s ix : chunk_ok c -> frameless (pre ++ chunk_bytes c ++ post) ->
  len (pre ++ chunk_bytes c ++ post) < max_size -> (In (fst c) event_chunk_types -> ix < anis s) ->
  exists s2 ix2, (if fst c =? animation_chunk_type then anis s2 = anis s + 1 /\ ix2 = u32 (ix + 1) else anis s2 = anis s /\ ix2 = ix) /\
    read_chunked (S n) b_chunk (s, ix) (mkR (pre ++ chunk_bytes c ++ post) (len pre)) =
    (let* e := rd_eof in if e then ret (s2, ix2) else read_chunked n b_chunk (s2, ix2))
      (mkR (pre ++ chunk_bytes c ++ post) (len (pre ++ chunk_bytes c))).
Proof.
  destruct c as [ty p]. unfold bytes in *. intros [Hty Hp] Hf Hl Hev. cbn [fst snd] in *. cbn [read_chunked].
  destruct (chunk_target ty p pre post Hp Hl) as [E0 Es].
  destruct (chunk_returns (pre ++ chunk_bytes (ty, p) ++ post) ty s ix (len pre + 6) Hl Hf) as (s2 & i2 & q' & E & Hq & K).
  { unfold chunk_bytes. cbn [fst snd]. lens. lia. } { exact Hev. }
  exists s2, i2. split; [exact K|].
  rewrite (chunk_head ty p pre post (fun t m h => let target := u64 (h + m) in let* r := b_chunk t (s, ix) in
     rd_seek (sint 64 target) BEG ;; if fst r then ret (snd r) else let* e := rd_eof in if e then ret (snd r) else read_chunked _ b_chunk (snd r))) by assumption.
  cbv zeta. unfold bind at 1. rewrite E. cbn [fst snd]. unfold bind at 1.
  assert (Hd : len pre + 6 + len p <= len (pre ++ chunk_bytes (ty, p) ++ post)) by (unfold chunk_bytes; cbn [fst snd]; lens; lia).
  rewrite u64_small by (clear -Hd Hl; pows; lia). rewrite sint_small by (clear -Hd Hl; pows; lia).
  rewrite rd_seek_beg by (assumption || exact Hl). rewrite <- E0. reflexivity.
Qed.
Lemma pass_chunks : forall cs n pre post s ix, Forall no_event cs -> frameless (pre ++ flat_map chunk_bytes cs ++ post) ->
  len (pre ++ flat_map chunk_bytes cs ++ post) < max_size -> post <> [] ->
  (N.to_nat (len (flat_map chunk_bytes cs ++ post)) < n)%nat ->
  exists s2 m, anis s2 = anis s /\ (N.to_nat (len post) < m)%nat /\
    read_chunked n b_chunk (s, ix) (mkR (pre ++ flat_map chunk_bytes cs ++ post) (len pre)) =
    read_chunked m b_chunk (s2, ix) (mkR (pre ++ flat_map chunk_bytes cs ++ post) (len (pre ++ flat_map chunk_bytes cs))).
Proof.
  induction cs as [|c cs IH]; intros n pre post s ix Hc Hf Hl Hpost Hn.
  - exists s, n. cbn [flat_map app] in *. rewrite app_nil_r. auto.
  - inversion Hc as [|? ? (Hok & Hev & Hani) Hcs]; subst. cbn [flat_map] in *. rewrite <- (app_assoc (chunk_bytes c)) in *.
    assert (L6 : 6 <= len (chunk_bytes c)) by (unfold chunk_bytes; lens; lia).
    destruct n as [|n]; [lia|].
    destruct (one_chunk n c pre (flat_map chunk_bytes cs ++ post) s ix Hok Hf Hl) as (s2 & i2 & K & E). { intros X. contradiction. }
    apply N.eqb_neq in Hani. rewrite Hani in K. destruct K as [K1 ->]. rewrite E. clear E.
    unfold bind at 1. rewrite eof_here.
    assert (1 <= len post) by (destruct post; [congruence|rewrite len_cons; lia]).
    rewrite (proj2 (N.leb_gt _ _)) by (rewrite app_assoc, (len_app (pre ++ _)), (len_app (flat_map _ _)); lia).
    assert (A1 : pre ++ chunk_bytes c ++ flat_map chunk_bytes cs ++ post = (pre ++ chunk_bytes c) ++ flat_map chunk_bytes cs ++ post) by apply app_assoc.
    rewrite A1 in *.
    destruct (IH n (pre ++ chunk_bytes c) post s2 ix Hcs Hf Hl Hpost) as (s3 & m & J1 & J2 & J3).
    { rewrite len_app in Hn. lia. }
    exists s3, m. split; [lia|]. split; [exact J2|]. rewrite J3. rewrite <- !app_assoc. reflexivity.
Qed.

Lemma load_binary ty0 rest0 fuel s b : b = le_enc 2 ty0 ++ rest0 -> ty0 < 2 ^ 16 -> 61440 <= ty0 -> len b < max_size ->
  mds_load fuel s (r_from b) = mds_binary s (r_from b).
Proof.
  intros -> H1 H2 Hl. unfold mds_load, bind at 1. unfold r_from.
  pose proof (reads_ushort ty0 H1 [] rest0 I) as R. rewrite app_nil_l in R. change (len (@nil byte)) with 0 in R. rewrite R by exact Hl. clear R.
  rewrite len_le_enc. unfold bind at 1. set (D := le_enc 2 ty0 ++ rest0) in *.
  assert (SK : rd_seek (-2) CUR (mkR D (0 + N.of_nat 2)) = Ret (tt, mkR D 0)).
  { unfold rd_seek, seek_internal. cbn [obind rdata rpos]. change (u64 _) with 0. destruct (N.ltb_spec (len D) 0); [lia|reflexivity]. }
  rewrite SK.
  rewrite (proj2 (N.leb_le _ _) H2). reflexivity.
Qed.
Lemma compiled_returns fuel s cs a rest b : Forall no_event cs -> chunk_ok (animation_chunk_type, a) ->
  b = flat_map chunk_bytes cs ++ chunk_bytes (animation_chunk_type, a) ++ rest ->
  61440 <= fst (hd (animation_chunk_type, a) cs) -> frameless b -> len b < 2 ^ 32 ->
  exists x, mds_load fuel s (r_from b) = Ret x.
Proof.
  intros Hcs Ha Eb Hfirst Hf Hl.
  assert (Hl2 : len b < max_size) by (eapply N.lt_trans; [exact Hl|pows; lia]).
  rewrite (load_binary (fst (hd (animation_chunk_type, a) cs)) (drop 2 b)); [|  | | exact Hfirst | exact Hl2].
  - unfold mds_binary, bind. unfold r_from. cbn [rdata rpos]. rewrite N.sub_0_r.
    destruct (pass_chunks cs (S (N.to_nat (len b))) [] (chunk_bytes (animation_chunk_type, a) ++ rest) s (2 ^ 32 - 1) Hcs) as (s2 & m & J1 & J2 & J3).
    { cbn [app]. rewrite <- Eb. exact Hf. } { cbn [app]. rewrite <- Eb. exact Hl2. } { intros X. apply app_eq_nil in X as [X _]. unfold chunk_bytes in X. apply app_eq_nil in X as [X _]. discriminate X. }
    { rewrite <- Eb. lia. }
    cbn [app] in J3. rewrite <- Eb in J3. change (len (@nil byte)) with 0 in J3. rewrite J3.
    destruct m as [|m]; [lia|].
    destruct (one_chunk m (animation_chunk_type, a) (flat_map chunk_bytes cs) rest s2 (2 ^ 32 - 1) Ha) as (s3 & i3 & K & E).
    { rewrite <- Eb. exact Hf. } { rewrite <- Eb. exact Hl2. } { intros X. cbn [fst] in X. vm_compute in X. intuition discriminate. }
    cbn [fst] in K. rewrite N.eqb_refl in K. destruct K as [K1 K2]. rewrite <- Eb in E. rewrite E.
    unfold bind. rewrite eof_here. destruct (len b <=? _) eqn:Ee; [eexists; reflexivity|].
    change (u32 (2 ^ 32 - 1 + 1)) with 0 in K2. subst i3.
    assert (L6 : 6 <= len (chunk_bytes (animation_chunk_type, a))) by (unfold chunk_bytes; lens; lia).
    assert (Lb : len b = len (flat_map chunk_bytes cs ++ chunk_bytes (animation_chunk_type, a)) + len rest).
    { rewrite Eb, app_assoc. apply len_app. }
    destruct (rest_returns b s3 0 m (len (flat_map chunk_bytes cs ++ chunk_bytes (animation_chunk_type, a))) Hl Hf) as (x & p' & E2).
    { lia. } { rewrite len_app in J2. lia. } { lia. } { rewrite len_app. lia. }
    rewrite E2. eexists. reflexivity.
  - rewrite Eb. destruct cs as [|c cs]; cbn [flat_map hd fst app].
    + unfold chunk_bytes. rewrite <- !app_assoc. cbn [fst snd]. rewrite drop_app_exact by reflexivity. reflexivity.
    + generalize (flat_map chunk_bytes cs), (chunk_bytes (animation_chunk_type, a)). intros. unfold chunk_bytes. rewrite <- !app_assoc. rewrite drop_app_exact by (symmetry; apply len_le_enc). reflexivity.
  - destruct cs as [|c cs]; cbn [hd]; [apply Ha|]. inversion Hcs as [|? ? (Hok & _) _]; subst. apply Hok.
Qed.
