(** Compiled scripts whose end is missing: every byte string is loaded. *)

From Coq Require Import Lia ZifyN ZifyBool ZifyNat.
From Verif Require Import MBase MStream SStream MBoxes MTexture MModel SFormat MMesh MBsp MMrm MDaedalus SKind LKind LBase LStream LStreamHist LCut.
Local Open Scope N_scope.

(** The same for buffers in which adding offsets does not overflow. *)
Definition small_total {A} (r : rd A) : Prop := forall s, r_ok s -> len (rdata s) < 2 ^ 62 ->
  exists a s', r s = Ret (a, s') /\ rdata s' = rdata s /\ r_ok s'.
Lemma small_of {A} (r : rd A) : total r -> small_total r.
Proof. intros H s K _. exact (H s K). Qed.
Lemma small_bound {A B} (m : rd A) (k : A -> rd B) (P : A -> Prop) : small_total m ->
  (forall s a s', r_ok s -> m s = Ret (a, s') -> P a) -> (forall a, P a -> small_total (k a)) -> small_total (bind m k).
Proof.
  intros Hm HP Hk s H L. destruct (Hm s H L) as (a & s1 & E1 & D1 & K1).
  destruct (Hk a (HP _ _ _ H E1) s1 K1 ltac:(rewrite D1; exact L)) as (b & s2 & E2 & D2 & K2).
  exists b, s2. unfold bind. rewrite E1. split; [exact E2|]. split; [congruence | exact K2].
Qed.
Lemma small_bind {A B} (m : rd A) (k : A -> rd B) : small_total m -> (forall a, small_total (k a)) -> small_total (bind m k).
Proof. intros Hm Hk. apply (small_bound m k (fun _ => True) Hm); auto. Qed.
Lemma small_ret {A} (a : A) : small_total (ret a). Proof. apply small_of, total_ret. Qed.
Lemma small_uint : small_total read_uint. Proof. apply small_of, total_uint. Qed.
Lemma small_seek off w : (- 2 ^ 62 <= off < 2 ^ 62)%Z -> small_total (rd_seek off w).
Proof.
  intros Ho [d p] [H1 H2] H3. change (2 ^ 62)%Z with 4611686018427387904%Z in Ho. cbn [rdata rpos] in *. unfold rd_seek. cbn [rdata rpos].
  assert (E : exists q, seek_internal p (len d) off w = Ret q).
  { unfold seek_internal. destruct w; [eexists; reflexivity| |].
    - rewrite sint_small by (pows; lia). rewrite ssize_add_ok by (pows; lia). cbn [obind]. eexists; reflexivity.
    - rewrite sint_small by (pows; lia). rewrite ssize_add_ok by (pows; lia). cbn [obind]. eexists; reflexivity. }
  destruct E as (q & ->). cbn [obind]. destruct (len d <? q) eqn:E.
  - exists tt, (mkR d p). split; [reflexivity|]. split; [reflexivity|]. split; assumption.
  - exists tt, (mkR d q). split; [reflexivity|]. split; [reflexivity|]. split; cbn [rdata rpos]; [lia | assumption].
Qed.
Lemma total_line : total (read_line false).
Proof.
  intros s H. destruct s as [d p]. unfold read_line, read_line_then_ignore. cbn [rdata rpos].
  assert (U : forall f q, q <= len d -> (N.to_nat (len d - q) < f)%nat ->
     exists l q', read_until_eol f (mkR d q) = Ret (l, mkR d q') /\ q' <= len d).
  { destruct H as [H1 H2]. cbn [rdata rpos] in H1, H2.
    induction f as [|f IH]; intros q Hq Hf; [lia|]. cbn [read_until_eol].
    assert (C : read_char (mkR d q) = Ret (hd x00 (pad_to 1 (take 1 (drop q d))), mkR d (q + N.min 1 (len d - q)))).
    { unfold read_char, bind. rewrite (read_exact d q 1 Hq H2 ltac:(discriminate)). reflexivity. }
    rewrite (bind_step _ _ _ _ _ C). destruct (_ || _) eqn:Eb.
    - eexists _, (q + N.min 1 (len d - q)). split; [reflexivity | lia].
    - cbv beta. destruct (N.le_gt_cases (len d) q) as [X|X].
      + rewrite drop_all, take_nil in Eb by lia. discriminate.
      + destruct (IH (q + N.min 1 (len d - q)) ltac:(lia) ltac:(lia)) as (l & q' & E & Q). rewrite (bind_step _ _ _ _ _ E).
        eexists _, q'. split; [reflexivity | exact Q]. }
  destruct (U (S (N.to_nat (len d - p))) p (proj1 H) ltac:(lia)) as (l & q' & E & Q).
  unfold bind. rewrite E. unfold rd_eof. cbn [orb]. unfold ret. exists (fst l), (mkR d q'). split; [reflexivity|]. split; [reflexivity|].
  split; cbn [rdata rpos]; [exact Q | exact (proj2 H)].
Qed.

Lemma small_tell_then {A} (k : N -> rd A) : (forall p, p < 2 ^ 62 -> small_total (k p)) -> small_total (bind rd_tell k).
Proof.
  intros H s K L. unfold bind, rd_tell. apply H; [|exact K|exact L]. destruct K as [K1 K2]. lia.
Qed.
Lemma small_parent n : small_total (find_parent n).
Proof.
  induction n as [|n IH]; cbn [find_parent]; [apply small_ret|].
  apply small_bind; [apply small_seek; lia|]. intros _. apply small_bind; [apply small_uint|]. intros p.
  destruct (p =? none32); [apply small_ret | exact IH].
Qed.
Lemma land_small a k : N.land a (N.ones k) < 2 ^ k.
Proof. rewrite N.land_ones. apply N.mod_lt. apply N.pow_nonzero. discriminate. Qed.
Lemma small_symbol : small_total load_symbol.
Proof.
  unfold load_symbol. apply small_bind; [apply small_uint|]. intros named.
  apply small_bind; [destruct (named =? 0); [apply small_ret|]; apply small_bind; [apply small_of, total_line|]; intros [|c r]; [apply small_ret|]; destruct (beq c xff); apply small_ret|].
  intros nm. apply small_bind; [apply small_uint|]. intros vary. apply small_bind; [apply small_uint|]. intros props. cbv zeta.
  do 5 (apply small_bind; [apply small_uint|]; intros ?).
  assert (C : N.land props 4095 * 4 <= 2 ^ 63).
  { change 4095 with (N.ones 12). pose proof (land_small props 12) as L. change (2 ^ 12) with 4096 in L. pows. lia. }
  apply small_bind.
  - destruct (negb _); [apply small_ret|]. destruct (_ =? T_FLOAT); [apply small_bind; [apply small_of, total_read, C|]; intros; apply small_ret|].
    destruct (_ =? T_INT); [apply small_bind; [apply small_of, total_read, C|]; intros; apply small_ret|].
    destruct (_ =? T_STRING); [apply small_bind; [apply small_of, total_rep, total_line|]; intros; apply small_ret|].
    destruct (_ =? T_CLASS); [apply small_bind; [apply small_of, total_int|]; intros; apply small_ret|].
    destruct (_ =? T_INSTANCE); [apply small_bind; [apply small_uint|]; intros; apply small_ret|].
    destruct (_ =? T_FUNCTION); [apply small_bind; [apply small_uint|]; intros; apply small_ret|].
    destruct (_ =? T_PROTOTYPE); [apply small_bind; [apply small_uint|]; intros; apply small_ret|]. apply small_ret.
  - intros [[val addr] coff]. apply small_bind; [apply small_uint|]. intros parent. apply small_bind.
    + destruct (_ && _); [|apply small_ret]. apply small_tell_then. intros here Hh. apply small_bind; [apply small_parent|].
      intros [p|]; [apply small_ret|]. apply small_bind; [apply small_seek|intros; apply small_uint].
      rewrite sint_small by (pows; lia). change (2 ^ 62)%Z with 4611686018427387904%Z; pows; lia.
    + intros. apply small_ret.
Qed.
Lemma small_symbols : forall n i nm ad, small_total (load_symbols n i nm ad).
Proof.
  induction n as [|n IH]; intros i nm ad; cbn [load_symbols]; [apply small_ret|].
  apply small_bind; [apply small_symbol|]. intros s. apply small_bind; [apply IH|]. intros [[l nm'] ad']. apply small_ret.
Qed.
Lemma uint_bound s a s' : r_ok s -> read_uint s = Ret (a, s') -> a < 2 ^ 32.
Proof.
  intros [H1 H2] E. destruct s as [d p]. unfold read_uint, bind in E. rewrite (read_exact d p 4 H1 H2 ltac:(discriminate)) in E. unfold ret in E.
  injection E as <- _. set (x := pad_to _ _). assert (L : len x = 4) by (unfold x, pad_to; lens; lia).
  pose proof (le_dec_bound x) as B. rewrite L in B. exact B.
Qed.
Lemma small_script : small_total load_script.
Proof.
  unfold load_script. apply small_bind; [apply small_of, total_ubyte|]. intros _.
  apply (small_bound read_uint _ (fun a => a < 2 ^ 32) small_uint uint_bound). intros count Hc.
  apply small_bind; [apply small_seek; change (2 ^ 62)%Z with 4611686018427387904%Z; pows; lia|]. intros _.
  apply small_bind; [apply small_symbols|]. intros [[l nm] ad].
  apply (small_bound read_uint _ (fun a => a < 2 ^ 32) small_uint uint_bound). intros size Hs.
  apply small_bind; [apply small_of, total_read; pows; lia|]. intros code. apply small_ret.
Qed.
Lemma any_script b : len b < 2 ^ 62 -> exists sc s, load_script (r_from b) = Ret (sc, s).
Proof.
  intros H. destruct (small_script (r_from b)) as (sc & s & E & _); [split; cbn [rdata rpos r_from]; [lia | pows; lia] | exact H|]. exists sc, s. exact E.
Qed.
Lemma symbols_count : forall n i nm ad s l nm' ad' s', load_symbols n i nm ad s = Ret ((l, nm', ad'), s') -> length l = n.
Proof.
  induction n as [|n IH]; intros i nm ad s l nm' ad' s' E; cbn [load_symbols] in E.
  - unfold ret in E. injection E as <- _ _ _. reflexivity.
  - unfold bind in E. destruct (load_symbol s) as [[y s1]| | |]; try discriminate.
    destruct (load_symbols n _ _ _ s1) as [[[[l1 n1] a1] s2]| | |] eqn:E2; try discriminate. unfold ret in E. injection E as <- _ _ _.
    cbn [length]. f_equal. exact (IH _ _ _ _ _ _ _ _ E2).
Qed.
Lemma script_count b sc s : len b < 2 ^ 62 -> 5 <= len b -> load_script (r_from b) = Ret (sc, s) -> len (sc_syms sc) = le_dec (take 4 (drop 1 b)).
Proof.
  intros Hl H5 E. assert (M : len b < max_size) by (pows; lia). unfold load_script, r_from in E.
  assert (B : b = b ++ []) by (symmetry; apply app_nil_r).
  assert (U : read_ubyte (mkR b 0) = Ret (le_dec (take 1 (drop 0 b)), mkR b (0 + 1))).
  { rewrite B at 1 3. unfold read_ubyte, bind. rewrite fixed_head by (rewrite ?app_nil_r; try assumption; lia). reflexivity. }
  rewrite (bind_step _ _ _ _ _ U) in E.
  assert (V : read_uint (mkR b (0 + 1)) = Ret (le_dec (take 4 (drop 1 b)), mkR b (0 + 1 + 4))).
  { rewrite B at 1 3. apply (uint_head b [] (0 + 1)); rewrite ?app_nil_r; try assumption; lia. }
  rewrite (bind_step _ _ _ _ _ V) in E. unfold bind at 1 in E. destruct (rd_seek _ CUR _) as [[[] s1]| | |]; try discriminate.
  unfold bind at 1 in E. destruct (load_symbols _ _ _ _ s1) as [[[[l nm] ad] s2]| | |] eqn:L; try discriminate.
  apply symbols_count in L. unfold bind in E. destruct (read_uint s2) as [[sz s3]| | |]; try discriminate.
  destruct (rd_read sz s3) as [[code s4]| | |]; try discriminate. unfold ret in E. injection E as <- _. cbn [sc_syms]. unfold len at 1. rewrite L. lia.
Qed.
Lemma script_cut b k : len b < 2 ^ 62 -> 5 <= k <= len b ->
  exists sc s sc' s', load_script (r_from b) = Ret (sc, s) /\ load_script (r_from (take k b)) = Ret (sc', s') /\ len (sc_syms sc') = len (sc_syms sc).
Proof.
  intros Hl Hk. assert (Hl' : len (take k b) < 2 ^ 62) by (rewrite len_take; lia).
  destruct (any_script b Hl) as (sc & s & E). destruct (any_script (take k b) Hl') as (sc' & s' & E').
  exists sc, s, sc', s'. split; [exact E|]. split; [exact E'|].
  rewrite (script_count b sc s Hl ltac:(lia) E). rewrite (script_count _ sc' s' Hl' ltac:(rewrite len_take; lia) E').
  f_equal. rewrite <- (take_drop k b) at 2. rewrite drop_app_l by (rewrite len_take; lia).
  rewrite take_app_l by (rewrite len_drop, len_take; lia). reflexivity.
Qed.

(** ** The empty file *)
Lemma empty_sections :
  (forall h, of_file (hier_load h) [] = Ret h) /\ (forall t v, of_file (bsp_load t v) [] = Ret t) /\
  (forall m wide, of_file (mesh_load m wide) [] = Ret m) /\ (forall m, of_file (mrm_load m) [] = Ret m) /\
  (forall k, of_file (skin_load k) [] = Ret k) /\ (forall m, of_file (mm_load m) [] = Ret m) /\
  (forall m, of_file (morph_load m) [] = Ret m) /\ (forall po ro a, of_file (ani_load po ro a) [] = Ret a).
Proof. repeat split; intros; reflexivity. Qed.
Lemma short_refused : (forall t b, len b < 4 -> tex_load t (r_from b) = Throw ParserError) /\ font_load (r_from []) = Throw ParserError.
Proof.
  split; [|reflexivity]. intros t b H. apply textures_refused; [pows; lia|]. intros S. unfold stands in S.
  apply (f_equal len) in S. change (len (lit "ZTEX")) with 4 in S. rewrite len_take, len_drop in S. lia.
Qed.
