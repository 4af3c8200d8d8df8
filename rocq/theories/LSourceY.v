(** Lines from files and streams; programs over memory are the loaders of the model. *)

From Coq Require Import Lia ZifyN ZifyBool ZifyNat.
From Verif Require Import MBase MStream SStream MBoxes MModel MSource SSource SBoxes SFormat LBase LStream LStreamHist LBoxes LFormat LModel LThrows LSource LSourceX.
Local Open Scope N_scope.

(** ** The program for skeletons is the loader *)
Definition agree (fuel : nat) {A} (p : rprog A) (m : rd A) : Prop :=
  forall s, r_ok s -> len (rdata s) < N.of_nat fuel -> prun r_step p s = m s.

Lemma agree_bind fuel {A B} (p : rprog A) (f : A -> rprog B) (m : rd A) (k : A -> rd B) :
  agree fuel p m -> forward m -> (forall a, agree fuel (f a) (k a)) -> agree fuel (pbind p f) (bind m k).
Proof.
  intros H1 Hm H2 s Hs Hf. rewrite mem_bind. unfold bind. rewrite (H1 s Hs Hf). specialize (Hm s Hs).
  destruct (m s) as [[a s']|e| |]; try reflexivity. destruct Hm as (D & Hs' & _). apply H2; [exact Hs'|rewrite D; exact Hf].
Qed.
Lemma agree_ret fuel {A} (a : A) : agree fuel (pret a) (ret a).
Proof. intros s _ _. reflexivity. Qed.
Lemma agree_get fuel {A} n (f : bytes -> A) : agree fuel (pget n f) (bind (rd_fixed n) (fun b => ret (f b))).
Proof. intros s _ _. apply mem_get. Qed.
Lemma agree_short fuel : agree fuel pshort read_short.
Proof.
  intros s Hs Hf. unfold pshort. rewrite mem_get. unfold read_short, read_ushort. rewrite bind_assoc. unfold bind at 1 2.
  destruct (rd_fixed 2 s) as [[b s']|e| |]; reflexivity.
Qed.
Lemma agree_rep fuel {A} n (p : rprog A) m : agree fuel p m -> forward m -> agree fuel (prep n p) (repM n m).
Proof.
  intros H Hm. induction n as [|n IH]; [apply agree_ret|]. cbn [prep repM].
  apply agree_bind; [exact H|exact Hm|intros a]. apply agree_bind; [exact IH|apply fw_repM, Hm|intros; apply agree_ret].
Qed.

Lemma mem_until : forall fuel s, prun r_step (puntil fuel) s = read_until_eol fuel s.
Proof.
  induction fuel as [|fuel IH]; intros s; [reflexivity|]. cbn [puntil read_until_eol]. rewrite mem_bind. unfold bind at 1 2.
  unfold pchar. rewrite mem_get. unfold read_char. 
  destruct (bind (rd_fixed 1) (fun b => ret (hd x00 b)) s) as [[c s']|e| |]; try reflexivity.
  destruct (_ || _)%bool; [reflexivity|]. rewrite mem_bind. unfold bind. rewrite IH.
  destruct (read_until_eol fuel s') as [[r s2]|e| |]; reflexivity.
Qed.
Lemma until_fuel : forall f g s, (f <= g)%nat -> read_until_eol f s <> Fuel -> read_until_eol g s = read_until_eol f s.
Proof.
  induction f as [|f IH]; intros g s Hfg Hn; [destruct (Hn eq_refl)|]. destruct g as [|g]; [lia|].
  cbn [read_until_eol] in *. unfold bind in *. destruct (read_char s) as [[c s']|e| |]; try reflexivity.
  destruct (_ || _)%bool; [reflexivity|]. rewrite (IH g s'); [reflexivity|lia|].
  intros E. rewrite E in Hn. apply Hn. reflexivity.
Qed.
Lemma agree_line fuel : agree fuel (pline fuel []) (read_line false).
Proof.
  intros s Hs Hf. unfold pline, read_line, read_line_then_ignore. rewrite mem_bind. unfold bind at 1 2. rewrite mem_until.
  destruct (read_until_eol_fw (S (N.to_nat (len (rdata s) - rpos s))) s Hs) as (l & c & p & E & _); [lia|].
  rewrite (until_fuel (S (N.to_nat (len (rdata s) - rpos s))) fuel s); [|lia|rewrite E; discriminate].
  rewrite E. reflexivity.
Qed.

Lemma agree_chunked {A} fuel (cb : N -> A -> rprog (bool * A)) cb' : (forall ty a, agree fuel (cb ty a) (cb' ty a)) ->
  (forall ty a, forward (cb' ty a)) -> forall n a, agree fuel (pchunked n cb a) (read_chunked n cb' a).
Proof.
  intros Hcb Hf. induction n as [|n IH]; intros a; [intros s _ _; reflexivity|]. cbn [pchunked read_chunked].
  apply agree_bind; [apply agree_get|apply fw_ushort|intros ty]. apply agree_bind; [apply agree_get|apply fw_uint|intros size].
  intros s Hs Hl. unfold bind at 1. cbn [prun r_step]. unfold bind at 1. unfold rd_tell at 1 2. cbn [obind ret fst snd res_pos].
  rewrite mem_bind. unfold bind at 1 2. rewrite (Hcb ty a s Hs Hl). pose proof (Hf ty a s Hs) as F.
  destruct (cb' ty a s) as [[[b a'] s']|e| |]; try reflexivity. destruct F as (D & Hs' & _). cbn [fst snd prun r_step].
  unfold bind at 1 2.
  destruct (rd_seek (sint 64 (u64 (rpos s + size))) BEG s') as [[u s2]|e| |] eqn:E; try reflexivity. cbn [obind ret fst snd].
  assert (Hs2 : r_ok s2 /\ rdata s2 = rdata s').
  { unfold rd_seek in E. destruct (seek_internal _ _ _ _) as [q|e| |]; try discriminate E. cbn [obind] in E.
    destruct (N.ltb_spec (len (rdata s')) q) in E; injection E as _ <-; [split; [exact Hs'|reflexivity]|].
    split; [|reflexivity]. destruct Hs' as [_ Hs']. split; cbn [rdata rpos]; assumption. }
  destruct Hs2 as [Hs2 D2]. destruct b; [reflexivity|]. cbn [prun r_step]. unfold bind, rd_eof, ret. cbn [obind fst snd res_bool].
  destruct (len (rdata s2) <=? rpos s2); [reflexivity|]. apply IH; [exact Hs2|]. rewrite D2, D. exact Hl.
Qed.
Lemma chunked_fuel {A} (cb : N -> A -> rd (bool * A)) : forall f g a s, (f <= g)%nat -> read_chunked f cb a s <> Fuel ->
  read_chunked g cb a s = read_chunked f cb a s.
Proof.
  induction f as [|f IH]; intros g a s Hfg Hn; [destruct (Hn eq_refl)|]. destruct g as [|g]; [lia|].
  cbn [read_chunked] in *. unfold bind in *. destruct (read_ushort s) as [[ty s1]|e| |]; try reflexivity.
  destruct (read_uint s1) as [[size s2]|e| |]; try reflexivity. destruct (rd_tell s2) as [[h s3]|e| |]; try reflexivity.
  destruct (cb ty a s3) as [[[b a'] s4]|e| |]; try reflexivity. destruct (rd_seek _ _ s4) as [[u s5]|e| |]; try reflexivity.
  cbn [fst snd] in *. destruct b; [reflexivity|]. destruct (rd_eof s5) as [[e s6]|e| |]; try reflexivity.
  destruct e; [reflexivity|]. apply IH; [lia|exact Hn].
Qed.

Lemma fw_hier_chunk ty h : forward (hier_chunk ty h).
Proof. unfold hier_chunk. fsteps. Qed.
Lemma agree_hier_chunk fuel ty h : agree fuel (phier_chunk fuel ty h) (hier_chunk ty h).
Proof.
  unfold phier_chunk, hier_chunk. destruct (ty =? H_HIERARCHY).
  { do 2 (apply agree_bind; [apply agree_get|fsteps|intros]). apply agree_bind; [|fsteps|intros].
    { apply agree_rep; [|apply fw_hnode]. unfold phnode, hnode_load. apply agree_bind; [apply agree_line|fsteps|intros].
      apply agree_bind; [apply agree_short|fsteps|intros]. apply agree_bind; [apply agree_get|fsteps|intros]. apply agree_ret. }
    do 2 (apply agree_bind; [unfold paabb, aabb_load; do 2 (apply agree_bind; [apply agree_get|fsteps|intros]); apply agree_ret|fsteps|intros]).
    do 2 (apply agree_bind; [apply agree_get|fsteps|intros]). apply agree_ret. }
  destruct (ty =? H_SOURCE).
  { apply agree_bind; [unfold pdate, date_load; do 7 (apply agree_bind; [apply agree_get|fsteps|intros]); apply agree_ret|fsteps|intros].
    apply agree_bind; [apply agree_line|fsteps|intros]. apply agree_ret. }
  destruct (ty =? H_END); apply agree_ret.
Qed.
Lemma agree_hier fuel h : agree fuel (phier_load fuel h) (hier_load h).
Proof.
  intros s Hs Hl. unfold phier_load, hier_load.
  rewrite (agree_chunked fuel (phier_chunk fuel) hier_chunk (agree_hier_chunk fuel) fw_hier_chunk fuel h s Hs Hl).
  apply chunked_fuel; [lia|]. intros E. pose proof (hier_forward h s Hs) as F. unfold hier_load in F. rewrite E in F. exact F.
Qed.
Lemma hier_program data h fuel : len data < max_size -> len data < N.of_nat fuel ->
  from_memory (phier_load fuel h) data = of_file (hier_load h) data.
Proof.
  intros Hl Hf. unfold from_memory, of_file, r_from. rewrite (agree_hier fuel h); [|split; cbn [rdata rpos]; [lia|exact Hl]|exact Hf].
  destruct (hier_load h (mkR data 0)) as [[a s]|e| |]; reflexivity.
Qed.
Lemma hier_returns data h : len data < max_size -> exists h', of_file (hier_load h) data = Ret h'.
Proof.
  intros Hl. unfold of_file. assert (Hs : r_ok (mkR data 0)) by (split; cbn [rdata rpos]; [lia|exact Hl]).
  pose proof (hier_forward h _ Hs) as F.
  destruct (hier_load h (mkR data 0)) as [[a s]|e| |] eqn:E; try destruct F.
  - exists a. reflexivity.
  - apply (on_hier (fun _ => False)) in E. destruct E.
Qed.

(** ** Lines *)
Definition char_at (d : bytes) (pos : N) : byte := hd x00 (drop pos d).
Lemma take1 (l : bytes) : hd x00 (pad_to 1 (take 1 l)) = hd x00 l /\ len (take 1 l) = N.min 1 (len l).
Proof.
  split; [|lens; lia]. destruct l as [|b l]; [reflexivity|]. change (b :: l) with ([b] ++ l).
  rewrite take_app_exact by reflexivity. reflexivity.
Qed.
Lemma mem_char d pos : pos <= len d -> len d < max_size ->
  prun r_step pchar (mkR d pos) = Ret (char_at d pos, mkR d (N.min (pos + 1) (len d))).
Proof.
  intros Hp Hl. unfold pchar. rewrite mem_get. unfold rd_fixed, bind. rewrite rd_read_spec; cbn [rdata rpos]; [|split; cbn [rdata rpos]; lia|pows; lia].
  rewrite <- take_inside. unfold ret. rewrite (proj1 (take1 _)). unfold char_at. do 3 f_equal. lia.
Qed.
Lemma fs_char d pos hit : pos <= len d ->
  prun fs_step pchar (mkFS d pos hit) = Ret (char_at d pos, mkFS d (N.min (pos + 1) (len d)) (hit || (len d <=? pos))).
Proof.
  intros Hp. unfold pchar, pget. cbn [prun fs_step obind fst snd fs_pos fs_data fs_eof res_bytes pret].
  destruct (take1 (drop pos d)) as [E1 E2]. rewrite E1, E2, len_drop_. unfold char_at. do 3 f_equal; [lia|]. f_equal. lia.
Qed.
Lemma is_char z d pos : pos <= len d ->
  prun is_step pchar (mkIS z d pos false false) =
  Ret (char_at d pos, mkIS z d (N.min (pos + 1) (len d)) (len d <=? pos) (len d <=? pos)).
Proof.
  intros Hp. unfold pchar, pget. cbn [prun is_step obind orb fst snd res_bytes pret].
  destruct (take1 (drop pos d)) as [E1 E2]. rewrite E1, E2, len_drop_. unfold char_at.
  replace (N.min 1 (len d - pos) <? 1) with (len d <=? pos) by lia. do 3 f_equal. lia.
Qed.
Lemma is_char_fail z d pos e : prun is_step pchar (mkIS z d pos e true) = Ret (x00, mkIS z d pos e true).
Proof. unfold pchar, pget. cbn [prun is_step]. rewrite orb_true_r. reflexivity. Qed.
Lemma char_at_end d pos : len d <= pos -> char_at d pos = x00.
Proof. intros H. unfold char_at. rewrite drop_all by exact H. reflexivity. Qed.

Section Lines.
Variable d : bytes.
Hypothesis Hd : len d < max_size.

Lemma until_all : forall fuel pos, pos <= len d -> (N.to_nat (len d - pos) < fuel)%nat ->
  exists l c p h, pos <= p <= len d /\ (h = true -> c = x00 /\ p = len d) /\
    prun r_step (puntil fuel) (mkR d pos) = Ret ((l, c), mkR d p) /\
    prun fs_step (puntil fuel) (mkFS d pos false) = Ret ((l, c), mkFS d p h) /\
    forall z, prun is_step (puntil fuel) (mkIS z d pos false false) = Ret ((l, c), mkIS z d p h h).
Proof.
  induction fuel as [|fuel IH]; intros pos Hp Hf; [lia|]. cbn [puntil].
  rewrite !prun_bind, mem_char, fs_char by assumption.
  assert (Ei : forall z, prun is_step (pbind pchar (fun c => if beq c x00 || beq c x0d || beq c x0a then pret ([], c)
      else pbind (puntil fuel) (fun r => pret (c :: fst r, snd r)))) (mkIS z d pos false false) =
    prun is_step (if beq (char_at d pos) x00 || beq (char_at d pos) x0d || beq (char_at d pos) x0a then pret ([], char_at d pos)
      else pbind (puntil fuel) (fun r => pret (char_at d pos :: fst r, snd r)))
      (mkIS z d (N.min (pos + 1) (len d)) (len d <=? pos) (len d <=? pos))).
  { intros z. rewrite prun_bind, is_char by exact Hp. reflexivity. }
  cbn [obind fst snd orb].
  destruct (N.leb_spec (len d) pos) as [He|He].
  - exists [], x00, (len d), true. split; [lia|]. split; [auto|].
    rewrite char_at_end in * by exact He. replace (N.min (pos + 1) (len d)) with (len d) in * by lia.
    change (beq x00 x00) with true in *. cbn [orb] in *. repeat split. intros z. rewrite Ei. reflexivity.
  - replace (N.min (pos + 1) (len d)) with (pos + 1) in * by lia.
    destruct (beq (char_at d pos) x00 || beq (char_at d pos) x0d || beq (char_at d pos) x0a)%bool.
    + exists [], (char_at d pos), (pos + 1), false. split; [lia|]. split; [discriminate|]. repeat split. intros z. rewrite Ei. reflexivity.
    + destruct (IH (pos + 1)) as (l & c & p & h & Hpp & Hh & E1 & E2 & E3); [lia|lia|].
      exists (char_at d pos :: l), c, p, h. split; [lia|]. split; [exact Hh|]. rewrite !prun_bind, E1, E2. repeat split.
      intros z. rewrite Ei, prun_bind, E3. reflexivity.
Qed.

Lemma skip_all chars : forall fuel pos, pos <= len d -> (N.to_nat (len d - pos) < fuel)%nat ->
  exists c p h, pos <= p <= len d /\ (h = true -> c = x00 /\ p = len d) /\ (h = false -> pos < p /\ c = char_at d (p - 1)) /\
    prun r_step (pskip fuel chars) (mkR d pos) = Ret (c, mkR d p) /\
    prun fs_step (pskip fuel chars) (mkFS d pos false) = Ret (c, mkFS d p h) /\
    forall z, prun is_step (pskip fuel chars) (mkIS z d pos false false) = Ret (c, mkIS z d p h h).
Proof.
  induction fuel as [|fuel IH]; intros pos Hp Hf; [lia|]. cbn [pskip].
  rewrite !prun_bind, mem_char, fs_char by assumption.
  assert (Ei : forall z, prun is_step (pbind pchar (fun c => if negb (beq c x00) && existsb (beq c) chars then pskip fuel chars else pret c))
      (mkIS z d pos false false) =
    prun is_step (if negb (beq (char_at d pos) x00) && existsb (beq (char_at d pos)) chars then pskip fuel chars else pret (char_at d pos))
      (mkIS z d (N.min (pos + 1) (len d)) (len d <=? pos) (len d <=? pos))).
  { intros z. rewrite prun_bind, is_char by exact Hp. reflexivity. }
  cbn [obind fst snd orb].
  destruct (N.leb_spec (len d) pos) as [He|He].
  - exists x00, (len d), true. split; [lia|]. split; [auto|]. split; [discriminate|].
    rewrite char_at_end in * by exact He. replace (N.min (pos + 1) (len d)) with (len d) in * by lia.
    change (beq x00 x00) with true in *. cbn [negb andb] in *. repeat split. intros z. rewrite Ei. reflexivity.
  - replace (N.min (pos + 1) (len d)) with (pos + 1) in * by lia.
    destruct (negb (beq (char_at d pos) x00) && existsb (beq (char_at d pos)) chars)%bool.
    + destruct (IH (pos + 1)) as (c & p & h & Hpp & Hh & Hc & E1 & E2 & E3); [lia|lia|].
      exists c, p, h. split; [lia|]. split; [exact Hh|]. split; [intros E; specialize (Hc E); split; [lia|apply Hc]|].
      rewrite E1, E2. repeat split. intros z. rewrite Ei, E3. reflexivity.
    + exists (char_at d pos), (pos + 1), false. split; [lia|]. split; [discriminate|].
      split; [intros _; split; [lia|]; f_equal; lia|]. repeat split. intros z. rewrite Ei. reflexivity.
Qed.

Lemma seek_back_mem pos : 0 < pos <= len d -> rd_seek (-1) CUR (mkR d pos) = Ret (tt, mkR d (pos - 1)).
Proof.
  intros Hp. unfold rd_seek. cbn [rpos rdata]. rewrite seek_inside; cbn [seek_target]; try (pows; lia).
  - cbn [obind]. replace (Z.to_N (Z.of_N pos + -1)) with (pos - 1) by lia.
    destruct (N.ltb_spec (len d) (pos - 1)); [lia|reflexivity].
  - unfold in_range. lia.
Qed.

(** The text of a line; from a file also the position behind it, unless the file ends with NUL. *)
Lemma line_all fuel chars pos : pos <= len d -> (N.to_nat (len d - pos) < fuel)%nat ->
  exists l p, prun r_step (pline fuel chars) (mkR d pos) = Ret (l, mkR d p) /\
    (exists q h, prun fs_step (pline fuel chars) (mkFS d pos false) = Ret (l, mkFS d q h) /\
       (char_at d (len d - 1) <> x00 -> q = p)) /\
    forall z, exists s, prun is_step (pline fuel chars) (mkIS z d pos false false) = Ret (l, s).
Proof.
  intros Hp Hf. unfold pline. destruct (until_all fuel pos Hp Hf) as (l & c & p & h & Hpp & Hh & E1 & E2 & E3).
  rewrite !prun_bind, E1, E2. cbn [obind fst snd].
  assert (Ei : forall z, prun is_step (pline fuel chars) (mkIS z d pos false false) =
    prun is_step (if (match chars with [] => true | _ => false end) || beq c x00 then pret l
      else POp OEof (fun e => if res_bool e then pret l else pbind (pskip fuel chars) (fun c => POp OEof (fun e =>
        if res_bool e && beq c x00 then pret l else POp (OSeek (-1) CUR) (fun _ => pret l))))) (mkIS z d p h h)).
  { intros z. unfold pline. rewrite prun_bind, E3. reflexivity. }
  fold (pline fuel chars). unfold pline in Ei.
  destruct (match chars with [] => true | _ => false end || beq c x00)%bool eqn:Eb.
  { exists l, p. split; [reflexivity|]. split; [exists p, h; split; [reflexivity|auto]|]. intros z. unfold pline. rewrite Ei. eexists. reflexivity. }
  assert (Hc : beq c x00 = false) by (destruct (beq c x00); [rewrite orb_true_r in Eb; discriminate|reflexivity]).
  destruct h. { destruct (Hh eq_refl) as [-> _]. change (beq x00 x00) with true in Hc. discriminate Hc. }
  destruct (skip_all chars fuel p) as (c2 & p2 & h2 & Hpp2 & Hh2 & Hc2 & G1 & G2 & G3); [lia|lia|].
  assert (Fm : exists q, prun r_step (POp OEof (fun e => if res_bool e then pret l else pbind (pskip fuel chars) (fun c => POp OEof (fun e =>
        if res_bool e && beq c x00 then pret l else POp (OSeek (-1) CUR) (fun _ => pret l))))) (mkR d p) = Ret (l, mkR d q) /\
        (char_at d (len d - 1) <> x00 -> q = if h2 then len d else p2 - 1)).
  { cbn [prun r_step]. unfold bind at 1, rd_eof at 1, ret at 1. cbn [obind fst snd res_bool rdata rpos].
    destruct (N.leb_spec (len d) p) as [He|He].
    - exists p. split; [reflexivity|]. intros _. destruct h2; [lia|]. destruct (Hc2 eq_refl). lia.
    - rewrite prun_bind, G1. cbn [obind fst snd prun r_step]. unfold bind at 1, rd_eof at 1, ret at 1. cbn [obind fst snd res_bool rdata rpos].
      destruct h2.
      + destruct (Hh2 eq_refl) as [-> ->]. rewrite N.leb_refl. change (beq x00 x00) with true. cbn [andb]. exists (len d). auto.
      + destruct (Hc2 eq_refl) as [H1 H2]. destruct ((len d <=? p2) && beq c2 x00)%bool eqn:E.
        * apply andb_true_iff in E. destruct E as [E4 E5]. exists p2. split; [reflexivity|]. intros Hn. exfalso. apply Hn.
          replace (len d - 1) with (p2 - 1) by lia. rewrite <- H2. apply beq_spec, E5.
        * cbn [prun r_step]. unfold bind. rewrite seek_back_mem by lia. exists (p2 - 1). auto. }
  destruct Fm as (q & Em & Hq). exists l, q. split; [exact Em|]. split.
  - cbn [prun fs_step obind fst snd res_bool fs_eof]. rewrite prun_bind, G2. cbn [obind fst snd prun fs_step res_bool fs_eof].
    destruct h2.
    + destruct (Hh2 eq_refl) as [-> ->]. change (beq x00 x00) with true. cbn [andb]. exists (len d), true. split; [reflexivity|].
      intros Hn. symmetry. apply Hq, Hn.
    + destruct (Hc2 eq_refl) as [H1 H2]. cbn [andb prun fs_step fs_pos fs_data seek_target].
      replace ((0 <=? Z.of_N p2 + -1) && (Z.of_N p2 + -1 <? 2 ^ 63))%Z with true by (pows; lia).
      exists (p2 - 1), false. split; [cbn [obind fst snd prun pret]; do 3 f_equal; lia|]. intros Hn. symmetry. apply Hq, Hn.
  - intros z. unfold pline. rewrite Ei. cbn [prun is_step obind fst snd res_bool]. rewrite prun_bind, G3.
    cbn [obind fst snd prun is_step res_bool]. destruct (h2 && beq c2 x00)%bool; [eexists; reflexivity|].
    cbn [prun is_step]. destruct h2; [eexists; reflexivity|].
    match goal with |- context [if ?c then Ret (RUnit, _) else _] => destruct c end; eexists; reflexivity.
Qed.
End Lines.
