(** Fonts from files and streams. *)

From Coq Require Import Lia ZifyN ZifyBool ZifyNat.
From Verif Require Import MBase MStream SStream MModel MSource MSourceFont SSource SSourceTex SFormat LBase LStream LFormat LModel LSource LSourceX LSourceY LSourceZ.
Local Open Scope N_scope.

(** ** The program is the loader *)
Lemma mem_skip chars : forall fuel s, prun r_step (pskip fuel chars) s = skip_run fuel chars s.
Proof.
  induction fuel as [|fuel IH]; intros s; [reflexivity|]. cbn [pskip skip_run]. rewrite mem_bind. unfold bind at 1 2.
  unfold pchar. rewrite mem_get. unfold read_char.
  destruct (bind (rd_fixed 1) (fun b => ret (hd x00 b)) s) as [[c s']|e| |]; try reflexivity.
  destruct (_ && _)%bool; [apply IH|reflexivity].
Qed.
Lemma skip_fuel chars : forall f g s, (f <= g)%nat -> skip_run f chars s <> Fuel -> skip_run g chars s = skip_run f chars s.
Proof.
  induction f as [|f IH]; intros g s Hfg Hn; [destruct (Hn eq_refl)|]. destruct g as [|g]; [lia|].
  cbn [skip_run] in *. unfold bind in *. destruct (read_char s) as [[c s']|e| |]; try reflexivity.
  destruct (_ && _)%bool; [|reflexivity]. apply IH; [lia|exact Hn].
Qed.
Lemma agree_line_ws fuel : agree fuel (pline fuel ws_chars) (read_line true).
Proof.
  intros s Hs Hf. unfold pline, read_line, read_line_then_ignore. rewrite mem_bind. unfold bind at 1 2. rewrite mem_until.
  destruct (read_until_eol_fw (S (N.to_nat (len (rdata s) - rpos s))) s Hs) as (l & c & p & E & Hp); [lia|].
  rewrite (until_fuel (S (N.to_nat (len (rdata s) - rpos s))) fuel s); [|lia|rewrite E; discriminate].
  rewrite E. cbn [fst snd]. unfold bind at 1. unfold rd_eof at 1. cbn [rdata rpos]. cbn [ws_chars orb].
  destruct (beq c x00); [reflexivity|]. cbn [orb prun r_step]. unfold bind at 1. unfold rd_eof at 1. cbn [rdata rpos obind ret fst snd res_bool].
  destruct (len (rdata s) <=? p) eqn:Ep; [reflexivity|]. rewrite mem_bind. unfold bind at 1 2. rewrite mem_skip.
  assert (Hs2 : r_ok (mkR (rdata s) p)) by (destruct Hs; split; cbn [rdata rpos]; [lia|assumption]).
  destruct (skip_run_fw (S (N.to_nat (len (rdata s) - rpos s))) ws_chars (mkR (rdata s) p) Hs2) as (c2 & q & E2 & _); [cbn [rdata rpos]; lia|].
  fold ws_chars. rewrite (skip_fuel ws_chars (S (N.to_nat (len (rdata s) - rpos s))) fuel); [|lia|rewrite E2; discriminate].
  rewrite E2. cbn [prun r_step]. unfold bind at 1 2. unfold rd_eof at 1 2. cbn [rdata rpos obind ret fst snd res_bool].
  destruct (_ && _)%bool; [reflexivity|]. cbn [prun r_step]. unfold bind. destruct (rd_seek (-1) CUR (mkR (rdata s) q)) as [[u s3]| | |]; reflexivity.
Qed.
Lemma agree_font fuel : agree fuel (pfont_load fuel) font_load.
Proof.
  unfold pfont_load, font_load. apply agree_bind; [apply agree_line_ws|apply fw_line|intros v]. destruct (negb _); [apply agree_throw|].
  apply agree_bind; [apply agree_line|apply fw_line|intros]. do 2 (apply agree_bind; [apply agree_u|apply fw_uint|intros]).
  apply agree_bind; [apply agree_rep; [apply agree_ub|apply fw_ubyte]|apply fw_repM, fw_ubyte|intros].
  do 2 (apply agree_bind; [apply agree_rep; [apply agree_get|apply fw_vec2]|apply fw_repM, fw_vec2|intros]). apply agree_ret.
Qed.

(** ** From anywhere *)
Lemma reads_until fuel : only_reads (puntil fuel).
Proof.
  induction fuel as [|fuel IH]; [exact I|]. cbn [puntil]. apply reads_bind; [apply reads_get; reflexivity|intros c].
  destruct (_ || _)%bool; [exact I|]. apply reads_bind; [exact IH|intros; exact I].
Qed.
Definition font_rest (fuel : nat) (version : bytes) : rprog font :=
  if negb (bytes_eqb version (lit "1")) then PEnd (Throw ParserError) else
  pbind (pline fuel []) (fun name =>
  pbind puint (fun height =>
  pbind puint (fun n =>
  pbind (prep (N.to_nat n) pubyte) (fun ws =>
  pbind (prep (N.to_nat n) pvec2) (fun a =>
  pbind (prep (N.to_nat n) pvec2) (fun b =>
  pret (mkFont name height (zip_glyphs ws a b)))))))).
Lemma reads_rest fuel v : only_reads (font_rest fuel v).
Proof.
  unfold font_rest. destruct (negb _); [exact I|]. apply reads_bind; [unfold pline; apply reads_bind; [apply reads_until|intros; exact I]|intros].
  do 2 (apply reads_bind; [apply reads_get; reflexivity|intros]). do 3 (apply reads_bind; [apply reads_rep, reads_get; reflexivity|intros]). exact I.
Qed.
Lemma first_line fuel x y rest : ~ is_ws x -> (3 <= fuel)%nat -> len (lit "1" ++ [x0a] ++ x :: y :: rest) < max_size ->
  inside (lit "1" ++ [x0a] ++ x :: y :: rest) 0 (pline fuel ws_chars) /\
  prun (cur (lit "1" ++ [x0a] ++ x :: y :: rest)) (pline fuel ws_chars) 0 = Ret (lit "1", 2).
Proof.
  intros Hx Hf Hl. set (data := lit "1" ++ [x0a] ++ x :: y :: rest) in *.
  assert (N1 : no_eol (lit "1")) by (constructor; [repeat split; discriminate|constructor]).
  destruct (sreads_until (lit "1") fuel x0a N1 eq_refl (ltac:(cbn; lia)) [] (x :: y :: rest) Hl) as [I1 R1].
  destruct (sreads_char x [x31; x0a] (y :: rest) Hl) as [I2 R2].
  change ([] ++ (lit "1" ++ [x0a]) ++ x :: y :: rest) with data in I1, R1. change ([x31; x0a] ++ [x] ++ y :: rest) with data in I2, R2.
  change (len []) with 0 in I1, R1. change (0 + len (lit "1" ++ [x0a])) with 2 in R1. change (len [x31; x0a]) with 2 in I2, R2. change (2 + len [x]) with 3 in R2.
  assert (L : 4 <= len data) by (unfold data; change (lit "1" ++ [x0a] ++ x :: y :: rest) with ([x31; x0a; x; y] ++ rest); rewrite len_app; change (len [x31; x0a; x; y]) with 4; lia).
  assert (W : (negb (beq x x00) && existsb (beq x) ws_chars)%bool = false).
  { apply andb_false_iff. right. destruct (existsb (beq x) ws_chars) eqn:E; [|reflexivity]. exfalso. apply Hx.
    apply existsb_exists in E as (z & Hz & E). apply beq_spec in E. subst z. exact Hz. }
  destruct fuel as [|fuel]; [lia|].
  assert (IS : inside data 2 (pskip (S fuel) ws_chars) /\ prun (cur data) (pskip (S fuel) ws_chars) 2 = Ret (x, 3)).
  { cbn [pskip]. split.
    - apply inside_bind; [exact I2|]. intros a p E. rewrite R2 in E. injection E as <- <-. rewrite W. exact I.
    - rewrite prun_bind, R2. cbn [obind fst snd]. rewrite W. reflexivity. }
  destruct IS as [I3 R3]. unfold pline. split.
  - apply inside_bind; [exact I1|]. intros a p E. rewrite R1 in E. injection E as <- <-. cbn [fst snd ws_chars orb]. change (beq x0a x00) with false. cbv iota.
    cbn [inside op_inside cursor_step fst snd]. split; [lia|]. replace (2 =? len data) with false by lia. cbn [res_bool].
    apply inside_bind; [exact I3|]. intros a p E. fold ws_chars in E. rewrite R3 in E. injection E as <- <-. cbn [inside op_inside cursor_step fst snd]. split; [lia|].
    replace (3 =? len data) with false by lia. cbn [res_bool andb inside op_inside seek_target]. split; [|exact I].
    split; [pows; lia|]. unfold in_range. lia.
  - rewrite prun_bind, R1. cbn [obind fst snd ws_chars orb]. change (beq x0a x00) with false. cbv iota. cbn [prun]. unfold cur at 1. cbn [cursor_step obind fst snd res_bool].
    replace (2 =? len data) with false by lia. rewrite prun_bind. fold ws_chars. rewrite R3. cbn [obind fst snd prun]. unfold cur at 1. cbn [cursor_step obind fst snd res_bool].
    replace (3 =? len data) with false by lia. cbn [andb prun]. unfold cur at 1. cbn [cursor_step obind fst snd prun pret seek_target].
    replace (in_range (Z.of_N 3 + -1) (len data)) with true by (unfold in_range; lia). reflexivity.
Qed.
Lemma font_anywhere x y rest fuel : let data := lit "1" ++ [x0a] ++ x :: y :: rest in ~ is_ws x -> len data < max_size -> len data < N.of_nat fuel ->
  from_memory (pfont_load fuel) data = of_file font_load data /\ from_file (pfont_load fuel) data = of_file font_load data /\
  forall string, from_stream string (pfont_load fuel) data = of_file font_load data.
Proof.
  intros data Hx Hl Hf. assert (L : 4 <= len data) by (unfold data; change (lit "1" ++ [x0a] ++ x :: y :: rest) with ([x31; x0a; x; y] ++ rest); rewrite len_app; change (len [x31; x0a; x; y]) with 4; lia).
  destruct (first_line fuel x y rest Hx) as [Hi Hr]; [lia|exact Hl|]. fold data in Hi, Hr.
  assert (M : from_memory (pfont_load fuel) data = of_file font_load data).
  { unfold from_memory, of_file, r_from. rewrite (agree_font fuel (mkR data 0)); [|split; cbn [rdata rpos]; [lia|exact Hl]|exact Hf].
    destruct (font_load (mkR data 0)) as [[a s]|e| |]; reflexivity. }
  split; [exact M|]. rewrite <- M. unfold from_file, from_memory, from_stream, fs_open, is_open, r_from.
  change (pfont_load fuel) with (pbind (pline fuel ws_chars) (font_rest fuel)). rewrite !prun_bind.
  rewrite (sim r_step data (mkR data)) by (try lia; try exact Hi; intros; apply mem_inside; assumption).
  rewrite (sim fs_step data (fun q => mkFS data q false)) by (try lia; try exact Hi; intros; apply fs_inside; assumption).
  rewrite Hr. cbn [relabel obind fst snd]. split.
  - apply file_same_from; [exact Hl|lia|discriminate|apply reads_file, reads_rest].
  - intros k. rewrite prun_bind. rewrite (sim is_step data (fun q => mkIS k data q false false)) by (try lia; try exact Hi; intros; apply is_inside; assumption).
    rewrite Hr. cbn [relabel obind fst snd]. apply reads_stream; [exact Hl|apply reads_rest|lia|discriminate].
Qed.
Lemma saved_font_anywhere f : font_ok f -> starts_visible (fo_name f) -> exists bs, (len bs < max_size -> file_of (font_save f) = Ret bs) /\
  forall fuel, len bs < max_size -> len bs < N.of_nat fuel ->
    from_memory (pfont_load fuel) bs = Ret f /\ from_file (pfont_load fuel) bs = Ret f /\ forall string, from_stream string (pfont_load fuel) bs = Ret f.
Proof.
  intros Hf Hv. exists (font_bytes f). split; [apply file_writes, font_writes, Hf|]. intros fuel Hl Hfu.
  assert (E : of_file font_load (font_bytes f) = Ret f).
  { unfold of_file. pose proof (font_reads f Hf Hv [] [] I) as R. cbn [app] in R. rewrite app_nil_r in R. change (len []) with 0 in R. rewrite (R Hl). reflexivity. }
  rewrite <- E. destruct (fo_name f) as [|x nm] eqn:En; [destruct Hv|].
  assert (D : exists y rest, font_bytes f = lit "1" ++ [x0a] ++ x :: y :: rest).
  { unfold font_bytes. rewrite En. destruct nm as [|y nm]; [exists x0a; eexists|exists y; eexists]; reflexivity. }
  destruct D as (y & rest & D). rewrite D in *. apply font_anywhere; [exact Hv|exact Hl|exact Hfu].
Qed.
