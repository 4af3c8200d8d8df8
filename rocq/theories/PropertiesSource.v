(** Readers and writers of files and streams. *)

From Coq Require Import Lia ZifyN ZifyBool ZifyNat.
From Verif Require Import MBase MStream SStream MBoxes MModel MTexture MSource MSourceTex MSourceFont SSource SSourceTex MSink MSinkTex SSink SBoxes SFormat.
From Verif Require Import LBase LStream LModel LSource LSourceX LSourceY LSourceZ LSourceFont LSink LSinkTex.
Local Open Scope N_scope.

Ltac plain :=
  repeat match goal with
  | |- _ <> _ => discriminate
  | |- _ < _ => reflexivity
  | |- (_ <= _)%Z => vm_compute; discriminate
  | |- (_ < _)%Z => reflexivity
  | |- _ = _ => reflexivity
  | |- _ /\ _ => split
  | |- ?P => let P' := eval hnf in P in progress change P'
  | |- _ => constructor
  end.

(** ** C127 *)
(** Code that stays inside the data computes the same from memory, from a file and from a stream. *)
Theorem C127_inside_partial : forall A (p : rprog A) data, len data < max_size -> inside data 0 p ->
  from_file p data = from_memory p data /\ forall string, from_stream string p data = from_memory p data.
Proof. exact @inside_same. Qed.
Print Assumptions C127_inside_partial.
(** From a file also if reads come up short, as long as the end is only asked for afterwards. *)
Theorem C127_file_partial : forall A (p : rprog A) data, len data < max_size -> inside_file data 0 false p ->
  from_file p data = from_memory p data.
Proof. exact @file_same. Qed.
Print Assumptions C127_file_partial.

Definition demo_reads : rprog (N * bytes * N) :=
  pbind pushort (fun n => POp (OSeek (-1) END) (fun _ => POp OEof (fun e =>
  pbind (pget 1 (fun b => b)) (fun b => POp OTell (fun t => pret (n, b, res_pos t)))))).
Example C127_example : inside [x01; x02; x03; x04] 0 demo_reads /\
  from_memory demo_reads [x01; x02; x03; x04] = Ret (513, [x04], 4) /\
  inside_file [x01; x02; x03] 0 false (pbind puint (fun n => POp OEof (fun e => pret (n, res_bool e)))) /\
  from_file (pbind puint (fun n => POp OEof (fun e => pret (n, res_bool e)))) [x01; x02; x03] = Ret (197121, true).
Proof. repeat split; try (cbn; lia); vm_compute; auto; discriminate. Qed.

(** A line has the same text wherever it is read from; in a file that does not end with NUL, the
    position behind it is the same too. *)
Theorem C127_lines : forall data fuel chars pos, len data < max_size -> pos <= len data ->
  (N.to_nat (len data - pos) < fuel)%nat ->
  exists l p, prun r_step (pline fuel chars) (mkR data pos) = Ret (l, mkR data p) /\
    (exists q h, prun fs_step (pline fuel chars) (mkFS data pos false) = Ret (l, mkFS data q h) /\
       (hd x00 (drop (len data - 1) data) <> x00 -> q = p)) /\
    forall string, exists s, prun is_step (pline fuel chars) (mkIS string data pos false false) = Ret (l, s).
Proof. intros data fuel chars pos H. exact (line_all data H fuel chars pos). Qed.
Print Assumptions C127_lines.
Example C127_lines_example :
  prun r_step (pline 10 ws_chars) (mkR (lit "a b" ++ [x0a; x20; x09] ++ lit "c") 0) =
    Ret (lit "a b", mkR (lit "a b" ++ [x0a; x20; x09] ++ lit "c") 6) /\
  prun fs_step (pline 10 ws_chars) (mkFS (lit "a b" ++ [x0a; x20; x09] ++ lit "c") 0 false) =
    Ret (lit "a b", mkFS (lit "a b" ++ [x0a; x20; x09] ++ lit "c") 6 false).
Proof. split; vm_compute; reflexivity. Qed.

(** The program used below is the loader of skeletons: over memory it does what that does. *)
Theorem C127_skeleton_program : forall data h fuel, len data < max_size -> len data < N.of_nat fuel ->
  from_memory (phier_load fuel h) data = of_file (hier_load h) data.
Proof. exact hier_program. Qed.
Print Assumptions C127_skeleton_program.
(** Every skeleton that is saved is loaded from a file and from a stream as well. *)
Theorem C127_skeletons : forall h h0, hier_ok h -> exists bs, file_of (hier_save h) = Ret bs /\
  forall fuel, len bs <= N.of_nat fuel ->
    from_memory (phier_load fuel h0) bs = Ret h /\ from_file (phier_load fuel h0) bs = Ret h /\
    forall string, from_stream string (phier_load fuel h0) bs = Ret h.
Proof. exact skeleton_anywhere. Qed.
Print Assumptions C127_skeletons.

(** Code that only reads computes the same from all of them, whatever the data is, also where the
    data ends too early. *)
Theorem C127_reads : forall A (p : rprog A) data, len data < max_size -> only_reads p ->
  from_file p data = from_memory p data /\ forall string, from_stream string p data = from_memory p data.
Proof. exact @reads_same. Qed.
Print Assumptions C127_reads.
(** So every texture file, whole or cut, is loaded as the same texture, or refused, from all of
    them. *)
Theorem C127_textures : forall t data, len data < max_size ->
  from_memory (ptex_load t) data = of_file (tex_load t) data /\ from_file (ptex_load t) data = of_file (tex_load t) data /\
  forall string, from_stream string (ptex_load t) data = of_file (tex_load t) data.
Proof. exact texture_anywhere. Qed.
Print Assumptions C127_textures.
Example C127_textures_example : only_reads (ptex_load tex_new) /\
  from_file (ptex_load tex_new) (lit "ZTEX" ++ le_enc 4 0 ++ le_enc 4 P8) = from_stream true (ptex_load tex_new) (lit "ZTEX" ++ le_enc 4 0 ++ le_enc 4 P8) /\
  from_stream true (ptex_load tex_new) (lit "ZTEY") = Throw ParserError.
Proof. split; [apply reads_tex|]. split; vm_compute; reflexivity. Qed.

(** Every file that begins like a font, whole or cut behind that, is loaded as the same font. *)
Theorem C127_fonts : forall x y rest fuel, let data := lit "1" ++ [x0a] ++ x :: y :: rest in
  ~ is_ws x -> len data < max_size -> len data < N.of_nat fuel ->
  from_memory (pfont_load fuel) data = of_file font_load data /\ from_file (pfont_load fuel) data = of_file font_load data /\
  forall string, from_stream string (pfont_load fuel) data = of_file font_load data.
Proof. exact font_anywhere. Qed.
Print Assumptions C127_fonts.
(** Every font that is saved is loaded from all of them. *)
Theorem C127_saved_fonts : forall f, font_ok f -> starts_visible (fo_name f) ->
  exists bs, (len bs < max_size -> file_of (font_save f) = Ret bs) /\
  forall fuel, len bs < max_size -> len bs < N.of_nat fuel ->
    from_memory (pfont_load fuel) bs = Ret f /\ from_file (pfont_load fuel) bs = Ret f /\ forall string, from_stream string (pfont_load fuel) bs = Ret f.
Proof. exact saved_font_anywhere. Qed.
Print Assumptions C127_saved_fonts.
Definition demo_font : font := mkFont (lit "f.tga") 12 [mkGlyph 3 (mkV2 0 1) (mkV2 2 3)].
Example C127_fonts_example : font_ok demo_font /\ starts_visible (fo_name demo_font) /\
  from_stream true (pfont_load 50) (lit "1" ++ [x0a] ++ lit "f.tga" ++ [x0a] ++ le_enc 4 12 ++ le_enc 4 1 ++ [x03]) =
    Ret (mkFont (lit "f.tga") 12 [mkGlyph 3 (mkV2 0 0) (mkV2 0 0)]).
Proof.
  split; [|split; [vm_compute; intuition discriminate|vm_compute; reflexivity]].
  split; [repeat constructor; discriminate|]. split; [reflexivity|]. split; [reflexivity|]. constructor; [|constructor]. repeat split; reflexivity.
Qed.

(** A saved skeleton whose end is missing: from memory, loading returns; from a file or a stream
    it goes on for ever, however many steps it is given. *)
Lemma cut_hangs : forall h h0 bs k, hier_ok h -> file_of (hier_save h) = Ret bs -> k + 4 < len bs ->
  (exists h', of_file (hier_load h0) (take k bs) = Ret h') /\
  forall fuel, from_file (phier_load fuel h0) (take k bs) = Fuel /\
    forall string, from_stream string (phier_load fuel h0) (take k bs) = Fuel.
Proof.
  intros h h0 bs k H E Hk. rewrite (file_writes _ _ (hier_writes h H) (skeleton_size h H)) in E. injection E as <-. split.
  - apply hier_returns. eapply N.le_lt_trans; [|exact (skeleton_size h H)]. rewrite len_take. apply N.le_min_r.
  - intros fuel. apply hier_cut; assumption.
Qed.
Theorem C127_cut_refuted : forall h h0 bs k, hier_ok h -> file_of (hier_save h) = Ret bs -> k + 4 < len bs ->
  (exists h', of_file (hier_load h0) (take k bs) = Ret h') /\
  forall fuel, from_file (phier_load fuel h0) (take k bs) = Fuel /\
    forall string, from_stream string (phier_load fuel h0) (take k bs) = Fuel.
Proof. exact cut_hangs. Qed.
Print Assumptions C127_cut_refuted.
Definition demo_skeleton : hierarchy :=
  mkHier [mkHNode (-1) (lit "root") (repeat 0 16)] (mkAabb (mkV3 0 0 0) (mkV3 1 1 1)) (mkAabb (mkV3 0 0 0) (mkV3 1 1 1))
    (mkV3 0 0 0) 7 (mkDate 2000 1 2 3 4 5) (lit "a.asc").
Example C127_skeletons_example : hier_ok demo_skeleton /\ exists bs, file_of (hier_save demo_skeleton) = Ret bs /\ len bs = 181.
Proof.
  split.
  - plain.
  - eexists. split; vm_compute; reflexivity.
Qed.

(** The readers differ: at the end; after a read that came up short; behind the end; and behind a
    line that is followed by a NUL. *)
Definition read_then {A} (n : N) (p : rprog A) : rprog A := POp (ORead n) (fun _ => p).
Definition ask_eof : rprog bool := POp OEof (fun r => pret (res_bool r)).
Definition ask_tell : rprog N := POp OTell (fun r => pret (res_pos r)).
Definition seek_then {A} (off : Z) (w : whence) (p : rprog A) : rprog A := POp (OSeek off w) (fun _ => p).
Theorem C127_readers_refuted :
  (forall data, len data < max_size -> from_memory (read_then (len data) ask_eof) data = Ret true /\
     from_file (read_then (len data) ask_eof) data = Ret false /\
     forall string, from_stream string (read_then (len data) ask_eof) data = Ret false) /\
  (from_memory (read_then 2 (seek_then 0 BEG pchar)) [x07] = Ret x07 /\
   from_file (read_then 2 (seek_then 0 BEG pchar)) [x07] = Ret x07 /\
   forall string, from_stream string (read_then 2 (seek_then 0 BEG pchar)) [x07] = Ret x00) /\
  (from_memory (seek_then 5 BEG ask_tell) [x07] = Ret 0 /\ from_file (seek_then 5 BEG ask_tell) [x07] = Ret 5 /\
   from_stream false (seek_then 5 BEG ask_tell) [x07] = Ret 5 /\
   from_stream true (seek_then 5 BEG ask_tell) [x07] = Ret (2 ^ 64 - 1)) /\
  (from_memory (pbind (pline 5 ws_chars) (fun _ => ask_tell)) [x61; x0a; x00] = Ret 3 /\
   from_file (pbind (pline 5 ws_chars) (fun _ => ask_tell)) [x61; x0a; x00] = Ret 2).
Proof.
  split; [|repeat match goal with |- _ /\ _ => split | |- forall _ : bool, _ => intros [] end; vm_compute; reflexivity].
  intros data Hl. split; [|split].
  - unfold from_memory, read_then, ask_eof, r_from. cbn [prun r_step]. unfold bind at 1.
    rewrite rd_read_spec; cbn [rdata rpos]; [|split; cbn [rdata rpos]; lia|pows; lia].
    cbn [ret obind fst snd prun r_step]. unfold bind, rd_eof, ret. cbn [rdata rpos obind fst snd res_bool prun pret value].
    replace (len data <=? _) with true by lia. reflexivity.
  - unfold from_file, read_then, ask_eof, fs_open. cbn [prun fs_step obind fst snd fs_pos fs_data fs_eof res_bool pret orb].
    unfold value. cbn [obind fst]. f_equal. lens. lia.
  - intros z. unfold from_stream, read_then, ask_eof, is_open. cbn [prun is_step obind fst snd res_bool pret orb].
    unfold value. cbn [obind fst]. f_equal. lens. lia.
Qed.
Print Assumptions C127_readers_refuted.

(** ** C128 *)
(** Code that stays inside what it wrote leaves the same in a vector, in a file and in a stream
    that has room, and gets the same answers. *)
Theorem C128_inside_partial : forall A (p : wprog A) room, room < max_size -> stays room ([], 0) p ->
  to_file p = to_vector p /\ forall string, to_stream string room true p = to_vector p.
Proof. intros A p room H. exact (sinks_same room H p). Qed.
Print Assumptions C128_inside_partial.
(** Saving a skeleton to any of them leaves the same bytes. *)
Lemma skeleton_sinks : forall h room, hier_ok h -> room < max_size -> exists bs, file_of (hier_save h) = Ret bs /\
  (len bs <= room -> to_vector (qhier_save h) = Ret (tt, bs) /\ to_file (qhier_save h) = Ret (tt, bs) /\
   forall string, to_stream string room true (qhier_save h) = Ret (tt, bs)).
Proof.
  intros h room H Hr. exists (skeleton_bytes h). split; [apply file_writes; [apply hier_writes, H|apply skeleton_size, H]|].
  intros Hl. apply (appends_all room Hr); [apply appends_hier; assumption|exact Hl].
Qed.
Theorem C128_skeletons : forall h room, hier_ok h -> room < max_size -> exists bs, file_of (hier_save h) = Ret bs /\
  (len bs <= room -> to_vector (qhier_save h) = Ret (tt, bs) /\ to_file (qhier_save h) = Ret (tt, bs) /\
   forall string, to_stream string room true (qhier_save h) = Ret (tt, bs)).
Proof. exact skeleton_sinks. Qed.
Print Assumptions C128_skeletons.
Example C128_example : stays 100 ([], 0) (qseq (qchunk 7 (qput [x01; x02])) (QOp (CSeek 0 BEG) (fun _ => qput [x09]))) /\
  to_vector (qseq (qchunk 7 (qput [x01; x02])) (QOp (CSeek 0 BEG) (fun _ => qput [x09]))) =
    Ret (tt, [x09; x00; x02; x00; x00; x00; x01; x02]).
Proof. split; [|vm_compute; reflexivity]. repeat split; vm_compute; auto; discriminate. Qed.

(** So does saving any texture, and any font. *)
Theorem C128_textures : forall t room, room < max_size -> exists bs, (len bs < max_size -> file_of (tex_save t) = Ret bs) /\
  (len bs <= room -> to_vector (qtex_save t) = Ret (tt, bs) /\ to_file (qtex_save t) = Ret (tt, bs) /\
   forall string, to_stream string room true (qtex_save t) = Ret (tt, bs)).
Proof. exact texture_sinks. Qed.
Print Assumptions C128_textures.
Theorem C128_fonts : forall f room, len (fo_glyphs f) < 2 ^ 32 -> room < max_size ->
  exists bs, (len bs < max_size -> file_of (font_save f) = Ret bs) /\
  (len bs <= room -> to_vector (qfont_save f) = Ret (tt, bs) /\ to_file (qfont_save f) = Ret (tt, bs) /\
   forall string, to_stream string room true (qfont_save f) = Ret (tt, bs)).
Proof. exact font_sinks. Qed.
Print Assumptions C128_fonts.
Example C128_fonts_example : to_stream true 100 true (qfont_save demo_font) = to_vector (qfont_save demo_font) /\
  to_vector (qfont_save demo_font) = Ret (tt, lit "1" ++ [x0a] ++ lit "f.tga" ++ [x0a] ++ le_enc 4 12 ++ le_enc 4 1 ++ [x03] ++
    le_enc 4 0 ++ le_enc 4 1 ++ le_enc 4 2 ++ le_enc 4 3) /\
  to_file (qtex_save tex_new) = to_vector (qtex_save tex_new).
Proof. split; [|split]; vm_compute; reflexivity. Qed.

(** A stream that could not be opened, or whose device is full, takes every write, reports that
    it wrote all, and throws nothing: a skeleton is "saved" and nothing is there. *)
Lemma lost : (forall string room l, to_stream string room false (qwrites l) = Ret (map len l, [])) /\
  (forall string room b l, room < len b -> to_stream string room true (qwrites (b :: l)) = Ret (map len (b :: l), [])) /\
  (forall string room h, to_stream string room false (qhier_save h) = Ret (tt, [])).
Proof.
  split; [|split].
  - intros z room l. unfold to_stream, os_open. cbn [negb]. rewrite failed_writes. reflexivity.
  - intros z room b l H. unfold to_stream, os_open. cbn [negb qwrites qrun os_step].
    replace (room <? 0 + len b) with true by lia. cbn [obind fst snd]. rewrite qrun_bind, failed_writes. reflexivity.
  - intros z room h. apply failed_hier.
Qed.
Theorem C128_lost_refuted : (forall string room l, to_stream string room false (qwrites l) = Ret (map len l, [])) /\
  (forall string room b l, room < len b -> to_stream string room true (qwrites (b :: l)) = Ret (map len (b :: l), [])) /\
  (forall string room h, to_stream string room false (qhier_save h) = Ret (tt, [])).
Proof. exact lost. Qed.
Print Assumptions C128_lost_refuted.
(** The same for every texture and every font. *)
Theorem C128_lost_saves_refuted : (forall string room t, to_stream string room false (qtex_save t) = Ret (tt, [])) /\
  (forall string room f, to_stream string room false (qfont_save f) = Ret (tt, [])).
Proof. exact lost_saves. Qed.
Print Assumptions C128_lost_saves_refuted.
(** A position behind the end: a vector and a file are filled with zeros, a string stream fails. *)
Theorem C128_gaps_refuted :
  to_vector (QOp (CSeek 2 BEG) (fun _ => qput [x07])) = Ret (tt, [x00; x00; x07]) /\
  to_file (QOp (CSeek 2 BEG) (fun _ => qput [x07])) = Ret (tt, [x00; x00; x07]) /\
  to_stream true 100 true (QOp (CSeek 2 BEG) (fun _ => qput [x07])) = Ret (tt, []).
Proof. split; [|split]; vm_compute; reflexivity. Qed.
Print Assumptions C128_gaps_refuted.
