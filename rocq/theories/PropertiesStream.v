(** Properties C01-C11 and C71: streams, lines, chunks, compressed streams, small values. *)

From Coq Require Import QArith.
From Verif Require Import MBase MStream MZipped MBoxes SStream SZipped SBoxes
  LBase LStream LStreamHist LZipped LBoxes LStreamProps.
Local Open Scope N_scope.

(** ** C01 *)
Theorem C01_typed_round_trip : forall vs, Forall tval_ok vs ->
  exists bs, writes (iterM twrite vs) bs /\ reads (mapM tread vs) bs vs.
Proof. exact typed_sequence. Qed.
Print Assumptions C01_typed_round_trip.

Example C01_example : Forall tval_ok
  [VInt (-5); VStr0 (lit "abc"); VFloat 1065353216; VMat3 [1;2;3;4;5;6;7;8;9]; VLine (lit "x y"); VByte (-128)].
Proof. repeat constructor; cbn; try discriminate; try lia. Qed.

(** ** C02 *)
Theorem C02_memory_reader_is_cursor_partial : forall os data pos,
  pos <= len data -> len data <= 2 ^ 62 -> Forall arg_tame os ->
  mapM r_step os (mkR data pos) =
  Ret (fst (cursor_run data pos os), mkR data (snd (cursor_run data pos os))).
Proof. exact r_history. Qed.
Print Assumptions C02_memory_reader_is_cursor_partial.

Example C02_example : Forall arg_tame [ORead 3; OSeek (-2) CUR; ORead 100; OEof; OSeek 1 END; OTell].
Proof. repeat constructor; cbn; lia. Qed.

(** A length argument near 2^64 makes the bounds check wrap. *)
Theorem C02_memory_reader_refuted : exists os data,
  Forall arg_ok os /\ mapM r_step os (r_from data) = Undef.
Proof. exact reader_wraps. Qed.
Print Assumptions C02_memory_reader_refuted.

(** ** C03 *)
Theorem C03_growable_writer_is_sparse_file : forall os, hist_fits f_empty os ->
  exists s, iterM w_step os w_empty = Ret (tt, s) /\
    len (wbuf s) = f_size (fold_left f_step os f_empty) /\
    wpos s = f_pos (fold_left f_step os f_empty) /\
    forall p, p < len (wbuf s) -> nth_N (wbuf s) p = Some (f_at (fold_left f_step os f_empty) p).
Proof. exact growable_writer. Qed.
Print Assumptions C03_growable_writer_is_sparse_file.

Example C03_example : hist_fits f_empty [OWSeek 4 BEG; OWrite [x01; x02]; OWSeek (-5) CUR; OWrite [x03; x04; x05; x06]].
Proof. pows. vm_compute. repeat split; try lia; try discriminate. Qed.

(** ** C04 *)
Theorem C04_fixed_writer_partial : forall buf os, len buf <= 2 ^ 62 -> Forall w_tame os ->
  exists s, mapM s_step os (mkS buf 0) =
              Ret (fst (region_run (len buf) (fun p => nth (N.to_nat p) buf x00, 0) os), s) /\
    let (f, pos) := snd (region_run (len buf) (fun p => nth (N.to_nat p) buf x00, 0) os) in
    len (sbuf s) = len buf /\ spos s = pos /\ pos <= len buf /\
    forall p, p < len buf -> nth_N (sbuf s) p = Some (f p).
Proof. exact fixed_writer. Qed.
Print Assumptions C04_fixed_writer_partial.

Example C04_example : Forall w_tame [OWrite [x01; x02]; OWSeek (-1) END; OWrite [x03; x04]].
Proof. repeat constructor; vm_compute; try discriminate; split; congruence || reflexivity. Qed.

(** A seek offset near the end of its type overflows the signed position arithmetic. *)
Theorem C04_fixed_writer_refuted : exists buf os,
  Forall (fun o => match o with OWSeek off _ => (- 2 ^ 63 <= off < 2 ^ 63)%Z | OWrite b => len b < 2 ^ 64 end) os /\
  mapM s_step os (mkS buf 0) = Undef.
Proof. exact static_seek_overflows. Qed.
Print Assumptions C04_fixed_writer_refuted.

(** ** C05 *)
(** Without skipping, the line comes back whatever follows; *)
Theorem C05_line_round_trip : forall s, no_eol s ->
  exists bs, writes (write_line s) bs /\ bs = s ++ [x0a] /\ reads (read_line false) bs s.
Proof. exact line_round_trip. Qed.
Print Assumptions C05_line_round_trip.

(** and so does a line ended by a carriage return or a NUL; *)
Theorem C05_line_any_terminator : forall s c, no_eol s -> c = x0a \/ c = x0d \/ c = x00 ->
  reads (read_line false) (s ++ [c]) s.
Proof. exact line_any_terminator. Qed.
Print Assumptions C05_line_any_terminator.

(** with skipping, the cursor is behind the line and the following whitespace, unless the
    data ends with a NUL right there. *)
Theorem C05_line_skip_partial : forall s run rest pre, no_eol s ->
  Forall (fun c => In c ws_chars) run ->
  (match rest with [] => True | c :: r => ~ In c ws_chars /\ (c = x00 -> r <> []) end) ->
  len (pre ++ s ++ x0a :: run ++ rest) < max_size ->
  read_line true (mkR (pre ++ s ++ x0a :: run ++ rest) (len pre)) =
  Ret (s, mkR (pre ++ s ++ x0a :: run ++ rest) (len pre + len s + 1 + len run)).
Proof. exact line_skip. Qed.
Print Assumptions C05_line_skip_partial.

Theorem C05_line_skip_refuted : exists s run rest, no_eol s /\
  Forall (fun c => In c ws_chars) run /\ (match rest with [] => True | c :: _ => ~ In c ws_chars end) /\
  read_line true (r_from (s ++ x0a :: run ++ rest)) <>
  Ret (s, mkR (s ++ x0a :: run ++ rest) (len s + 1 + len run)).
Proof. exact line_skip_swallows_nul. Qed.
Print Assumptions C05_line_skip_refuted.

Example C05_example : no_eol (lit "a b") /\ Forall (fun c => In c ws_chars) [x20; x0a; x09] /\
  read_line true (r_from (lit "a b" ++ x0a :: [x20; x0a; x09] ++ lit "rest")) =
  Ret (lit "a b", mkR (lit "a b" ++ x0a :: [x20; x0a; x09] ++ lit "rest") 7).
Proof. split; [|split]; [repeat constructor; cbn; discriminate | repeat constructor; cbn; tauto | vm_compute; reflexivity]. Qed.

(** ** C06 *)
Theorem C06_chunks_written : forall cs, Forall chunk_ok cs ->
  writes (iterM (fun c => write_chunk (fst c) (write_string (snd c))) cs) (flat_map chunk_bytes cs).
Proof. exact write_chunks_writes. Qed.
Print Assumptions C06_chunks_written.

Theorem C06_chunks_presented : forall A (cb : N -> A -> rd (bool * A)), cb_keeps cb ->
  forall cs fuel pre a, cs <> [] -> Forall chunk_ok cs -> (length cs <= fuel)%nat ->
  len (pre ++ flat_map chunk_bytes cs) < max_size ->
  read_chunked fuel cb a (mkR (pre ++ flat_map chunk_bytes cs) (len pre)) =
  present cb (pre ++ flat_map chunk_bytes cs) (len pre) cs a.
Proof. exact @read_chunked_present. Qed.
Print Assumptions C06_chunks_presented.

(** [collect] notes the type and the first byte of every chunk and leaves the rest. *)
Example C06_example :
  cb_keeps collect /\
  read_chunked 3 collect [] (r_from (flat_map chunk_bytes [(7, [x01; x02]); (8, [x03]); (9, [x04; x05; x06])])) =
  Ret ([(7, 1); (8, 3); (9, 4)], mkR (flat_map chunk_bytes [(7, [x01; x02]); (8, [x03]); (9, [x04; x05; x06])]) 24).
Proof. split; [exact collect_keeps | vm_compute; reflexivity]. Qed.

(** ** C07 *)
Theorem C07_chunk_reader_terminates : forall A (cb : N -> A -> rd (bool * A)), cb_forward cb ->
  forall fuel a s, r_ok s -> (N.to_nat (len (rdata s) - rpos s) < fuel)%nat ->
  match read_chunked fuel cb a s with
  | Ret (_, s') => rdata s' = rdata s /\ r_ok s' /\ rpos s <= rpos s'
  | Throw _ => True
  | Undef => False
  | Fuel => False
  end.
Proof. exact @read_chunked_terminates. Qed.
Print Assumptions C07_chunk_reader_terminates.

Example C07_example : cb_forward collect /\ r_ok (r_from [x01; x02; xff; xff]).
Proof. split; [exact collect_forward | split; vm_compute; congruence]. Qed.

(** ** C08 *)
Theorem C08_zipped_reads_like_plain_partial : forall c data post os,
  codec_ok c -> 0 < len data -> len data + 8191 < 2 ^ 32 -> seeks_inside data 0 os ->
  exists bs, writes (write_zipped c data) bs /\
    (len (bs ++ post) < max_size ->
     exists z z', from_zipped (r_from (bs ++ post)) = Ret (Some z) /\
       mapM (z_step c) os z = Ret (fst (cursor_run data 0 os), z')).
Proof. exact zipped_refines. Qed.
Print Assumptions C08_zipped_reads_like_plain_partial.

(** The identity "compressor" is a codec, so the hypotheses are satisfiable. *)
Example C08_example : codec_ok id_codec /\
  seeks_inside [x01; x02; x03] 0 [ORead 2; OSeek (-1) CUR; ORead 100; OTell; OEof].
Proof. split; [exact id_codec_ok | vm_compute; repeat split; congruence]. Qed.

(** The two readers differ on a seek outside the data. *)
Theorem C08_zipped_seek_refuted : exists c data os bs z,
  codec_ok c /\ Forall arg_ok os /\ writes (write_zipped c data) bs /\
  from_zipped (r_from bs) = Ret (Some z) /\
  forall z', mapM (z_step c) os z <> Ret (fst (cursor_run data 0 os), z').
Proof. exact zipped_seek_differs. Qed.
Print Assumptions C08_zipped_seek_refuted.

(** Empty contents cannot be opened again. *)
Theorem C08_zipped_empty_refuted : exists c bs,
  codec_ok c /\ writes (write_zipped c []) bs /\ from_zipped (r_from bs) = Ret None.
Proof. exact zipped_empty_fails. Qed.
Print Assumptions C08_zipped_empty_refuted.

(** ** C09 *)
Theorem C09_transpose_involutive : forall m,
  (length m = 9%nat -> transpose3 (transpose3 m) = m) /\ (length m = 16%nat -> transpose4 (transpose4 m) = m).
Proof. exact transposes_twice. Qed.
Print Assumptions C09_transpose_involutive.

(** The element in row [r] and column [c] is stored at word [n*r+c] of the stream and is at
    index [n*c+r] of the memory representation. *)
Theorem C09_matrix_storage : forall m, Forall f32 m ->
  (length m = 9%nat -> exists bs, writes (write_mat3 m) bs /\ reads read_mat3 bs m /\
     forall r c, (r < 3)%nat -> (c < 3)%nat ->
       le_dec (take 4 (drop (4 * (3 * N.of_nat r + N.of_nat c)) bs)) = nth (3 * c + r) m 0) /\
  (length m = 16%nat -> exists bs, writes (write_mat4 m) bs /\ reads read_mat4 bs m /\
     forall r c, (r < 4)%nat -> (c < 4)%nat ->
       le_dec (take 4 (drop (4 * (4 * N.of_nat r + N.of_nat c)) bs)) = nth (4 * c + r) m 0).
Proof. exact matrix_storage. Qed.
Print Assumptions C09_matrix_storage.

Example C09_example : Forall f32 [1; 2; 3; 4; 5; 6; 7; 8; 2 ^ 31] /\
  transpose3 [1; 2; 3; 4; 5; 6; 7; 8; 9] = [1; 4; 7; 2; 5; 8; 3; 6; 9].
Proof. split; [repeat constructor | reflexivity]. Qed.

(** ** C10 *)
Theorem C10_date_round_trip : round_trips date_save date_load date_ok.
Proof. exact date_round_trip. Qed.
Print Assumptions C10_date_round_trip.
Theorem C10_aabb_round_trip : round_trips aabb_save aabb_load aabb_ok.
Proof. exact aabb_round_trip. Qed.
Print Assumptions C10_aabb_round_trip.
Theorem C10_obb_round_trip : round_trips obb_save obb_load obb_ok.
Proof. exact obb_round_trip. Qed.
Print Assumptions C10_obb_round_trip.

Example C10_example : date_ok (mkDate 2024 2 29 23 59 59) /\
  let v := mkV3 1065353216 0 3212836864 in
  obb_ok (Obb v v v v v [Obb v v v v v []; Obb v v v v v [Obb v v v v v []]]).
Proof. split; [repeat split | repeat constructor]. Qed.

(** ** C11 *)
Theorem C11_as_bbox_contains_corners : forall o s0 s1 s2, is_sign s0 -> is_sign s1 -> is_sign s2 ->
  box_contains (as_bbox o) (corner o s0 s1 s2).
Proof. exact as_bbox_contains. Qed.
Print Assumptions C11_as_bbox_contains_corners.

(** ** C71 *)
Theorem C71_as_bbox_tight_partial : forall o, has_positive_corners o ->
  (forall s0 s1 s2, is_sign s0 -> is_sign s1 -> is_sign s2 -> box_contains float_box (corner o s0 s1 s2)) ->
  box_tight o (as_bbox o).
Proof. exact as_bbox_tight. Qed.
Print Assumptions C71_as_bbox_tight_partial.

Theorem C71_as_bbox_tight_refuted : exists o,
  (forall s0 s1 s2, is_sign s0 -> is_sign s1 -> is_sign s2 -> box_contains float_box (corner o s0 s1 s2)) /\
  ~ box_tight o (as_bbox o).
Proof. exact as_bbox_not_tight. Qed.
Print Assumptions C71_as_bbox_tight_refuted.

Example C71_example : has_positive_corners unit_obb.
Proof. exact unit_obb_positive. Qed.
