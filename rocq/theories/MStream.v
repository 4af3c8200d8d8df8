(** Model of src/Stream.cc and include/zenkit/Stream.hh: the in-memory reader,
    the growable and the fixed-size writer, typed accessors, lines and chunks. *)

From Verif Require Import MBase.
Local Open Scope N_scope.
Local Open Scope m_scope.

(** Largest object size: [PTRDIFF_MAX].  No buffer is longer. *)
Definition max_size : N := 2 ^ 63.

(** Stream.hh:21 *)
Inductive whence := BEG | CUR | END.

(** Stream.cc:195-211 [seek_internal].  The addition is on [ssize_t]: overflow is
    undefined behaviour; the result is converted to [size_t] modulo 2^64. *)
Definition ssize_add (a b : Z) : outcome Z :=
  if ((- 2 ^ 63 <=? a + b) && (a + b <? 2 ^ 63))%Z then Ret (a + b)%Z else Undef.
Definition seek_internal (pos end_ : N) (off : Z) (w : whence) : outcome N :=
  match w with
  | BEG => Ret (uint 64 off)
  | CUR => obind (ssize_add (sint 64 pos) off) (fun z => Ret (uint 64 z))
  | END => obind (ssize_add (sint 64 end_) off) (fun z => Ret (uint 64 z))
  end.

(* ------------------------------------------------------------------ *)
(** * Reading *)

(** Stream.cc:289-291 the fields of [ReadMemory]; the buffer's length is [len rdata]. *)
Record rstate := mkR { rdata : bytes; rpos : N }.

Definition r_from (b : bytes) : rstate := mkR b 0.

Definition rd := M rstate.

(** Stream.cc:266-271 [ReadMemory::read].  [n] is a [size_t].  The comparison wraps;
    copying from outside the buffer is [Undef]. *)
Definition rd_read (n : N) : rd bytes := fun s =>
  let n' := if len (rdata s) <? u64 (rpos s + n) then u64 (2 ^ 64 + len (rdata s) - rpos s) else n in
  if len (rdata s) <? rpos s + n' then Undef
  else Ret (take n' (drop (rpos s) (rdata s)), mkR (rdata s) (rpos s + n')).

(** Stream.cc:273-279 [ReadMemory::seek]. *)
Definition rd_seek (off : Z) (w : whence) : rd unit := fun s =>
  obind (seek_internal (rpos s) (len (rdata s)) off w) (fun p =>
  if len (rdata s) <? p then Ret (tt, s) else Ret (tt, mkR (rdata s) p)).

(** Stream.cc:281-283 *)
Definition rd_tell : rd N := fun s => Ret (rpos s, s).
(** Stream.cc:285-287 *)
Definition rd_eof : rd bool := fun s => Ret (len (rdata s) <=? rpos s, s).

(** Stream.cc:17-22 [read_any]: the object is zero-initialised, then filled by what
    could be read. *)
Definition pad_to (n : N) (b : bytes) : bytes := b ++ zeros (n - len b).
Definition rd_fixed (n : N) : rd bytes :=
  let* b := rd_read n in ret (pad_to n b).

(** Stream.cc:29-59 *)
Definition read_char : rd byte := let* b := rd_fixed 1 in ret (hd x00 b).
Definition read_ubyte : rd N := let* b := rd_fixed 1 in ret (le_dec b).
Definition read_ushort : rd N := let* b := rd_fixed 2 in ret (le_dec b).
Definition read_uint : rd N := let* b := rd_fixed 4 in ret (le_dec b).
Definition read_byte : rd Z := let* n := read_ubyte in ret (sint 8 n).
Definition read_short : rd Z := let* n := read_ushort in ret (sint 16 n).
Definition read_int : rd Z := let* n := read_uint in ret (sint 32 n).
(** Floats are their IEEE-754 bit patterns. *)
Definition read_float : rd N := read_uint.

(** [k] consecutive 32-bit patterns of a zero-initialised array of floats filled by
    one [read] call. *)
Fixpoint le_words (k : nat) (b : bytes) : list N :=
  match k with
  | O => []
  | S k' => le_dec (take 4 b) :: le_words k' (drop 4 b)
  end.

(** Misc.hh vectors and matrices; a matrix is the list of its columns' elements in
    memory order ([pointer()]). *)
Record vec2 := mkV2 { v2x : N; v2y : N }.
Record vec3 := mkV3 { v3x : N; v3y : N; v3z : N }.
Definition mat := list N.

(** Stream.cc:61-71 *)
Definition read_vec2 : rd vec2 :=
  let* b := rd_fixed 8 in
  ret (mkV2 (le_dec (take 4 b)) (le_dec (take 4 (drop 4 b)))).
Definition read_vec3 : rd vec3 :=
  let* b := rd_fixed 12 in
  ret (mkV3 (le_dec (take 4 b)) (le_dec (take 4 (drop 4 b))) (le_dec (take 4 (drop 8 b)))).

(** Misc.cc [Mat3::transpose] / [Mat4::transpose]: see [MMisc]; here as an index map on
    the memory order: element (column c, row r) is at index n*c+r. *)
Definition mat_at (m : mat) (i : nat) : N := nth i m 0.
Definition transpose3 (m : mat) : mat :=
  map (mat_at m) [0; 3; 6;  1; 4; 7;  2; 5; 8]%nat.
Definition transpose4 (m : mat) : mat :=
  map (mat_at m) [0; 4; 8; 12;  1; 5; 9; 13;  2; 6; 10; 14;  3; 7; 11; 15]%nat.

(** Stream.cc:73-83 *)
Definition read_mat3 : rd mat := let* b := rd_fixed 36 in ret (transpose3 (le_words 9 b)).
Definition read_mat4 : rd mat := let* b := rd_fixed 64 in ret (transpose4 (le_words 16 b)).

(** Stream.cc:85-89: the string has the requested length whatever could be read.  A
    length no string can have makes the [noexcept] function terminate. *)
Definition read_string (n : N) : rd bytes :=
  if n <? max_size then rd_fixed n else undef.

(** Stream.cc:98-101: read up to a terminator; returns the text and the terminator.
    Structural on [fuel]; [read_line_then_ignore] passes enough. *)
Fixpoint read_until_eol (fuel : nat) : rd (bytes * byte) :=
  match fuel with
  | O => fuelout
  | S f =>
      let* c := read_char in
      if beq c x00 || beq c x0d || beq c x0a then ret ([], c)
      else let* r := read_until_eol f in ret (c :: fst r, snd r)
  end.

(** Stream.cc:106-108: skip a run of the given characters; returns the last one read. *)
Fixpoint skip_run (fuel : nat) (chars : bytes) : rd byte :=
  match fuel with
  | O => fuelout
  | S f =>
      let* c := read_char in
      if negb (beq c x00) && existsb (beq c) chars then skip_run f chars else ret c
  end.

(** Stream.cc:95-116.  Every iteration of both loops that does not read a NUL consumes
    a byte, so "remaining bytes + 1" iterations suffice. *)
Definition read_line_then_ignore (chars : bytes) : rd bytes := fun s =>
  (let fuel := S (N.to_nat (len (rdata s) - rpos s)) in
   let* r := read_until_eol fuel in
   let* e := rd_eof in
   if (match chars with [] => true | _ => false end) || beq (snd r) x00 || e then ret (fst r)
   else
     let* c := skip_run fuel chars in
     let* e := rd_eof in
     if e && beq c x00 then ret (fst r)
     else rd_seek (-1) CUR ;; ret (fst r)) s.

(** " \t\r\n\v\f" *)
Definition ws_chars : bytes := [x20; x09; x0d; x0a; x0b; x0c].
(** Stream.cc:91-93 *)
Definition read_line (skipws : bool) : rd bytes :=
  read_line_then_ignore (if skipws then ws_chars else []).

(* ------------------------------------------------------------------ *)
(** * Writing into a growable vector *)

(** Stream.cc:425-427 *)
Record wstate := mkW { wbuf : bytes; wpos : N }.
Definition w_empty : wstate := mkW [] 0.
Definition wr := M wstate.

(** Replace the bytes [p, p+len b) of [l], which must exist. *)
Definition overwrite (l : bytes) (p : N) (b : bytes) : bytes :=
  take p l ++ b ++ drop (p + len b) l.

(** Stream.cc:400-415 [WriteDynamic::write].  Positions that would make the vector
    exceed its maximal size end in [length_error] inside a [noexcept] function, or in an
    out-of-bounds copy when [_m_position + len] wraps: both are [Undef]. *)
Definition wr_write (b : bytes) : wr unit := fun s =>
  let e := wpos s + len b in
  if e <? max_size then
    let buf := if len (wbuf s) <? e then wbuf s ++ zeros (e - len (wbuf s)) else wbuf s in
    Ret (tt, mkW (overwrite buf (wpos s) b) e)
  else Undef.

(** Stream.cc:417-419 [WriteDynamic::seek]: unchecked. *)
Definition wr_seek (off : Z) (w : whence) : wr unit := fun s =>
  obind (seek_internal (wpos s) (len (wbuf s)) off w) (fun p => Ret (tt, mkW (wbuf s) p)).

(** Stream.cc:421-423 *)
Definition wr_tell : wr N := fun s => Ret (wpos s, s).

(** Stream.cc:118-148 *)
Definition write_char (c : byte) : wr unit := wr_write [c].
Definition write_ubyte (v : N) : wr unit := wr_write (le_enc 1 v).
Definition write_ushort (v : N) : wr unit := wr_write (le_enc 2 v).
Definition write_uint (v : N) : wr unit := wr_write (le_enc 4 v).
Definition write_byte (v : Z) : wr unit := write_ubyte (uint 8 v).
Definition write_short (v : Z) : wr unit := write_ushort (uint 16 v).
Definition write_int (v : Z) : wr unit := write_uint (uint 32 v).
Definition write_float (v : N) : wr unit := write_uint v.
(** Stream.cc:150-162 *)
Definition write_string (v : bytes) : wr unit := wr_write v.
Definition write_string0 (v : bytes) : wr unit := wr_write v ;; write_char x00.
Definition write_line (v : bytes) : wr unit := write_string v ;; write_char x0a.
(** Stream.cc:164-180 *)
Definition write_vec2 (v : vec2) : wr unit := wr_write (le_enc 4 (v2x v) ++ le_enc 4 (v2y v)).
Definition write_vec3 (v : vec3) : wr unit :=
  wr_write (le_enc 4 (v3x v) ++ le_enc 4 (v3y v) ++ le_enc 4 (v3z v)).
Definition words_le (l : list N) : bytes := flat_map (le_enc 4) l.
Definition write_mat3 (m : mat) : wr unit := wr_write (words_le (transpose3 m)).
Definition write_mat4 (m : mat) : wr unit := wr_write (words_le (transpose4 m)).

(* ------------------------------------------------------------------ *)
(** * Writing into a fixed region *)

(** Stream.cc:391-393 *)
Record sstate := mkS { sbuf : bytes; spos : N }.

(** Stream.cc:373-378 [WriteStatic::write]; returns the number of bytes written. *)
Definition st_write (b : bytes) : M sstate N := fun s =>
  let n' := if len (sbuf s) <? u64 (spos s + len b) then u64 (2 ^ 64 + len (sbuf s) - spos s)
            else len b in
  if len (sbuf s) <? spos s + n' then Undef
  else Ret (n', mkS (overwrite (sbuf s) (spos s) (take n' b)) (spos s + n')).

(** Stream.cc:380-385 *)
Definition st_seek (off : Z) (w : whence) : M sstate unit := fun s =>
  obind (seek_internal (spos s) (len (sbuf s)) off w) (fun p =>
  if len (sbuf s) <? p then Ret (tt, s) else Ret (tt, mkS (sbuf s) p)).

(** Stream.cc:387-389 *)
Definition st_tell : M sstate N := fun s => Ret (spos s, s).

(* ------------------------------------------------------------------ *)
(** * Chunked files *)

(** Stream.hh:146-178 [read_chunked].  The callback gets the chunk type and may update
    an accumulator [A]; it returns whether to stop.  The log output is not modelled. *)
Fixpoint read_chunked {A} (fuel : nat) (cb : N -> A -> rd (bool * A)) (a : A) : rd A :=
  match fuel with
  | O => fuelout
  | S f =>
      let* ty := read_ushort in
      let* size := read_uint in
      let* here := rd_tell in
      let target := u64 (here + size) in
      let* r := cb ty a in
      rd_seek (sint 64 target) BEG ;;
      if fst r then ret (snd r)
      else
        let* e := rd_eof in
        if e then ret (snd r) else read_chunked f cb (snd r)
  end.

(** Stream.hh:180-212, the overload whose callback also may move the end of the chunk. *)
Fixpoint read_chunked_t {A} (fuel : nat) (cb : N -> N -> A -> rd (bool * N * A)) (a : A) : rd A :=
  match fuel with
  | O => fuelout
  | S f =>
      let* ty := read_ushort in
      let* size := read_uint in
      let* here := rd_tell in
      let* r := cb ty (u64 (here + size)) a in
      let '(done, target, a') := r in
      rd_seek (sint 64 target) BEG ;;
      if done then ret a'
      else
        let* e := rd_eof in
        if e then ret a' else read_chunked_t f cb a'
  end.

(** Stream.hh:214-228 [write_chunk]. *)
Definition write_chunk (ty : N) (cb : wr unit) : wr unit :=
  write_ushort ty ;;
  let* size_off := wr_tell in
  write_uint 0 ;;
  cb ;;
  let* here := wr_tell in
  let n := (Z.of_N here - Z.of_N size_off - 4)%Z in
  wr_seek (Z.of_N size_off) BEG ;;
  write_uint (uint 32 n) ;;
  wr_seek n CUR.
