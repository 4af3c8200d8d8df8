(** Specification vocabulary for streams: what it means that a writer produces a byte
    string and that a reader consumes it; sparse files; cursors. *)

From Verif Require Import MBase MStream.
Local Open Scope N_scope.

(** Appending with writer [w] appends exactly the bytes [bs] and moves the write position
    to the new end. *)
Definition writes (w : wr unit) (bs : bytes) : Prop :=
  forall st, wpos st = len (wbuf st) -> len (wbuf st) + len bs < max_size ->
    w st = Ret (tt, mkW (wbuf st ++ bs) (len (wbuf st) + len bs)).

(** Wherever the bytes [bs] occur, followed by something satisfying [P], reader [r] started
    at their beginning returns [a] and stops right behind them. *)
Definition reads_if {A} (P : bytes -> Prop) (r : rd A) (bs : bytes) (a : A) : Prop :=
  forall pre post, P post -> len (pre ++ bs ++ post) < max_size ->
    r (mkR (pre ++ bs ++ post) (len pre)) =
    Ret (a, mkR (pre ++ bs ++ post) (len pre + len bs)).

Definition reads {A} (r : rd A) (bs : bytes) (a : A) : Prop := reads_if (fun _ => True) r bs a.

(** [save] followed by [load] is the identity on the values satisfying [ok]. *)
Definition round_trips {A} (save : A -> wr unit) (load : rd A) (ok : A -> Prop) : Prop :=
  forall x, ok x -> exists bs, writes (save x) bs /\ reads load bs x.

(** A reader state that can exist: cursor inside the buffer, buffer not larger than memory. *)
Definition r_ok (s : rstate) : Prop := rpos s <= len (rdata s) /\ len (rdata s) < max_size.

(** A reader that, on every input, only moves the cursor inside the same buffer: it
    returns or throws an exception, and never reads outside or runs forever. *)
Definition safe_rd {A} (r : rd A) : Prop :=
  forall s, r_ok s ->
    match r s with
    | Ret (_, s') => rdata s' = rdata s /\ r_ok s'
    | Throw _ => True
    | Undef => False
    | Fuel => False
    end.

(** ** Histories on a memory reader *)
Inductive r_op := ORead (n : N) | OSeek (off : Z) (w : whence) | OTell | OEof.
Inductive r_res := RBytes (b : bytes) | RUnit | RPos (n : N) | RBool (b : bool).

Definition r_step (o : r_op) : rd r_res :=
  match o with
  | ORead n => bind (rd_read n) (fun b => ret (RBytes b))
  | OSeek off w => bind (rd_seek off w) (fun _ => ret RUnit)
  | OTell => bind rd_tell (fun p => ret (RPos p))
  | OEof => bind rd_eof (fun b => ret (RBool b))
  end.

(** The specification: a cursor in [0, length]. *)
Definition seek_target (pos size : N) (off : Z) (w : whence) : Z :=
  match w with
  | BEG => off
  | CUR => Z.of_N pos + off
  | END => Z.of_N size + off
  end%Z.
Definition in_range (z : Z) (size : N) : bool := ((0 <=? z) && (z <=? Z.of_N size))%Z.

Definition cursor_step (data : bytes) (pos : N) (o : r_op) : r_res * N :=
  match o with
  | ORead n => let k := N.min n (len data - pos) in (RBytes (take k (drop pos data)), pos + k)
  | OSeek off w =>
      let z := seek_target pos (len data) off w in
      (RUnit, if in_range z (len data) then Z.to_N z else pos)
  | OTell => (RPos pos, pos)
  | OEof => (RBool (pos =? len data), pos)
  end.
Fixpoint cursor_run (data : bytes) (pos : N) (os : list r_op) : list r_res * N :=
  match os with
  | [] => ([], pos)
  | o :: os' =>
      let (r, pos') := cursor_step data pos o in
      let (rs, pos'') := cursor_run data pos' os' in (r :: rs, pos'')
  end.

(** Arguments the parameter types can hold; [ssize_t] off. *)
Definition arg_ok (o : r_op) : Prop :=
  match o with
  | ORead n => n < 2 ^ 64
  | OSeek off _ => (- 2 ^ 63 <= off < 2 ^ 63)%Z
  | _ => True
  end.
(** Arguments on which the position arithmetic cannot overflow (for buffers up to 2^62 bytes). *)
Definition arg_tame (o : r_op) : Prop :=
  match o with
  | ORead n => n <= 2 ^ 63
  | OSeek off BEG => (- 2 ^ 63 <= off < 2 ^ 63)%Z
  | OSeek off _ => (- 2 ^ 62 <= off < 2 ^ 62)%Z
  | _ => True
  end.

(** ** Histories on a growable writer *)
Inductive w_op := OWrite (b : bytes) | OWSeek (off : Z) (w : whence).

Definition w_step (o : w_op) : wr unit :=
  match o with
  | OWrite b => wr_write b
  | OWSeek off w => wr_seek off w
  end.

(** A sparse file: the byte at each position, the size, the position of the next write. *)
Record sfile := mkF { f_at : N -> byte; f_size : N; f_pos : N }.
Definition f_empty : sfile := mkF (fun _ => x00) 0 0.
Definition f_step (f : sfile) (o : w_op) : sfile :=
  match o with
  | OWrite b =>
      mkF (fun p => if (f_pos f <=? p) && (p <? f_pos f + len b)
                    then nth (N.to_nat (p - f_pos f)) b x00 else f_at f p)
          (N.max (f_size f) (f_pos f + len b)) (f_pos f + len b)
  | OWSeek off w => mkF (f_at f) (f_size f) (Z.to_N (seek_target (f_pos f) (f_size f) off w))
  end.
(** The history stays within the addressable sizes: seek targets are not negative, and no
    write ends beyond the maximal size. *)
Definition w_fits (f : sfile) (o : w_op) : Prop :=
  match o with
  | OWrite b => f_pos f + len b < max_size
  | OWSeek off w => (- 2 ^ 63 <= off < 2 ^ 63)%Z /\
                    (0 <= seek_target (f_pos f) (f_size f) off w < 2 ^ 63)%Z
  end.
Fixpoint hist_fits (f : sfile) (os : list w_op) : Prop :=
  match os with
  | [] => True
  | o :: os' => w_fits f o /\ hist_fits (f_step f o) os'
  end.

(** ** Histories on a fixed region *)
Definition s_step (o : w_op) : M sstate N :=
  match o with
  | OWrite b => st_write b
  | OWSeek off w => bind (st_seek off w) (fun _ => ret 0)
  end.
(** The region as a function of position; writes report the number of bytes that fit. *)
Definition region_step (size : N) (st : (N -> byte) * N) (o : w_op) : N * ((N -> byte) * N) :=
  let (f, pos) := st in
  match o with
  | OWrite b =>
      let k := N.min (len b) (size - pos) in
      (k, (fun p => if (pos <=? p) && (p <? pos + k) then nth (N.to_nat (p - pos)) b x00 else f p,
           pos + k))
  | OWSeek off w =>
      let z := seek_target pos size off w in
      (0, (f, if in_range z size then Z.to_N z else pos))
  end.
Fixpoint region_run (size : N) (st : (N -> byte) * N) (os : list w_op) : list N * ((N -> byte) * N) :=
  match os with
  | [] => ([], st)
  | o :: os' =>
      let (r, st') := region_step size st o in
      let (rs, st'') := region_run size st' os' in (r :: rs, st'')
  end.
Definition w_tame (o : w_op) : Prop :=
  match o with
  | OWrite b => len b <= 2 ^ 63
  | OWSeek off BEG => (- 2 ^ 63 <= off < 2 ^ 63)%Z
  | OWSeek off _ => (- 2 ^ 62 <= off < 2 ^ 62)%Z
  end.

(** ** Typed values *)
Inductive tval :=
| VChar (c : byte) | VByte (z : Z) | VUByte (n : N) | VShort (z : Z) | VUShort (n : N)
| VInt (z : Z) | VUInt (n : N) | VFloat (n : N)
| VVec2 (v : vec2) | VVec3 (v : vec3) | VMat3 (m : mat) | VMat4 (m : mat)
| VStr (s : bytes) | VStr0 (s : bytes) | VLine (s : bytes).

(** The values each C++ type has.  Strings stored with a terminator must not contain a
    terminator; the library's line reader stops at NUL, CR and LF. *)
Definition f32 (n : N) : Prop := n < 2 ^ 32.
Definition no_eol (s : bytes) : Prop := Forall (fun c => c <> x00 /\ c <> x0d /\ c <> x0a) s.
Definition tval_ok (v : tval) : Prop :=
  match v with
  | VChar _ => True
  | VByte z => (- 2 ^ 7 <= z < 2 ^ 7)%Z
  | VUByte n => n < 2 ^ 8
  | VShort z => (- 2 ^ 15 <= z < 2 ^ 15)%Z
  | VUShort n => n < 2 ^ 16
  | VInt z => (- 2 ^ 31 <= z < 2 ^ 31)%Z
  | VUInt n => n < 2 ^ 32
  | VFloat n => f32 n
  | VVec2 v => f32 (v2x v) /\ f32 (v2y v)
  | VVec3 v => f32 (v3x v) /\ f32 (v3y v) /\ f32 (v3z v)
  | VMat3 m => length m = 9%nat /\ Forall f32 m
  | VMat4 m => length m = 16%nat /\ Forall f32 m
  | VStr s => True
  | VStr0 s => no_eol s
  | VLine s => no_eol s
  end.
Definition twrite (v : tval) : wr unit :=
  match v with
  | VChar c => write_char c | VByte z => write_byte z | VUByte n => write_ubyte n
  | VShort z => write_short z | VUShort n => write_ushort n
  | VInt z => write_int z | VUInt n => write_uint n | VFloat n => write_float n
  | VVec2 v => write_vec2 v | VVec3 v => write_vec3 v
  | VMat3 m => write_mat3 m | VMat4 m => write_mat4 m
  | VStr s => write_string s | VStr0 s => write_string0 s | VLine s => write_line s
  end.
(** Reading a value of the same type as [v] (only the constructor, and the length for a
    raw string, is used). *)
Definition tread (v : tval) : rd tval :=
  match v with
  | VChar _ => bind read_char (fun x => ret (VChar x))
  | VByte _ => bind read_byte (fun x => ret (VByte x))
  | VUByte _ => bind read_ubyte (fun x => ret (VUByte x))
  | VShort _ => bind read_short (fun x => ret (VShort x))
  | VUShort _ => bind read_ushort (fun x => ret (VUShort x))
  | VInt _ => bind read_int (fun x => ret (VInt x))
  | VUInt _ => bind read_uint (fun x => ret (VUInt x))
  | VFloat _ => bind read_float (fun x => ret (VFloat x))
  | VVec2 _ => bind read_vec2 (fun x => ret (VVec2 x))
  | VVec3 _ => bind read_vec3 (fun x => ret (VVec3 x))
  | VMat3 _ => bind read_mat3 (fun x => ret (VMat3 x))
  | VMat4 _ => bind read_mat4 (fun x => ret (VMat4 x))
  | VStr s => bind (read_string (len s)) (fun x => ret (VStr x))
  | VStr0 _ => bind (read_line false) (fun x => ret (VStr0 x))
  | VLine _ => bind (read_line false) (fun x => ret (VLine x))
  end.

(** ** Chunks *)
Definition chunk : Type := N * bytes.
Definition chunk_ok (c : chunk) : Prop := fst c < 2 ^ 16 /\ len (snd c) < 2 ^ 32.
Definition chunk_bytes (c : chunk) : bytes :=
  le_enc 2 (fst c) ++ le_enc 4 (len (snd c)) ++ snd c.

(** Presenting chunks [cs], the first of which starts at [pos], to a callback: once each,
    in order, with the cursor at the start of the payload. *)
Fixpoint present {A} (cb : N -> A -> rd (bool * A)) (data : bytes) (pos : N) (cs : list chunk) (a : A)
  : outcome (A * rstate) :=
  match cs with
  | [] => Ret (a, mkR data pos)
  | c :: cs' =>
      let next := pos + 6 + len (snd c) in
      match cb (fst c) a (mkR data (pos + 6)) with
      | Ret (done, a', _) => if done then Ret (a', mkR data next) else present cb data next cs' a'
      | Throw e => Throw e
      | Undef => Undef
      | Fuel => Fuel
      end
  end.
(** A callback can move the cursor of the reader but not change the buffer. *)
Definition cb_keeps {A} (cb : N -> A -> rd (bool * A)) : Prop :=
  forall ty a s r s', r_ok s -> cb ty a s = Ret (r, s') -> rdata s' = rdata s /\ r_ok s'.

(** A callback used in examples: collects the type and the first byte of every chunk. *)
Definition collect (ty : N) (acc : list (N * N)) : rd (bool * list (N * N)) :=
  bind read_ubyte (fun b => ret (false, acc ++ [(ty, b)])).
(** A callback that returns or throws, and moves only forward. *)
Definition cb_forward {A} (cb : N -> A -> rd (bool * A)) : Prop :=
  forall ty a s, r_ok s ->
    match cb ty a s with
    | Ret (_, s') => rdata s' = rdata s /\ r_ok s' /\ rpos s <= rpos s'
    | Throw _ => True
    | Undef => False
    | Fuel => False
    end.
