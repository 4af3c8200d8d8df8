(** Model of the writers of src/Stream.cc that do not write to memory: [WriteFile] (a C [FILE])
    and [WriteStream] (a [std::ostream], also one opened from a path); and code that uses a
    writer, as a program over the three virtual functions of [Write]. *)

From Verif Require Import MBase MStream SStream MBoxes MModel.
Local Open Scope N_scope.

(** The three calls; the answer of [seek] is not used. *)
Inductive w_call := CWrite (b : bytes) | CSeek (off : Z) (w : whence) | CTell.

(** Stream.cc:396-428 [WriteDynamic]: [write] reports the number of bytes it was given. *)
Definition vec_step (o : w_call) (s : wstate) : outcome (N * wstate) :=
  match o with
  | CWrite b => obind (wr_write b s) (fun x => Ret (len b, snd x))
  | CSeek off w => obind (wr_seek off w s) (fun x => Ret (0, snd x))
  | CTell => Ret (wpos s, s)
  end.

(** Bytes of a file behind its end are zero once something is written behind them. *)
Definition put (d : bytes) (pos : N) (b : bytes) : bytes :=
  let e := pos + len b in
  overwrite (if (len d <? e) && (0 <? len b) then d ++ zeros (e - len d) else d) pos b.

(** Stream.cc:321-341 [WriteFile] on a device that takes everything.  Writing nothing changes
    nothing; [fseek] fails, changing nothing, for a negative position. *)
Definition fw_step (o : w_call) (s : wstate) : outcome (N * wstate) :=
  match o with
  | CWrite b => Ret (len b, mkW (put (wbuf s) (wpos s) b) (wpos s + len b))
  | CSeek off w =>
      let z := seek_target (wpos s) (len (wbuf s)) off w in
      if ((0 <=? z) && (z <? 2 ^ 63))%Z then Ret (0, mkW (wbuf s) (Z.to_N z)) else Ret (0, s)
  | CTell => Ret (wpos s, s)
  end.

(** Stream.cc:343-371 [WriteStream]: whether the stream is a [std::ostringstream], the size its
    device can hold, the contents, the position, and whether [failbit] or [badbit] is set. *)
Record osink := mkOS { os_string : bool; os_room : N; os_data : bytes; os_pos : N; os_fail : bool }.

(** Stream.cc:345-350, 457-459: a stream from a path that cannot be opened has [failbit] set;
    nothing is thrown. *)
Definition os_open (string : bool) (room : N) (opened : bool) : osink := mkOS string room [] 0 (negb opened).

(** Stream.cc:361-371.  C++20 [ostream.unformatted]: on a stream that is not good nothing is
    written; what the device does not take sets [badbit] (what it takes of the last write is left
    out).  [seekp] does nothing on a failed stream and sets [failbit] when the position is refused;
    [tellp] is -1 on a failed stream.  [write] always reports the number of bytes it was given. *)
Definition os_step (o : w_call) (s : osink) : outcome (N * osink) :=
  let '(mkOS k room d p f) := s in
  match o with
  | CWrite b =>
      if f then Ret (len b, s)
      else if room <? p + len b then Ret (len b, mkOS k room d p true)
      else Ret (len b, mkOS k room (put d p b) (p + len b) false)
  | CSeek off w =>
      if f then Ret (0, s)
      else
        let z := seek_target p (len d) off w in
        if if k then in_range z (len d) else ((0 <=? z) && (z <? 2 ^ 63))%Z
        then Ret (0, mkOS k room d (Z.to_N z) false)
        else Ret (0, mkOS k room d p true)
  | CTell => Ret (if f then 2 ^ 64 - 1 else p, s)
  end.

(* ------------------------------------------------------------------ *)
(** * Programs that use a writer *)
Inductive wprog (A : Type) : Type :=
| QEnd (r : outcome A)
| QOp (o : w_call) (k : N -> wprog A).
Arguments QEnd {A} r.
Arguments QOp {A} o k.

Fixpoint qrun {S A} (step : w_call -> S -> outcome (N * S)) (p : wprog A) (s : S) : outcome (A * S) :=
  match p with
  | QEnd r => obind r (fun a => Ret (a, s))
  | QOp o k => obind (step o s) (fun x => qrun step (k (fst x)) (snd x))
  end.
Fixpoint qbind {A B} (p : wprog A) (f : A -> wprog B) : wprog B :=
  match p with
  | QEnd (Ret a) => f a
  | QEnd (Throw e) => QEnd (Throw e)
  | QEnd Undef => QEnd Undef
  | QEnd Fuel => QEnd Fuel
  | QOp o k => QOp o (fun r => qbind (k r) f)
  end.
Definition qret {A} (a : A) : wprog A := QEnd (Ret a).
Definition qseq (p q : wprog unit) : wprog unit := qbind p (fun _ => q).
Fixpoint qiter {A} (f : A -> wprog unit) (l : list A) : wprog unit :=
  match l with [] => qret tt | x :: l' => qseq (f x) (qiter f l') end.

(** Stream.cc:24-27, 118-180: one [write]. *)
Definition qput (b : bytes) : wprog unit := QOp (CWrite b) (fun _ => qret tt).
Definition qushort (v : N) : wprog unit := qput (le_enc 2 v).
Definition quint (v : N) : wprog unit := qput (le_enc 4 v).
Definition qshort (v : Z) : wprog unit := qput (le_enc 2 (uint 16 v)).
Definition qvec3 (v : vec3) : wprog unit := qput (le_enc 4 (v3x v) ++ le_enc 4 (v3y v) ++ le_enc 4 (v3z v)).
Definition qmat4 (m : mat) : wprog unit := qput (words_le (transpose4 m)).
(** Stream.cc:159-162 *)
Definition qline (v : bytes) : wprog unit := qseq (qput v) (qput [x0a]).

(** Stream.hh:214-228 [write_chunk]; [ssize_t] arithmetic on what [tell] gives. *)
Definition qchunk (ty : N) (cb : wprog unit) : wprog unit :=
  qseq (qushort ty)
  (QOp CTell (fun size_off =>
   qseq (quint 0) (qseq cb
   (QOp CTell (fun here =>
    let n := (sint 64 here - sint 64 size_off - 4)%Z in
    QOp (CSeek (sint 64 size_off) BEG) (fun _ =>
    qseq (quint (uint 32 n)) (QOp (CSeek n CUR) (fun _ => qret tt)))))))).

(** Date.cc:17-25 *)
Definition qdate (d : date) : wprog unit :=
  qseq (quint (d_year d)) (qseq (qushort (d_month d)) (qseq (qushort (d_day d)) (qseq (qushort (d_hour d))
  (qseq (qushort (d_minute d)) (qseq (qushort (d_second d)) (qushort 0)))))).
(** Boxes.cc:14-17 *)
Definition qaabb (b : aabb) : wprog unit := qseq (qvec3 (bb_min b)) (qvec3 (bb_max b)).
(** ModelHierarchy.cc:58-62 *)
Definition qhnode (n : hnode) : wprog unit :=
  qseq (qline (hn_name n)) (qseq (qshort (hn_parent n)) (qmat4 (hn_transform n))).
(** ModelHierarchy.cc:53-76 *)
Definition qhier_save (h : hierarchy) : wprog unit :=
  qseq (qchunk H_HIERARCHY
    (qseq (quint 3) (qseq (qushort (u16 (len (hi_nodes h)))) (qseq (qiter qhnode (hi_nodes h))
     (qseq (qaabb (hi_bbox h)) (qseq (qaabb (hi_collision h)) (qseq (qvec3 (hi_root h)) (quint (hi_checksum h)))))))))
  (qseq (qchunk H_SOURCE (qseq (qdate (hi_date h)) (qline (hi_path h))))
  (qchunk H_END (qret tt))).
