(** Specification for readers of files and streams: when code that uses a reader stays inside the
    data. *)

From Verif Require Import MBase MStream SStream MSource.
Local Open Scope N_scope.

(** A call at position [pos] that stays inside: a read finds all it asks for, a seek goes to a
    position of the data, and whether the end is reached is asked before it is. *)
Definition op_inside (data : bytes) (pos : N) (o : r_op) : Prop :=
  match o with
  | ORead n => pos + n <= len data
  | OSeek off w => (- 2 ^ 63 <= off < 2 ^ 63)%Z /\ in_range (seek_target pos (len data) off w) (len data) = true
  | OTell => True
  | OEof => pos < len data
  end.
(** Code that, run on a cursor over [data], only makes such calls. *)
Fixpoint inside {A} (data : bytes) (pos : N) (p : rprog A) : Prop :=
  match p with
  | PEnd _ => True
  | POp o k =>
      op_inside data pos o /\
      inside data (snd (cursor_step data pos o)) (k (fst (cursor_step data pos o)))
  end.

(** The same, but reads may come up short; [hit] says that one did since the last seek.  At the
    end the question whether it is reached is asked only after such a read. *)
Definition op_inside_file (data : bytes) (pos : N) (hit : bool) (o : r_op) : Prop :=
  match o with
  | ORead n => n < 2 ^ 63
  | OSeek off w => (- 2 ^ 63 <= off < 2 ^ 63)%Z /\ in_range (seek_target pos (len data) off w) (len data) = true
  | OTell => True
  | OEof => pos < len data \/ hit = true
  end.
Definition hit_after (data : bytes) (pos : N) (hit : bool) (o : r_op) : bool :=
  match o with
  | ORead n => hit || (len data <? pos + n)
  | OSeek _ _ => false
  | _ => hit
  end.
Fixpoint inside_file {A} (data : bytes) (pos : N) (hit : bool) (p : rprog A) : Prop :=
  match p with
  | PEnd _ => True
  | POp o k =>
      op_inside_file data pos hit o /\
      inside_file data (snd (cursor_step data pos o)) (hit_after data pos hit o) (k (fst (cursor_step data pos o)))
  end.

(** What the code computes, whatever reader it used. *)
Definition value {S A} (r : outcome (A * S)) : outcome A := obind r (fun x => Ret (fst x)).
Definition from_memory {A} (p : rprog A) (data : bytes) : outcome A := value (prun r_step p (r_from data)).
Definition from_file {A} (p : rprog A) (data : bytes) : outcome A := value (prun fs_step p (fs_open data)).
Definition from_stream {A} (string : bool) (p : rprog A) (data : bytes) : outcome A :=
  value (prun is_step p (is_open string data)).
