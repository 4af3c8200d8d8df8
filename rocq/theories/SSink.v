(** Specification for writers to files and streams. *)

From Verif Require Import MBase MStream SStream MSink.
Local Open Scope N_scope.

(** A file as a cursor over growing contents: the position never leaves them. *)
Definition grow (d : bytes) (pos : N) (b : bytes) : bytes := take pos d ++ b ++ drop (pos + len b) d.
Definition sink_step (o : w_call) (st : bytes * N) : N * (bytes * N) :=
  let (d, pos) := st in
  match o with
  | CWrite b => (len b, (grow d pos b, pos + len b))
  | CSeek off w => (0, (d, Z.to_N (seek_target pos (len d) off w)))
  | CTell => (pos, (d, pos))
  end.
(** A call that stays inside: a seek goes to a position of the contents, and the device has room. *)
Definition call_inside (room : N) (st : bytes * N) (o : w_call) : Prop :=
  let (d, pos) := st in
  match o with
  | CWrite b => pos + len b <= room
  | CSeek off w => (- 2 ^ 63 <= off < 2 ^ 63)%Z /\ in_range (seek_target pos (len d) off w) (len d) = true
  | CTell => True
  end.
Fixpoint stays {A} (room : N) (st : bytes * N) (p : wprog A) : Prop :=
  match p with
  | QEnd _ => True
  | QOp o k => call_inside room st o /\ stays room (snd (sink_step o st)) (k (fst (sink_step o st)))
  end.

(** What the code computes and what it leaves, by writer. *)
Definition left {S A} (contents : S -> bytes) (r : outcome (A * S)) : outcome (A * bytes) :=
  obind r (fun x => Ret (fst x, contents (snd x))).
Definition to_vector {A} (p : wprog A) : outcome (A * bytes) := left wbuf (qrun vec_step p w_empty).
Definition to_file {A} (p : wprog A) : outcome (A * bytes) := left wbuf (qrun fw_step p w_empty).
Definition to_stream {A} (string : bool) (room : N) (opened : bool) (p : wprog A) : outcome (A * bytes) :=
  left os_data (qrun os_step p (os_open string room opened)).
(** The answers to a list of writes. *)
Fixpoint qwrites (l : list bytes) : wprog (list N) :=
  match l with
  | [] => qret []
  | b :: l' => QOp (CWrite b) (fun n => qbind (qwrites l') (fun ns => qret (n :: ns)))
  end.
