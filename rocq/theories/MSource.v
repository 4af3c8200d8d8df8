(** Model of the readers of src/Stream.cc that do not read from memory: [ReadFile] (a C [FILE])
    and [ReadStream] (a [std::istream]); and code that uses a reader, as a program over the four
    virtual functions of [Read]. *)

From Verif Require Import MBase MStream SStream MBoxes MModel.
Local Open Scope N_scope.

(* ------------------------------------------------------------------ *)
(** * Readers *)

(** Stream.cc:213-236 [ReadFile].  The C library's stream over a file that nothing else changes:
    its contents, the position and the end-of-file indicator. *)
Record fsrc := mkFS { fs_data : bytes; fs_pos : N; fs_eof : bool }.
Definition fs_open (b : bytes) : fsrc := mkFS b 0 false.

(** Stream.cc:217-231.  C17 7.21.8.1: [fread] sets the indicator when it meets the end of the
    file; 7.21.9.2: [fseek] clears it and fails, changing nothing, for a negative position; POSIX
    allows positions behind the end.  Errors of the device are not modelled. *)
Definition fs_step (o : r_op) (s : fsrc) : outcome (r_res * fsrc) :=
  match o with
  | ORead n =>
      let b := take n (drop (fs_pos s) (fs_data s)) in
      Ret (RBytes b, mkFS (fs_data s) (fs_pos s + len b) (fs_eof s || (len b <? n)))
  | OSeek off w =>
      let z := seek_target (fs_pos s) (len (fs_data s)) off w in
      if ((0 <=? z) && (z <? 2 ^ 63))%Z then Ret (RUnit, mkFS (fs_data s) (Z.to_N z) false) else Ret (RUnit, s)
  | OTell => Ret (RPos (fs_pos s), s)
  | OEof => Ret (RBool (fs_eof s), s)
  end.

(** Stream.cc:238-261 [ReadStream]: the contents of the stream, the position, [eofbit] and
    [failbit].  [is_string] tells a [std::istringstream], whose buffer refuses positions behind
    the end, from a [std::ifstream]. *)
Record isrc := mkIS { is_string : bool; ist_data : bytes; ist_pos : N; ist_eof : bool; ist_fail : bool }.
Definition is_open (string : bool) (b : bytes) : isrc := mkIS string b 0 false false.

(** Stream.cc:242-256.  C++20 [istream.unformatted]: on a stream that is not good [read] sets
    [failbit] and extracts nothing; when the characters run out it sets [eofbit] and [failbit].
    [seekg] clears [eofbit], then does nothing if [failbit] is set, and sets [failbit] when the
    position is refused.  [tellg] is -1 if [failbit] is set.  The count is cast to [long]:
    counts of 2^63 and more are not modelled. *)
Definition is_step (o : r_op) (s : isrc) : outcome (r_res * isrc) :=
  let '(mkIS k d p e f) := s in
  match o with
  | ORead n =>
      if e || f then Ret (RBytes [], mkIS k d p e true)
      else
        let b := take n (drop p d) in
        let short := len b <? n in
        Ret (RBytes b, mkIS k d (p + len b) short short)
  | OSeek off w =>
      if f then Ret (RUnit, mkIS k d p false true)
      else
        let z := seek_target p (len d) off w in
        if if k then in_range z (len d) else ((0 <=? z) && (z <? 2 ^ 63))%Z
        then Ret (RUnit, mkIS k d (Z.to_N z) false false)
        else Ret (RUnit, mkIS k d p false true)
  | OTell => Ret (RPos (if f then 2 ^ 64 - 1 else p), s)
  | OEof => Ret (RBool e, s)
  end.

(* ------------------------------------------------------------------ *)
(** * Programs that use a reader *)

(** Code that gets a [Read*]: it ends, or calls one of the four functions and continues with the
    answer. *)
Inductive rprog (A : Type) : Type :=
| PEnd (r : outcome A)
| POp (o : r_op) (k : r_res -> rprog A).
Arguments PEnd {A} r.
Arguments POp {A} o k.

(** Running a program with a reader whose functions are [step]. *)
Fixpoint prun {S A} (step : r_op -> S -> outcome (r_res * S)) (p : rprog A) (s : S) : outcome (A * S) :=
  match p with
  | PEnd r => obind r (fun a => Ret (a, s))
  | POp o k => obind (step o s) (fun x => prun step (k (fst x)) (snd x))
  end.

Fixpoint pbind {A B} (p : rprog A) (f : A -> rprog B) : rprog B :=
  match p with
  | PEnd (Ret a) => f a
  | PEnd (Throw e) => PEnd (Throw e)
  | PEnd Undef => PEnd Undef
  | PEnd Fuel => PEnd Fuel
  | POp o k => POp o (fun r => pbind (k r) f)
  end.
Definition pret {A} (a : A) : rprog A := PEnd (Ret a).
Fixpoint prep {A} (n : nat) (p : rprog A) : rprog (list A) :=
  match n with
  | O => pret []
  | S n' => pbind p (fun a => pbind (prep n' p) (fun l => pret (a :: l)))
  end.

Definition res_bytes (r : r_res) : bytes := match r with RBytes b => b | _ => [] end.
Definition res_pos (r : r_res) : N := match r with RPos n => n | _ => 0 end.
Definition res_bool (r : r_res) : bool := match r with RBool b => b | _ => false end.

(** Stream.cc:17-22, 29-83: one [read] into a zero-initialised object. *)
Definition pget {A} (n : N) (f : bytes -> A) : rprog A :=
  POp (ORead n) (fun r => pret (f (pad_to n (res_bytes r)))).
Definition pchar : rprog byte := pget 1 (hd x00).
Definition pubyte : rprog N := pget 1 le_dec.
Definition pushort : rprog N := pget 2 le_dec.
Definition puint : rprog N := pget 4 le_dec.
Definition pshort : rprog Z := pget 2 (fun b => sint 16 (le_dec b)).
Definition pvec2 : rprog vec2 := pget 8 (fun b => mkV2 (le_dec (take 4 b)) (le_dec (take 4 (drop 4 b)))).
Definition pvec3 : rprog vec3 :=
  pget 12 (fun b => mkV3 (le_dec (take 4 b)) (le_dec (take 4 (drop 4 b))) (le_dec (take 4 (drop 8 b)))).
Definition pmat4 : rprog mat := pget 64 (fun b => transpose4 (le_words 16 b)).

(** Stream.cc:98-101 *)
Fixpoint puntil (fuel : nat) : rprog (bytes * byte) :=
  match fuel with
  | O => PEnd Fuel
  | S f =>
      pbind pchar (fun c =>
      if beq c x00 || beq c x0d || beq c x0a then pret ([], c)
      else pbind (puntil f) (fun r => pret (c :: fst r, snd r)))
  end.
(** Stream.cc:106-108 *)
Fixpoint pskip (fuel : nat) (chars : bytes) : rprog byte :=
  match fuel with
  | O => PEnd Fuel
  | S f =>
      pbind pchar (fun c =>
      if negb (beq c x00) && existsb (beq c) chars then pskip f chars else pret c)
  end.
(** Stream.cc:95-116; [eof] is not called when the first two conditions of line 104 hold. *)
Definition pline (fuel : nat) (chars : bytes) : rprog bytes :=
  pbind (puntil fuel) (fun r =>
  if (match chars with [] => true | _ => false end) || beq (snd r) x00 then pret (fst r)
  else POp OEof (fun e =>
    if res_bool e then pret (fst r)
    else pbind (pskip fuel chars) (fun c =>
      POp OEof (fun e =>
        if res_bool e && beq c x00 then pret (fst r)
        else POp (OSeek (-1) CUR) (fun _ => pret (fst r)))))).

(** Stream.hh:146-178 [read_chunked].  The second call of [tell], for the log output, changes no
    reader and is left out. *)
Fixpoint pchunked {A} (fuel : nat) (cb : N -> A -> rprog (bool * A)) (a : A) : rprog A :=
  match fuel with
  | O => PEnd Fuel
  | S f =>
      pbind pushort (fun ty =>
      pbind puint (fun size =>
      POp OTell (fun here =>
      pbind (cb ty a) (fun r =>
      POp (OSeek (sint 64 (u64 (res_pos here + size))) BEG) (fun _ =>
      if fst r then pret (snd r)
      else POp OEof (fun e => if res_bool e then pret (snd r) else pchunked f cb (snd r)))))))
  end.

(* ------------------------------------------------------------------ *)
(** * Loading a skeleton *)

(** Date.cc:7-15 *)
Definition pdate : rprog date :=
  pbind puint (fun y => pbind pushort (fun mo => pbind pushort (fun d => pbind pushort (fun h =>
  pbind pushort (fun mi => pbind pushort (fun s => pbind pushort (fun _ => pret (mkDate y mo d h mi s)))))))).
(** Boxes.cc:9-12 *)
Definition paabb : rprog aabb := pbind pvec3 (fun mn => pbind pvec3 (fun mx => pret (mkAabb mn mx))).

(** ModelHierarchy.cc:27-31 *)
Definition phnode (fuel : nat) : rprog hnode :=
  pbind (pline fuel []) (fun name => pbind pshort (fun parent => pbind pmat4 (fun t =>
  pret (mkHNode parent name t)))).
(** ModelHierarchy.cc:19-50 *)
Definition phier_chunk (fuel : nat) (ty : N) (h : hierarchy) : rprog (bool * hierarchy) :=
  if ty =? H_HIERARCHY then
    pbind puint (fun _ => pbind pushort (fun n =>
    pbind (prep (N.to_nat n) (phnode fuel)) (fun nodes =>
    pbind paabb (fun bb => pbind paabb (fun cb => pbind pvec3 (fun root => pbind puint (fun sum =>
    pret (false, mkHier nodes bb cb root sum (hi_date h) (hi_path h)))))))))
  else if ty =? H_SOURCE then
    pbind pdate (fun d => pbind (pline fuel []) (fun p =>
    pret (false, mkHier (hi_nodes h) (hi_bbox h) (hi_collision h) (hi_root h) (hi_checksum h) d p)))
  else if ty =? H_END then pret (true, h)
  else pret (false, h).
(** ModelHierarchy.cc:15-51 *)
Definition phier_load (fuel : nat) (h : hierarchy) : rprog hierarchy := pchunked fuel (phier_chunk fuel) h.
