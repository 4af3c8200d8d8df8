(** Vocabulary for how loading an archive ends, independent of the readers. *)

From Verif Require Import MBase MStream MBoxes MText MClasses MArchive MVob MLib SArchive.

(** Loading has an answer: an object graph or an exception. *)
Definition answers {A} (o : outcome A) : Prop := (exists a, o = Ret a) \/ (exists e, o = Throw e).
(** The library, except that objects of some classes are refused. *)
Definition refusing (bad : otype -> bool) (c : cfg) (t : otype) : option (prog oid object) :=
  if bad t then Some (PThrow ParserError) else object_load c t.
Definition is_world (t : otype) : bool := otype_eqb t oCWorld.
(** Worlds, and the classes whose [load] trusts what it reads: an object that must not be null
    (vobs/Misc.cc:379, CutsceneLibrary.cc:83 and 129, world/WayNet.cc:33) or the text of a list of
    colors (vobs/Light.cc:53-74). *)
Definition trusting (t : otype) : bool :=
  existsb (otype_eqb t) [oCWorld; oCNpc; zCCSBlock; zCCutscene; zCCSCutsceneContext; zCCSLib; zCWayNet; zCVobLight].
(** Ten decimal digits in a row occur in the data. *)
Fixpoint digits_first (k : nat) (b : bytes) : bool :=
  match k, b with
  | O, _ => true
  | S k', c :: b' => (48 <=? b2n c)%N && (b2n c <=? 57)%N && digits_first k' b'
  | _, [] => false
  end.
Fixpoint long_number (b : bytes) : bool :=
  digits_first 10 b || match b with [] => false | _ :: b' => long_number b' end.
(** The bytes do not occur in the data. *)
Definition lacks (pat b : bytes) : Prop := forall i, take (len pat) (drop i b) <> pat.

(** ** Text archives *)
(** The lines of a file from a position on, as the stream reads them: each reading of a line also
    passes over the white space after it. *)
Fixpoint lines_from (n : nat) (s : rstate) : list bytes :=
  match n with
  | O => []
  | S k =>
      if (len (rdata s) <=? rpos s)%N then [] else
      match read_line true s with Ret (l, s') => l :: lines_from k s' | _ => [] end
  end.
Definition lines (b : bytes) (p : N) : list bytes := lines_from (S (length b)) (mkR b p).
(** The line looks like the beginning of an object: a bracket and at least two more characters. *)
Definition begin_line (l : bytes) : bool :=
  match l with c :: _ :: _ :: _ => beq c x5b | _ => false end.
(** The line ends an object. *)
Definition end_line (l : bytes) : bool := bytes_eqb l (lit "[]").
(** From every line on, at least as many lines end objects as begin objects. *)
Definition closed (ls : list bytes) : Prop :=
  forall i, (len (filter begin_line (drop i ls)) <= len (filter end_line (drop i ls)))%N.
(** What follows the name and the type of an entry "name=type:text". *)
Definition entry_type (l : bytes) : bytes := before x3a (after x3d l).
Definition entry_text (l : bytes) : bytes := after x3a (after x3d l).
(** Colors are four numbers and the bytes of a matrix are hexadecimal digits. *)
Definition well_formed_line (l : bytes) : Prop :=
  (entry_type l = lit "color" -> exists r g b a, (r < 2 ^ 16 /\ g < 2 ^ 16 /\ b < 2 ^ 16 /\ a < 2 ^ 16)%N /\
     entry_text l = dec r ++ [x20] ++ dec g ++ [x20] ++ dec b ++ [x20] ++ dec a) /\
  (entry_type l = lit "raw" -> (72 <= len (entry_text l))%N ->
     Forall (fun c => (48 <= b2n c <= 57 \/ 65 <= b2n c <= 70 \/ 97 <= b2n c <= 102)%N) (entry_text l)).
(** Worlds, and code masters of saved games of Gothic 2, whose [load] skips objects
    (vobs/Misc.cc:138-146). *)
Definition skipping (c : cfg) (t : otype) : bool := is_world t || (otype_eqb t zCCodeMaster && cf_save c && g2 c).
Definition trusting_or_skipping (c : cfg) (t : otype) : bool := trusting t || skipping c t.
