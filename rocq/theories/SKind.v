(** Specification vocabulary: what tells the kinds of files apart. *)

From Verif Require Import MBase MStream SStream.
Local Open Scope N_scope.

(** The text before the first NUL, carriage return or line feed. *)
Fixpoint first_line (b : bytes) : bytes :=
  match b with
  | [] => []
  | c :: b' => if beq c x00 || beq c x0d || beq c x0a then [] else c :: first_line b'
  end.
(** The bytes [s] stand at an offset. *)
Definition stands (s : bytes) (at_ : N) (b : bytes) : Prop := take (len s) (drop at_ b) = s.
(** The three endings of the signature of a file archive, after "PSVDSC_V2.00". *)
Definition disk_signatures : list bytes :=
  map (fun e => lit "PSVDSC_V2.00" ++ e) [[x1a; x1a; x1a; x1a]; [x0d; x0a; x0d; x0a]; [x0a; x0d; x0a; x0d]].
(** Lines of text without line ends that begin with a visible character, one after the other. *)
Definition text (ls : list bytes) : bytes := flat_map (fun l => l ++ [x0a]) ls.
Definition visible (l : bytes) : Prop :=
  no_eol l /\ match l with [] => False | c :: _ => ~ In c ws_chars end.
(** The line begins with [s]. *)
Definition begins (s l : bytes) : Prop := exists r, l = s ++ r.
