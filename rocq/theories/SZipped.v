(** Specification vocabulary for compressed streams. *)

From Verif Require Import MBase MStream MZipped SStream.
Local Open Scope N_scope.

(** What is assumed of the compression library: decompressing into a buffer of the original
    size gives back a block of at most 8 KiB, and compressed blocks are not absurdly large. *)
Definition codec_ok (c : codec) : Prop :=
  forall b, len b <= 8192 ->
    mz_uncompress c (mz_compress c b) (len b) = Some b /\ len (mz_compress c b) < 2 ^ 32.

Definition z_step (c : codec) (o : r_op) : M zstate r_res :=
  match o with
  | ORead n => bind (zread c n) (fun b => ret (RBytes b))
  | OSeek off w => bind (zseek off w) (fun _ => ret RUnit)
  | OTell => bind ztell (fun p => ret (RPos p))
  | OEof => bind zeof (fun b => ret (RBool b))
  end.

(** The history never seeks outside the data (where the two readers differ on purpose:
    see the refutation). *)
Fixpoint seeks_inside (data : bytes) (pos : N) (os : list r_op) : Prop :=
  match os with
  | [] => True
  | o :: os' =>
      (match o with
       | OSeek off w => in_range (seek_target pos (len data) off w) (len data) = true
       | ORead n => n <= 2 ^ 63
       | _ => True
       end) /\ seeks_inside data (snd (cursor_step data pos o)) os'
  end.

(** A codec used in examples: stores the data unchanged. *)
Definition id_codec : codec :=
  mkCodec (fun b => b) (fun b n => if len b <=? n then Some b else None).
