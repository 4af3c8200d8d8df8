(** Boxes and dates (src/Boxes.cc, src/Date.cc) as programs over any reader and any writer; see
    MSource and MSink. *)

From Verif Require Import MBase MStream MBoxes MSource MSink.
Local Open Scope N_scope.

(** Boxes.cc:19-30; the recursion is bounded by [fuel]. *)
Fixpoint pobb (fuel : nat) : rprog obb :=
  match fuel with
  | O => PEnd Fuel
  | S f =>
      pbind pvec3 (fun c => pbind pvec3 (fun a0 => pbind pvec3 (fun a1 => pbind pvec3 (fun a2 => pbind pvec3 (fun hw =>
      pbind pushort (fun n => pbind (prep (N.to_nat n) (pobb f)) (fun ch => pret (Obb c a0 a1 a2 hw ch))))))))
  end.
(** Boxes.cc:32-43 *)
Fixpoint qobb (o : obb) : wprog unit :=
  match o with
  | Obb c a0 a1 a2 hw ch =>
      qseq (qvec3 c) (qseq (qvec3 a0) (qseq (qvec3 a1) (qseq (qvec3 a2) (qseq (qvec3 hw) (qseq (qushort (u16 (len ch)))
      ((fix go (l : list obb) : wprog unit := match l with [] => qret tt | x :: l' => qseq (qobb x) (go l') end) ch))))))
  end.
