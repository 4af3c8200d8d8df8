(** Model of src/Date.cc and src/Boxes.cc. *)

From Coq Require Import QArith QArith.Qminmax.
From Verif Require Import MBase MStream.
Local Open Scope N_scope.
Local Open Scope m_scope.

(** Date.hh:17-22 *)
Record date := mkDate { d_year : N; d_month : N; d_day : N; d_hour : N; d_minute : N; d_second : N }.

(** Date.cc:7-15 *)
Definition date_load : rd date :=
  let* y := read_uint in
  let* mo := read_ushort in
  let* d := read_ushort in
  let* h := read_ushort in
  let* mi := read_ushort in
  let* s := read_ushort in
  let* _ := read_ushort in
  ret (mkDate y mo d h mi s).

(** Date.cc:17-25 *)
Definition date_save (d : date) : wr unit :=
  write_uint (d_year d) ;;
  write_ushort (d_month d) ;;
  write_ushort (d_day d) ;;
  write_ushort (d_hour d) ;;
  write_ushort (d_minute d) ;;
  write_ushort (d_second d) ;;
  write_ushort 0.

(** Boxes.hh [AxisAlignedBoundingBox] *)
Record aabb := mkAabb { bb_min : vec3; bb_max : vec3 }.

(** Boxes.cc:9-12 *)
Definition aabb_load : rd aabb :=
  let* mn := read_vec3 in
  let* mx := read_vec3 in
  ret (mkAabb mn mx).

(** Boxes.cc:14-17 *)
Definition aabb_save (b : aabb) : wr unit := write_vec3 (bb_min b) ;; write_vec3 (bb_max b).

(** Boxes.hh [OrientedBoundingBox] *)
Inductive obb := Obb (center axis0 axis1 axis2 half_width : vec3) (children : list obb).

(** Boxes.cc:19-30.  The recursion is bounded by [fuel]; reading beyond the end of the data
    yields a box without children, so the number of remaining bytes + 1 is enough. *)
Fixpoint obb_load_f (fuel : nat) : rd obb :=
  match fuel with
  | O => fuelout
  | S f =>
      let* c := read_vec3 in
      let* a0 := read_vec3 in
      let* a1 := read_vec3 in
      let* a2 := read_vec3 in
      let* hw := read_vec3 in
      let* n := read_ushort in
      let* ch := repM (N.to_nat n) (obb_load_f f) in
      ret (Obb c a0 a1 a2 hw ch)
  end.
Definition obb_load : rd obb := fun s => obb_load_f (S (N.to_nat (len (rdata s) - rpos s))) s.

(** Boxes.cc:32-43 *)
Fixpoint obb_save (o : obb) : wr unit :=
  match o with
  | Obb c a0 a1 a2 hw ch =>
      write_vec3 c ;;
      write_vec3 a0 ;;
      write_vec3 a1 ;;
      write_vec3 a2 ;;
      write_vec3 hw ;;
      write_ushort (u16 (len ch)) ;;
      (fix go (l : list obb) : wr unit :=
         match l with
         | [] => ret tt
         | x :: l' => obb_save x ;; go l'
         end) ch
  end.

(** ** [as_bbox] over exact arithmetic

    Boxes.cc:45-84 on rational coordinates: rounding of the float operations is not
    modelled.  [numeric_limits<float>::max()] = 2^128 - 2^104 and
    [numeric_limits<float>::min()] = 2^-126 (the smallest positive normal number). *)
Record qvec := mkQ3 { qx : Q; qy : Q; qz : Q }.
Definition flt_max : Q := inject_Z (2 ^ 128 - 2 ^ 104).
Definition flt_min : Q := 1 # (2 ^ 126)%positive.
Record qobb := mkQobb { q_center : qvec; q_axis0 : qvec; q_axis1 : qvec; q_axis2 : qvec; q_half : qvec }.

(** Misc.hh:70-72 *)
Definition qscale (v : qvec) (s : Q) : qvec := mkQ3 (qx v * s) (qy v * s) (qz v * s).

(** Boxes.cc:46-53 *)
Definition bbox_signs : list (Q * Q * Q) :=
  [(-1, -1, -1); (-1, -1, 1); (-1, 1, -1); (-1, 1, 1); (1, -1, -1); (1, -1, 1); (1, 1, -1); (1, 1, 1)]%Q.

(** Boxes.cc:65-72 *)
Definition bbox_point (o : qobb) (sg : Q * Q * Q) : qvec :=
  let '(s0, s1, s2) := sg in
  let a0 := qscale (qscale (q_axis0 o) (qx (q_half o))) s0 in
  let a1 := qscale (qscale (q_axis1 o) (qy (q_half o))) s1 in
  let a2 := qscale (qscale (q_axis2 o) (qz (q_half o))) s2 in
  mkQ3 (qx (q_center o) + (qx a0 + qx a1 + qx a2))
       (qy (q_center o) + (qy a0 + qy a1 + qy a2))
       (qz (q_center o) + (qz a0 + qz a1 + qz a2)).

(** Boxes.cc:74-80 *)
Definition bbox_add (b : qvec * qvec) (p : qvec) : qvec * qvec :=
  (mkQ3 (Qmin (qx (fst b)) (qx p)) (Qmin (qy (fst b)) (qy p)) (Qmin (qz (fst b)) (qz p)),
   mkQ3 (Qmax (qx (snd b)) (qx p)) (Qmax (qy (snd b)) (qy p)) (Qmax (qz (snd b)) (qz p))).

(** Boxes.cc:45-84; the pair is (min, max). *)
Definition as_bbox (o : qobb) : qvec * qvec :=
  fold_left (fun b sg => bbox_add b (bbox_point o sg)) bbox_signs
    (mkQ3 flt_max flt_max flt_max, mkQ3 flt_min flt_min flt_min).
