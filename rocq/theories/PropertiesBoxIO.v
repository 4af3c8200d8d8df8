(** Properties C127 and C128 for boxes and dates. *)

From Coq Require Import Lia.
From Verif Require Import MBase MStream SStream MBoxes SBoxes MSource MSink MSourceBox SSource SSink SFormat LBase LStream LSourceBox.
Local Open Scope N_scope.

(** ** C127 *)
(** All data, whole or cut, is loaded as the same tree of oriented boxes, and as the same date,
    from memory, from a file and from a stream. *)
Theorem C127_boxes : forall data fuel, len data < max_size -> len data < N.of_nat fuel ->
  from_memory (pobb fuel) data = of_file obb_load data /\ from_file (pobb fuel) data = of_file obb_load data /\
  forall string, from_stream string (pobb fuel) data = of_file obb_load data.
Proof. exact box_anywhere. Qed.
Print Assumptions C127_boxes.
Theorem C127_dates : forall data, len data < max_size ->
  from_memory pdate data = of_file date_load data /\ from_file pdate data = of_file date_load data /\
  forall string, from_stream string pdate data = of_file date_load data.
Proof. exact date_anywhere. Qed.
Print Assumptions C127_dates.
(** Every tree of boxes that is saved is loaded from all of them. *)
Theorem C127_saved_boxes : forall o, obb_ok o -> exists bs, (len bs < max_size -> file_of (obb_save o) = Ret bs) /\
  forall fuel, len bs < max_size -> len bs < N.of_nat fuel ->
  from_memory (pobb fuel) bs = Ret o /\ from_file (pobb fuel) bs = Ret o /\ forall string, from_stream string (pobb fuel) bs = Ret o.
Proof. exact box_everywhere. Qed.
Print Assumptions C127_saved_boxes.

(** ** C128 *)
Theorem C128_boxes : forall o room, obb_ok o -> room < max_size -> exists bs, (len bs < max_size -> file_of (obb_save o) = Ret bs) /\
  (len bs <= room -> to_vector (qobb o) = Ret (tt, bs) /\ to_file (qobb o) = Ret (tt, bs) /\
   forall string, to_stream string room true (qobb o) = Ret (tt, bs)).
Proof. exact box_sinks. Qed.
Print Assumptions C128_boxes.
(** A stream that could not be opened loses every tree of boxes without an error. *)
Theorem C128_lost_boxes_refuted : forall string room o, to_stream string room false (qobb o) = Ret (tt, []).
Proof. exact lost_boxes. Qed.
Print Assumptions C128_lost_boxes_refuted.

Definition demo_vec : vec3 := mkV3 1 2 3.
Definition demo_leaf : obb := Obb demo_vec demo_vec demo_vec demo_vec demo_vec [].
Definition demo_tree : obb := Obb demo_vec demo_vec demo_vec demo_vec demo_vec [demo_leaf; demo_leaf].
(** A tree of three boxes; and data cut within the first. *)
Example C127_boxes_example : obb_ok demo_tree /\ (exists bs, file_of (obb_save demo_tree) = Ret bs /\ len bs = 186) /\
  from_stream true (pobb 20) (le_enc 4 7) =
    Ret (Obb (mkV3 7 0 0) (mkV3 0 0 0) (mkV3 0 0 0) (mkV3 0 0 0) (mkV3 0 0 0) []).
Proof.
  split; [|split; [eexists; split; vm_compute; reflexivity|vm_compute; reflexivity]].
  repeat (constructor; try reflexivity).
Qed.
Print Assumptions C127_boxes_example.
