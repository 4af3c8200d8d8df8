(** What a program relies on when it reads files through memory mappings. *)

From Verif Require Import MBase MMmap.
Local Open Scope N_scope.

(** No directory is opened and the system maps every file that is not empty. *)
Definition maps_well (ops : list mop) : Prop :=
  Forall (fun o => match o with MOpen _ t k => map_ok k = true /\ (forall n, t <> TDirectory n) | _ => True end) ops.
(** [fstat] does not fail. *)
Definition stats_well (ops : list mop) : Prop :=
  Forall (fun o => match o with MOpen _ _ k => stat_ok k = true | _ => True end) ops.
(** The object reads as the file [b]: its size, and every part of it. *)
Definition reads_as (m : mapped) (b : bytes) (s : os) : Prop :=
  m_size m = len b /\ forall p n, p + n <= len b -> map_bytes m p n s = Ret (take n (drop p b)).
(** The mappings the objects hold. *)
Definition held (objs : list (N * (mapped * target))) : list N :=
  flat_map (fun x => match m_data (fst (snd x)) with PMap id => [id] | _ => [] end) objs.
