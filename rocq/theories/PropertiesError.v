(** Property C131: what errors say. *)

From Verif Require Import MBase MStream MText LBase MError SError LError.

(** ** C131 *)
(** The fields of an error hold the kind of resource and the context it was made with, and its
    message has both in it. *)
Theorem C131_fields : forall f e, made f = Some e -> type_of f = Some (e_type e) /\ context_of f = e_context e /\
  occurs (e_type e) (e_message e) /\ (forall c, e_context e = Some c -> occurs c (e_message e)).
Proof. exact says. Qed.
Print Assumptions C131_fields.
(** What the host is told names the kind and the context, and what every error it came from said,
    at any depth, if no text has a NUL. *)
Theorem C131_told_partial : forall f, clean_failure f ->
  (forall t, type_of f = Some t -> occurs t (what f)) /\ (forall c, context_of f = Some c -> occurs c (what f)) /\
  (forall g, origin g f -> occurs (what g) (what f)).
Proof. intros f C. destruct (told f C). split; [assumption|]. split; [assumption|]. intros g. exact (chain f g C). Qed.
Print Assumptions C131_told_partial.
Definition a_failure : failure := Caused (lit "SaveGame") (Caused (lit "ReadArchive") (Other (lit "stoi")) (Some (lit "reading int"))) None.
Example C131_example : clean_failure a_failure /\ origin (Other (lit "stoi")) a_failure /\
  what a_failure = lit "failed parsing resource of type SaveGame due to [failed parsing resource of type ReadArchive due to [stoi] [context: reading int]]".
Proof.
  split; [|split; [apply origin_next, origin_next, origin_same|vm_compute; reflexivity]].
  cbn. repeat split; unfold clean; cbn; intuition discriminate.
Qed.
(** The exception kept in [cause] is not the one that was the cause: whatever that was, the copy
    says only what the base class says. *)
Theorem C131_cause_refuted : (forall t g c e, made (Caused t g c) = Some e -> e_cause e = Some std_exception) /\
  exists f g e, f = Caused (lit "ReadArchive") g None /\ made f = Some e /\ what g = lit "stoi" /\ e_cause e <> Some (what g).
Proof. split; [exact sliced|]. exists (Caused (lit "ReadArchive") (Other (lit "stoi")) None), (Other (lit "stoi")). eexists. split; [reflexivity|]. split; [reflexivity|]. split; [reflexivity|]. discriminate. Qed.
Print Assumptions C131_cause_refuted.
(** A NUL in a context ends what the host is told.  The library's own contexts have none, since
    lines and names end at it; those of errors a host makes can. *)
Theorem C131_nul_refuted : (forall t c, In x00 c -> ~ occurs c (what (Parser t (Some c)))) /\ exists c, In x00 c.
Proof.
  split; [|exists [x00]; left; reflexivity]. intros t c H (p & q & E). apply (what_clean (Parser t (Some c))). rewrite E. apply in_app_iff. right. apply in_app_iff. left. exact H.
Qed.
Print Assumptions C131_nul_refuted.
(** The kind is not always a kind: a wrong type, a short pair of numbers and a short matrix in a safe
    binary archive put the reason there and leave the context empty, unlike a short box. *)
Theorem C131_kind_refuted : (forall a b, e_type (mismatch_error a b) <> lit "ReadArchive.Binsafe" /\ e_context (mismatch_error a b) = None) /\
  (e_type vec2_error <> lit "ReadArchive.Binsafe" /\ e_context vec2_error = None) /\
  (e_type mat3_error <> lit "ReadArchive.Binsafe" /\ e_context mat3_error = None) /\
  e_type bbox_error = lit "ReadArchive.Binsafe" /\ e_context bbox_error <> None.
Proof.
  split; [intros a b; split; [discriminate|reflexivity]|]. split; [split; [discriminate|reflexivity]|]. split; [split; [discriminate|reflexivity]|]. split; [reflexivity|discriminate].
Qed.
Print Assumptions C131_kind_refuted.
