(** Trees of world objects as the content of an archive, some of classes that are not supported. *)

From Coq Require Import String.
From Verif Require Import MBase MStream MText MClasses MArchive SArchive MVob MWorld MLib.
Local Open Scope N_scope.

(** An object with its content; the name and the key of the entry with the number of children;
    the children. *)
Inductive ctree := CTree (h : ohead) (cs : list node) (name : bytes) (key : N) (l : list ctree).
Fixpoint tree_nodes (t : ctree) : list node :=
  match t with
  | CTree h cs name key l => NObj h cs :: NEntry name key (EInt (Z.of_N (len l))) :: flat_map tree_nodes l
  end.
(** No object is made for this one: it is null or its class is not supported. *)
Definition dropped {Ob} (f : fmt) (load : otype -> option (prog oid Ob)) (h : ohead) : bool :=
  let k := shown_class f (oh_class h) in
  negb (bytes_eqb k [xa7]) &&
  (bytes_eqb k (lit "%") || match load (type_of_class k) with None => true | Some _ => false end).
(** The tree without such objects and everything below them: no tree or one. *)
Fixpoint prune {Ob} (f : fmt) (load : otype -> option (prog oid Ob)) (t : ctree) : list ctree :=
  match t with
  | CTree h cs name key l => if dropped f load h then [] else [CTree h cs name key (flat_map (prune f load) l)]
  end.
(** The tree is at most [d] levels deep, and what the objects contain can be skipped. *)
Fixpoint skippable (f : fmt) (d : nat) (t : ctree) : bool :=
  match d, t with
  | S d', CTree h cs name key l => forallb (skip_ok f) cs && forallb (skippable f d') l
  | O, _ => false
  end.
(** No object inside is itself a world. *)
Fixpoint no_world (f : fmt) (n : node) : bool :=
  match n with
  | NEntry _ _ _ => true
  | NRaw _ => true
  | NObj h l => negb (otype_eqb (type_of_class (shown_class f (oh_class h))) oCWorld) && forallb (no_world f) l
  end.
