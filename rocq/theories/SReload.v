(** One archive with objects of the library, written and read again. *)

From Coq Require Import String.
From Verif Require Import MBase MStream MText MClasses MArchive SArchive MVob MLib.
Local Open Scope N_scope.

(** [WriteArchive::to], [write_object(root)], [write_header]; [ReadArchive::from] and [read_object].
    The result is the root and all objects made. *)
Definition reload (c : cfg) (f : fmt) (e : wenv) (G : oid -> option object) (root : option oid)
    : outcome (option oid * heap object) :=
  match save_archive f e e (cf_save c) (g_graph (library c) G) 8 (lit "%") root with
  | Ret b =>
      match load_archive (c_load (library c)) (c_flags (library c)) 8 b with
      | Ret (_, r, h) => Ret (r, h)
      | Throw x => Throw x | Undef => Undef | Fuel => Fuel
      end
  | Throw x => Throw x | Undef => Undef | Fuel => Fuel
  end.
(** A graph of one object, and of a few. *)
Definition alone (x : object) : oid -> option object := fun r => if r =? 0 then Some x else None.
Definition few (l : list object) : oid -> option object := fun r => nth_N l r.
(** An object that refers to no other comes back as [y]. *)
Definition comes_back_as (c : cfg) (f : fmt) (e : wenv) (x y : object) : Prop :=
  reload c f e (alone x) (Some 0) = Ret (Some 0, [mkHobj (object_type x) 0 (Some y)]).
