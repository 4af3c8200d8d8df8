(** Specification vocabulary for save game directories. *)

From Coq Require Import String.
From Verif Require Import MBase MStream MText MClasses MArchive SArchive MVob MCutscene MWorld MLib MSave MTexture MSaveGame.
From Verif Require SVfs.
Local Open Scope N_scope.

(** A disk that can exist: nothing is there twice, and what is there is in a directory made before. *)
Fixpoint made (seen rest : disk) : Prop :=
  match rest with
  | [] => True
  | (l, e) :: rest' => l <> [] /\ dget seen l = None /\ dget seen (removelast l) = Some DDir /\ made (seen ++ [(l, e)]) rest'
  end.
Definition disk_ok (d : disk) : Prop := made [] d.
(** [l] is [p] or below it. *)
Definition under (p l : loc) : Prop := exists r, l = p ++ r.

(** The process may end at any time: after any number of steps, or with any part of a file written. *)
Inductive crashed : list step -> disk -> disk -> Prop :=
| crash_now : forall ss d, crashed ss d d
| crash_later : forall s ss d d', crashed ss (run_step d s) d' -> crashed (s :: ss) d d'
| crash_torn : forall l b any ss d, crashed (SWrite l b :: ss) d (run_step d (SWrite l any)).

(** The name of a world: a file name that is not one of the other four. *)
Definition plain_name (n : bytes) : Prop := n <> [] /\ ~ In x2f n.
Definition fixed_names : list bytes := [lit "SAVEINFO.SAV"; lit "THUMB.SAV"; lit "SAVEHDR.SAV"; lit "SAVEDAT.SAV"].
Definition own_name (n : bytes) : Prop := plain_name n /\ ~ In (n ++ lit ".SAV") fixed_names.
Definition five (name : bytes) : list bytes := fixed_names ++ [name ++ lit ".SAV"].

(** Saving the game loaded from (or last saved to) [from] to [to] begins with a directory that holds
    [K], by name. *)
Inductive begins_with (d : disk) (cwd : loc) (from to : path) : (loc -> option dent) -> Prop :=
(** in place *)
| In_place : same_path from to = true -> is_dir d (locate cwd to) = true ->
    begins_with d cwd from to (fun r => dget d (locate cwd to ++ r))
(** elsewhere: neither directory is the other or in the other *)
| Copied : same_path from to = false -> from <> [] -> to <> [] -> is_dir d (locate cwd from) = true ->
    ~ under (locate cwd from) (locate cwd to) -> ~ under (locate cwd to) (locate cwd from) ->
    is_dir d (removelast (locate cwd to)) = true ->
    begins_with d cwd from to (fun r => dget d (locate cwd from ++ r))
(** a new game *)
| Fresh : same_path from to = false -> there d cwd from = false -> to <> [] ->
    (forall p, p <> locate cwd to -> under p (locate cwd to) -> forall b, dget d p <> Some (DFile b)) ->
    begins_with d cwd from to (fun r => None).

(** The five files can be written. *)
Definition all_written (l : list (bytes * outcome bytes)) : Prop := Forall (fun p => exists b, snd p = Ret b) l.

(** Files the game consists of, in a directory with other files too. *)
Definition file_at (d : disk) (l : loc) (n : bytes) (b : bytes) : Prop := dget d (l ++ [n]) = Some (DFile b).

(** The file found under a name, whatever the case of its letters. *)
Definition only_spelling (d : disk) (l : loc) (name n : bytes) : Prop :=
  SVfs.same n name = true /\ forall n', dget d (l ++ [n']) <> None -> SVfs.same n' name = true -> n' = n.
