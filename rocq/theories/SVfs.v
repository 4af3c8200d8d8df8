(** Specification vocabulary for the virtual file system. *)

From Coq Require Import Sorted.
From Verif Require Import MBase MStream MZipped SStream MVfs.
Local Open Scope N_scope.

(** ASCII case folding. *)
Definition lc (c : byte) : byte :=
  if (65 <=? b2n c) && (b2n c <=? 90) then n2b (b2n c + 32) else c.
Definition lower (s : bytes) : bytes := map lc s.
(** Two names are the same file name. *)
Definition same (a b : bytes) : bool := bytes_eqb (lower a) (lower b).

(** The entry with a given name in a directory, in any letter case. *)
Definition kid (l : list node) (x : bytes) : option node := find (fun c => same (nname c) x) l.

(** The node at a path (a list of names) below a node. *)
Fixpoint lookup (n : node) (p : list bytes) : option node :=
  match p with
  | [] => Some n
  | x :: p' =>
      match n with
      | NFile _ _ _ => None
      | NDir _ _ l => match kid l x with Some c => lookup c p' | None => None end
      end
  end.

(** What an observer sees of a node, without what is below it. *)
Inductive info := IFile (name : bytes) (time : Z) (fd : fdesc) | IDir (name : bytes) (time : Z).
Definition stat (n : option node) : option info :=
  match n with
  | Some (NFile nm t fd) => Some (IFile nm t fd)
  | Some (NDir nm t _) => Some (IDir nm t)
  | None => None
  end.
Definition is_dir (n : option node) : Prop := exists nm t l, n = Some (NDir nm t l).
Definition is_leaf (n : option node) : Prop := exists nm t fd, n = Some (NFile nm t fd).

(** The non-empty parts of a path string between slashes. *)
Fixpoint split (cur : bytes) (p : bytes) : list bytes :=
  match p with
  | [] => match cur with [] => [] | _ => [cur] end
  | c :: p' =>
      if beq c x2f then match cur with [] => split [] p' | _ => cur :: split [] p' end
      else split (cur ++ [c]) p'
  end.
Definition parts (p : bytes) : list bytes := split [] p.

(** Names are looked up without their trailing white space. *)
Definition names (p : bytes) : list bytes := map trim (parts p).

(** A name without trailing white space. *)
Definition clean (s : bytes) : Prop := forall s' c, s = s' ++ [c] -> isspace c = false.
Inductive clean_tree : node -> Prop :=
| Clean_file : forall nm t fd, clean nm -> clean_tree (NFile nm t fd)
| Clean_dir : forall nm t l, clean nm -> Forall clean_tree l -> clean_tree (NDir nm t l).

(** A path runs through a file: a proper prefix of it is one. *)
Definition through_file (n : node) (p : list bytes) : Prop :=
  exists q x r, p = q ++ x :: r /\ is_leaf (lookup n q).

(** The path, or an ancestor of it, is a file. *)
Definition hits_file (n : node) (p : list bytes) : Prop :=
  exists q x r, p = q ++ x :: r /\ is_leaf (lookup n (q ++ [x])).

(** [q] is at or below [p]. *)
Definition at_or_below (p q : list bytes) : Prop := exists r, map lower q = map lower p ++ r.

(** No directory of the tree has two entries whose names differ only in case. *)
Inductive unique : node -> Prop :=
| Unique_file : forall nm t fd, unique (NFile nm t fd)
| Unique_dir : forall nm t l,
    NoDup (map (fun c => lower (nname c)) l) -> Forall unique l -> unique (NDir nm t l).

(** The trees that can be built: each directory is in the order of the [std::set]. *)
Definition before (a b : node) : Prop := icompare (nname a) (nname b) = true.
Inductive wf : node -> Prop :=
| Wf_file : forall nm t fd, wf (NFile nm t fd)
| Wf_dir : forall nm t l, StronglySorted before l -> Forall wf l -> wf (NDir nm t l).

(** ** Histories *)

(** Nodes a user can build: files, empty directories, and what [create] and [remove] make
    of them. *)
Inductive built : node -> Prop :=
| B_file : forall nm t fd, built (NFile nm t fd)
| B_dir : forall nm t, built (directory nm t)
| B_create : forall n k n', built n -> built k -> create n k = Ret n' -> built n'
| B_remove : forall n x b n', built n -> remove_child n x = Ret (b, n') -> built n'.

Inductive vfs_op :=
| VMkdir (now : bytes -> Z) (path : bytes)
| VMkdirCreate (now : bytes -> Z) (path : bytes) (k : node)   (* vfs.mkdir(path).create(k) *)
| VRemove (path : bytes)
| VMount (src : node) (parent : bytes) (pol : policy)
| VMountHost (hs : list host) (parent : bytes) (pol : policy)
| VMountDisk (fuel : nat) (k : clock) (pol : policy) (buf : bytes).
(** The tree after an operation that returns or throws; [None] if it does neither. *)
Definition vfs_step (root : node) (o : vfs_op) : option node :=
  let keep (r : outcome node) :=
    match r with Ret n => Some n | Throw _ => Some root | _ => None end in
  match o with
  | VMkdir now p => match mkdir now root p with
                    | (r, Ret _) | (r, Throw _) => Some r
                    | _ => None
                    end
  | VMkdirCreate now p k =>
      match mkdir now root p with
      | (r, Ret loc) =>
          match get_at loc r with
          | Some d => match create d k with
                      | Ret d' => Some (upd_at loc (fun _ => d') r)
                      | Throw _ => Some r
                      | _ => None
                      end
          | None => None
          end
      | (r, Throw _) => Some r
      | _ => None
      end
  | VRemove p => keep (obind (vfs_remove root p) (fun r => Ret (snd r)))
  | VMount src parent pol => keep (mount root src parent pol)
  | VMountHost hs parent pol => keep (mount_host root hs parent pol)
  | VMountDisk fuel k pol buf =>
      (* the broken-disk error is raised before anything changes; another exception leaves the
         tree partly filled and ends the history *)
      match mount_disk fuel k pol root buf with
      | Ret n => Some n
      | Throw VfsBrokenDisk => Some root
      | _ => None
      end
  end.
Definition op_ok (o : vfs_op) : Prop :=
  match o with
  | VMkdirCreate _ _ k => built k
  | VMount src _ _ => built src
  | _ => True
  end.
Inductive reach : node -> Prop :=
| R_empty : reach vfs_empty
| R_step : forall n o n', reach n -> op_ok o -> vfs_step n o = Some n' -> reach n'.

(** ** Mount policy *)

(** Whether the mounted node replaces a conflicting one. *)
Definition replaces (p : policy) (old new : Z) : Prop :=
  match p with
  | ONone => False
  | OAll => True
  | ONewer => (old > new)%Z   (* overwrite newer conflicting nodes *)
  | OOlder => (old < new)%Z   (* overwrite older conflicting nodes *)
  end.
(** What is seen at path [q] below two overlaid nodes: directories merge, otherwise one of
    the two wins with everything below it. *)
Inductive overlay (p : policy) : option node -> option node -> list bytes -> option info -> Prop :=
| O_new : forall s q, overlay p None (Some s) q (stat (lookup s q))
| O_old : forall e q, overlay p (Some e) None q (stat (lookup e q))
| O_none : forall q, overlay p None None q None
| O_merge_here : forall nm t l nm' t' l', overlay p (Some (NDir nm t l)) (Some (NDir nm' t' l')) [] (Some (IDir nm t))
| O_merge : forall nm t l nm' t' l' x q r,
    overlay p (kid l x) (kid l' x) q r ->
    overlay p (Some (NDir nm t l)) (Some (NDir nm' t' l')) (x :: q) r
| O_win : forall e s q, is_file e || is_file s = true -> replaces p (ntime e) (ntime s) ->
    overlay p (Some e) (Some s) q (stat (lookup s q))
| O_lose : forall e s q, is_file e || is_file s = true -> ~ replaces p (ntime e) (ntime s) ->
    overlay p (Some e) (Some s) q (stat (lookup e q)).

(** ** Find *)

(** [c] is an entry of some directory of the tree. *)
Inductive somewhere (c : node) : node -> Prop :=
| S_here : forall nm t l, In c l -> somewhere c (NDir nm t l)
| S_below : forall nm t l d, In d l -> somewhere c d -> somewhere c (NDir nm t l).

(** ** Disk time *)

(** The times a DOS word can express. *)
Definition tm_ok (t : tm) : Prop :=
  (80 <= tm_year t <= 207 /\ 0 <= tm_mon t <= 11 /\ 1 <= tm_mday t <= 31 /\ 0 <= tm_hour t <= 23 /\
   0 <= tm_min t <= 59 /\ 0 <= tm_sec t <= 58)%Z.

(** ** Paths *)
Definition ends_with_slash (p : bytes) : Prop := exists q, p = q ++ [x2f].
