(** Specification vocabulary for disk files. *)

From Coq Require Import Sorted.
From Verif Require Import MBase MStream MZipped SStream SZipped MVfs SVfs.
Local Open Scope N_scope.

(** The contents of a file node: what opening it, seeking to the end for the size and reading
    that many bytes from the beginning gives. *)
Definition file_bytes (c : codec) (fd : fdesc) (b : bytes) : Prop :=
  exists r, open_fd fd = Ret r /\ slurp c r = Ret (len b, b).

(** The first twelve bytes form the header of a compressed stream. *)
Definition looks_zipped (b : bytes) : Prop :=
  let l := le_dec (take 4 b) in
  let bs := le_dec (take 4 (drop 4 b)) in
  let n := le_dec (take 4 (drop 8 b)) in
  n <> 0 /\ bs <> 0 /\ l <> 0 /\ n = (l + bs + 2 ^ 32 - 1) mod 2 ^ 32 / bs.

(** Names a disk can hold. *)
Definition disk_name (nm : bytes) : Prop := nm <> [] /\ clean nm /\ len nm <= 64.

(** The trees a disk can hold: every directory has an entry.  A compressed disk additionally
    cannot hold empty files, nor sound files (stored as they are) that look like compressed ones. *)
Inductive storable (c : codec) (z : bool) : node -> Prop :=
| St_file : forall nm t fd b, disk_name nm -> file_bytes c fd b -> len b + 8191 < 2 ^ 32 ->
    (z = true -> 0 < len b /\ (is_wave_file nm = true -> 12 <= len b /\ ~ looks_zipped b)) ->
    storable c z (NFile nm t fd)
| St_dir : forall nm t l, disk_name nm -> l <> [] -> Forall (storable c z) l ->
    storable c z (NDir nm t l).

(** Bytes an entry takes on the disk: its catalog entries and the contents as they are stored. *)
Definition stored (c : codec) (z : bool) (nm b : bytes) : wr unit :=
  if z && negb (is_wave_file nm) then write_zipped c b else wr_write b.
Inductive takes (c : codec) (z : bool) : node -> N -> Prop :=
| Takes_file : forall nm t fd b p, file_bytes c fd b -> writes (stored c z nm b) p ->
    takes c z (NFile nm t fd) (80 + len p)
| Takes_dir : forall nm t l ns, Forall2 (takes c z) l ns ->
    takes c z (NDir nm t l) (80 + fold_right N.add 0 ns).
(** The whole disk stays below 4 GiB. *)
Definition fits (c : codec) (z : bool) (l : list node) : Prop :=
  exists ns, Forall2 (takes c z) l ns /\ 296 + fold_right N.add 0 ns < 2 ^ 32.

(** The same tree: same names, same structure, same contents; all times are [ts]. *)
Inductive same_tree (c : codec) (ts : Z) : node -> node -> Prop :=
| Same_file : forall nm t fd fd' b, file_bytes c fd b -> file_bytes c fd' b ->
    same_tree c ts (NFile nm t fd) (NFile nm ts fd')
| Same_dir : forall nm t l l', Forall2 (same_tree c ts) l l' ->
    same_tree c ts (NDir nm t l) (NDir nm ts l').

(** Mounting the bytes returns this tree (for every sufficiently large step bound). *)
Definition mounts_to (k : clock) (pol : policy) (root : node) (buf : bytes) (root' : node) : Prop :=
  exists n, forall fuel, (n <= fuel)%nat -> mount_disk fuel k pol root buf = Ret root'.
(** Mounting the bytes never returns. *)
Definition mount_hangs (k : clock) (pol : policy) (root : node) (buf : bytes) : Prop :=
  forall fuel, mount_disk fuel k pol root buf = Fuel.

(** Every file node in the tree refers to bytes of its buffer, or claims more than 4 GiB. *)
Inductive in_bounds_mod : node -> Prop :=
| Im_file : forall nm t fd, fd_off fd + fd_size fd <= len (fd_buf fd) \/ 2 ^ 32 <= fd_off fd + fd_size fd ->
    in_bounds_mod (NFile nm t fd)
| Im_dir : forall nm t l, Forall in_bounds_mod l -> in_bounds_mod (NDir nm t l).

(** Every file node in the tree refers to bytes of its buffer. *)
Inductive in_bounds : node -> Prop :=
| Ib_file : forall nm t fd, fd_off fd + fd_size fd <= len (fd_buf fd) -> in_bounds (NFile nm t fd)
| Ib_dir : forall nm t l, Forall in_bounds l -> in_bounds (NDir nm t l).
