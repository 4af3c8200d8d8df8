(** Model of src/MmapPosix.cc and src/MmapWin32.cc: files mapped into memory, which
    [Read::from(path)] (Stream.cc:304-312, 451-453) and [Vfs::mount_disk(path)] (Vfs.cc:406-409) read from.

    A mapping is known by a number instead of an address; numbers are not used twice.  The file is
    not changed while it is mapped. *)

From Verif Require Import MBase.
Local Open Scope N_scope.

(** What a path leads to. *)
Inductive target := TNothing | TFile (b : bytes) | TDirectory (size : N).
(** What the operating system has open: descriptors and mappings. *)
Record os := mkOs { os_next : N; os_fds : list N; os_maps : list (N * bytes) }.
Definition os_new : os := mkOs 0 [] [].

(** A pointer: null, [MAP_FAILED], or the beginning of a mapping. *)
Inductive ptr := PNull | PFailed | PMap (id : N).
(** Mmap.hh:11-37, the members that matter. *)
Record mapped := mkMapped { m_data : ptr; m_size : N }.

(** How the calls end that can fail for reasons outside of the program. *)
Record luck := mkLuck { open_ok : bool; stat_ok : bool; map_ok : bool }.

Definition without (id : N) (l : list N) : list N := filter (fun x => negb (x =? id)) l.
Definition unmapped (id : N) (l : list (N * bytes)) : list (N * bytes) := filter (fun x => negb (fst x =? id)) l.

(** mmap(2): a length of zero, a directory and any failure of the system give [MAP_FAILED]. *)
Definition sys_mmap (t : target) (size : N) (ok : bool) (s : os) : ptr * os :=
  match t with
  | TFile b => if ok && negb (size =? 0) then (PMap (os_next s), mkOs (os_next s + 1) (os_fds s) (os_maps s ++ [(os_next s, take size b)])) else (PFailed, s)
  | _ => (PFailed, s)
  end.
(** The size [fstat] reports. *)
Definition sys_size (t : target) : N := match t with TFile b => len b | TDirectory n => n | TNothing => 0 end.

(** MmapPosix.cc:11-35.  [std::runtime_error] is [OtherExn].  The result of [mmap] is compared with null
    (line 25). *)
Definition map_open (t : target) (k : luck) (s : os) : outcome mapped * os :=
  match t with
  | TNothing => (Throw OtherExn, s)
  | _ =>
      if negb (open_ok k) then (Throw OtherExn, s) else
      let fd := os_next s in
      let s := mkOs (fd + 1) (os_fds s ++ [fd]) (os_maps s) in
      if negb (stat_ok k) then (Throw OtherExn, s) else
      let '(p, s) := sys_mmap t (sys_size t) (map_ok k) s in
      match p with
      | PNull => (Throw OtherExn, s)
      | _ => (Ret (mkMapped p (sys_size t)), mkOs (os_next s) (without fd (os_fds s)) (os_maps s))
      end
  end.
(** MmapPosix.cc:37-43, the move constructor: the new object and what is left of the old one. *)
Definition map_move (m : mapped) : mapped * mapped := (m, mkMapped PNull 0).
(** MmapPosix.cc:45-51, the destructor.  [munmap] of [MAP_FAILED] fails without effect. *)
Definition map_close (m : mapped) (s : os) : os :=
  match m_data m with
  | PMap id => mkOs (os_next s) (os_fds s) (unmapped id (os_maps s))
  | _ => s
  end.
(** Reading the byte [i] of the mapped data, or copying [n] bytes from there on. *)
Definition map_bytes (m : mapped) (i n : N) (s : os) : outcome bytes :=
  if n =? 0 then Ret []
  else match m_data m with
       | PMap id =>
           match find (fun x => fst x =? id) (os_maps s) with
           | Some (_, b) => if i + n <=? len b then Ret (take n (drop i b)) else Undef
           | None => Undef
           end
       | _ => Undef
       end.

(** MmapWin32.cc:15-40.  [GetFileSize] without a second argument gives the lower 32 bits; a mapping of
    size zero is one of the whole file, and an empty file cannot be mapped.  [MapViewOfFile] gives null if it fails,
    which nobody looks at.  Directories cannot be opened.  The handle stays open until the object is
    destroyed: it is not counted here. *)
Definition map_open_win (t : target) (k : luck) (s : os) : outcome mapped * os :=
  match t with
  | TFile b =>
      if negb (open_ok k) then (Throw OtherExn, s) else
      let size := u32 (len b) in
      if negb (stat_ok k) || (len b =? 0) then (Throw OtherExn, s)
      else if map_ok k then
        (Ret (mkMapped (PMap (os_next s)) size), mkOs (os_next s + 1) (os_fds s) (os_maps s ++ [(os_next s, if size =? 0 then b else take size b)]))
      else (Ret (mkMapped PNull size), s)
  | _ => (Throw OtherExn, s)
  end.

(* ------------------------------------------------------------------ *)
(** * Histories *)

(** What a program does with its mappings, each kept in a numbered place: open one in a free
    place, move one to a free place (as a growing vector or a reader that takes it over does), destroy one. *)
Inductive mop := MOpen (at_ : N) (t : target) (k : luck) | MMove (from to : N) | MClose (at_ : N).
Record mstate := mkMs { ms_os : os; ms_objs : list (N * (mapped * target)) }.
Definition ms_new : mstate := mkMs os_new [].
Definition obj_at (s : mstate) (i : N) : option (mapped * target) :=
  match find (fun x => fst x =? i) (ms_objs s) with Some x => Some (snd x) | None => None end.
Definition removed (i : N) (l : list (N * (mapped * target))) := filter (fun x => negb (fst x =? i)) l.
(** One operation; whether it threw.  Opening or moving to a place that is taken, and moving or destroying what is not
    there, do nothing. *)
Definition map_step (o : mop) (s : mstate) : mstate * bool :=
  match o with
  | MOpen i t k =>
      match obj_at s i with
      | Some _ => (s, false)
      | None =>
          let '(r, os') := map_open t k (ms_os s) in
          match r with
          | Ret m => (mkMs os' ((i, (m, t)) :: ms_objs s), false)
          | _ => (mkMs os' (ms_objs s), true)
          end
      end
  | MMove i j =>
      match obj_at s i, obj_at s j with
      | Some (m, t), None =>
          let '(new, old) := map_move m in
          (* The old object stays until it is destroyed, which then does nothing. *)
          (mkMs (map_close old (ms_os s)) ((j, (new, t)) :: removed i (ms_objs s)), false)
      | _, _ => (s, false)
      end
  | MClose i =>
      match obj_at s i with
      | Some (m, _) => (mkMs (map_close m (ms_os s)) (removed i (ms_objs s)), false)
      | None => (s, false)
      end
  end.
Fixpoint map_run (ops : list mop) (s : mstate) : mstate :=
  match ops with [] => s | o :: r => map_run r (fst (map_step o s)) end.
