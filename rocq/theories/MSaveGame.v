(** Model of the save game directories of src/SaveGame.cc:251-386.

    The file system is a POSIX one without symbolic links, used by one process, with enough space
    and without errors of the device.  [Read::from(path)] maps the file into memory
    (src/MmapPosix.cc): a directory can be opened, the failure to map it goes unnoticed, and
    reading is undefined behavior.  [Write::to(path)] (Stream.cc:335-367) is an [std::ofstream]
    whose errors are ignored: what is written to a file that cannot be opened is lost. *)

From Coq Require Import String.
From Verif Require Import MBase MStream MText MClasses MArchive SArchive MVob MCutscene MWorld MLib MSave MTexture.
From Verif Require MVfs.
Local Open Scope N_scope.

(* ------------------------------------------------------------------ *)
(** * Directories and files *)

(** A place: the names from the root on. *)
Definition loc := list bytes.
Inductive dent := DDir | DFile (b : bytes).
(** What there is, in an order in which it could have been made. *)
Definition disk := list (loc * dent).

Fixpoint loc_eqb (a b : loc) : bool :=
  match a, b with
  | [], [] => true
  | x :: a', y :: b' => bytes_eqb x y && loc_eqb a' b'
  | _, _ => false
  end.
(** The rest of [l] below [p]. *)
Fixpoint below (p l : loc) : option loc :=
  match p, l with
  | [], _ => Some l
  | x :: p', y :: l' => if bytes_eqb x y then below p' l' else None
  | _ :: _, [] => None
  end.
Fixpoint assoc (d : disk) (l : loc) : option dent :=
  match d with [] => None | (k, e) :: d' => if loc_eqb k l then Some e else assoc d' l end.
Definition dget (d : disk) (l : loc) : option dent := match l with [] => Some DDir | _ => assoc d l end.
Fixpoint dset (d : disk) (l : loc) (e : dent) : disk :=
  match d with
  | [] => [(l, e)]
  | (k, x) :: d' => if loc_eqb k l then (k, e) :: d' else (k, x) :: dset d' l e
  end.
Definition ddel (d : disk) (l : loc) : disk := filter (fun p => negb (loc_eqb (fst p) l)) d.
Definition is_dir (d : disk) (l : loc) : bool := match dget d l with Some DDir => true | _ => false end.
Definition exists_at (d : disk) (l : loc) : bool := match dget d l with Some _ => true | None => false end.

(** What the program does to the file system, one system call (or one file's worth of writing) at
    a time. *)
Inductive step := SRemove (l : loc) | SMkdir (l : loc) | SWrite (l : loc) (b : bytes).
(** An [std::ofstream] can be opened if the directory exists and there is no directory at the place. *)
Definition writable (d : disk) (l : loc) : bool := is_dir d (removelast l) && negb (is_dir d l).
Definition run_step (d : disk) (s : step) : disk :=
  match s with
  | SRemove l => ddel d l
  | SMkdir l => if exists_at d l then d else dset d l DDir
  | SWrite l b => if writable d l then dset d l (DFile b) else d
  end.
Definition run_steps (d : disk) (l : list step) : disk := fold_left run_step l d.

(* ------------------------------------------------------------------ *)
(** * Paths *)

(** [std::filesystem::path]: text with slashes.  NUL bytes are not modelled. *)
Definition path := bytes.
Fixpoint pieces_from (cur : bytes) (p : path) : list bytes :=
  match p with
  | [] => match cur with [] => [] | _ => [cur] end
  | c :: p' =>
      if beq c x2f then match cur with [] => pieces_from [] p' | _ => cur :: pieces_from [] p' end
      else pieces_from (cur ++ [c]) p'
  end.
Definition pieces (p : path) : list bytes := pieces_from [] p.
Definition starts_slash (p : path) : bool := match p with c :: _ => beq c x2f | [] => false end.
Definition ends_slash (p : path) : bool := starts_slash (rev p).
(** [operator==]: the same elements; a slash at the end makes an empty one. *)
Definition same_path (p q : path) : bool :=
  Bool.eqb (starts_slash p) (starts_slash q) && loc_eqb (pieces p) (pieces q) &&
  match pieces p with [] => true | _ => Bool.eqb (ends_slash p) (ends_slash q) end.
(** Where a path leads.  Simplification: what is in front of a ".." is not looked at. *)
Definition walk (l : loc) (n : bytes) : loc :=
  if bytes_eqb n (lit ".") then l else if bytes_eqb n (lit "..") then removelast l else l ++ [n].
Definition locate (cwd : loc) (p : path) : loc :=
  fold_left walk (pieces p) (if starts_slash p then [] else cwd).
(** [operator/] *)
Definition join (p q : path) : path :=
  if starts_slash q then q else match p with [] => q | _ => if ends_slash p then p ++ q else p ++ x2f :: q end.
(** The parts in front of and behind the last [c]; [None] without one. *)
Fixpoint cut_last (c : byte) (s : bytes) : option (bytes * bytes) :=
  match s with
  | [] => None
  | x :: s' =>
      match cut_last c s' with
      | Some (a, b) => Some (x :: a, b)
      | None => if beq x c then Some ([], s') else None
      end
  end.
(** [replace_extension] of a file name, and of a path. *)
Definition name_with_ext (n ext : bytes) : bytes :=
  (if bytes_eqb n (lit "..") then n
   else match cut_last x2e n with Some (x :: a, _) => x :: a | _ => n end) ++ x2e :: ext.
Definition with_ext (p : path) (ext : bytes) : path :=
  match cut_last x2f p with Some (a, n) => a ++ x2f :: name_with_ext n ext | None => name_with_ext p ext end.

(* ------------------------------------------------------------------ *)
(** * Operations of the standard library *)

(** [exists]: the empty path leads nowhere. *)
Definition there (d : disk) (cwd : loc) (p : path) : bool := match p with [] => false | _ => exists_at d (locate cwd p) end.
(** [remove_all]: what is in a directory before the directory. *)
Definition removal (d : disk) (l : loc) : list step :=
  rev (map (fun p => SRemove (fst p)) (filter (fun p => match below l (fst p) with Some _ => true | None => false end) d)).
(** [copy] of [src] to [dst], recursively: only the last name of [dst] is made.  Copying a
    directory into itself is not modelled ([Undef]). *)
Definition copying (d : disk) (src dst : loc) : list step * outcome unit :=
  if negb (is_dir d (removelast dst)) then ([], Throw OtherExn)
  else match below src dst with
  | Some _ => ([], Undef)
  | None =>
      match dget d src with
      | Some (DFile b) => ([SWrite dst b], Ret tt)
      | _ =>
          (SMkdir dst ::
           flat_map (fun p => match below src (fst p) with
             | None | Some [] => []
             | Some r => [match snd p with DDir => SMkdir (dst ++ r) | DFile b => SWrite (dst ++ r) b end]
             end) d, Ret tt)
      end
  end.
(** [create_directories]: fails when there is a file on the way. *)
Fixpoint making (d : disk) (done l : loc) : list step * outcome unit :=
  match l with
  | [] => ([], Ret tt)
  | n :: l' =>
      match dget d (done ++ [n]) with
      | Some (DFile _) => ([], Throw OtherExn)
      | Some DDir => making d (done ++ [n]) l'
      | None => let '(s, o) := making d (done ++ [n]) l' in (SMkdir (done ++ [n]) :: s, o)
      end
  end.

(* ------------------------------------------------------------------ *)
(** * SaveGame *)

(** SaveGame.hh:140-157 [SaveGame]; [sg_graph] are the objects the state refers to.  The version
    is part of the configuration. *)
Record sgame := mkSg {
  sg_meta : savemeta; sg_state : sstate; sg_graph : oid -> option object; sg_thumb : option texture; sg_path : path }.
(** SaveGame.cc:251, SaveGame.hh:150-152 *)
Definition sg_new : sgame :=
  mkSg (mk_savemeta [] [] 0 0 0 [] 0 0 0 0 0 []) st_new (fun _ => None) None [].

(** SaveGame.cc:331-341: make the directory ready, copying over the save game that was loaded. *)
Definition prepare (d : disk) (cwd : loc) (from to : path) : list step * outcome unit :=
  if same_path from to then ([], Ret tt)
  else
    let rm := if there d cwd to then removal d (locate cwd to) else [] in
    let d1 := run_steps d rm in
    let '(s, o) := if there d1 cwd from then copying d1 (locate cwd from) (locate cwd to) else making d1 [] (locate cwd to) in
    (rm ++ s, o).
(** One file after the other.  When writing one fails with an exception part of it is there
    (here: nothing of it). *)
Fixpoint write_files (l : list (loc * outcome bytes)) : list step * outcome unit :=
  match l with
  | [] => ([], Ret tt)
  | (p, Ret b) :: l' => let '(s, o) := write_files l' in (SWrite p b :: s, o)
  | (p, Throw e) :: _ => ([SWrite p []], Throw e)
  | (p, Undef) :: _ => ([SWrite p []], Undef)
  | (p, Fuel) :: _ => ([SWrite p []], Fuel)
  end.
(** SaveGame.cc:344-381: the five files.  [e] are the environments of the headers of the archives;
    the world is the object [root] of [W]. *)
Definition file_thumb (t : option texture) : outcome bytes :=
  match t with
  | None => Ret []
  | Some t => match tex_save t w_empty with Ret (_, s) => Ret (wbuf s) | Throw x => Throw x | Undef => Undef | Fuel => Fuel end
  end.
Definition file_world (c : cfg) (e1 e2 : wenv) (W : oid -> option object) (root : oid) (fuel : nat) : outcome bytes :=
  save_archive ABinary e1 e2 true (g_graph (library c) W) fuel (lit "%") (Some root).
Definition files (c : cfg) (e : nat -> wenv) (fuel : nat) (g : sgame) (W : oid -> option object) (root : oid) (name : bytes)
    : list (bytes * outcome bytes) :=
  [(lit "SAVEINFO.SAV", save_saveinfo c (e 0%nat) (e 1%nat) fuel (sg_meta g));
   (lit "THUMB.SAV", file_thumb (sg_thumb g));
   (lit "SAVEHDR.SAV", Ret (name ++ lit ".ZEN" ++ [x0a]));
   (lit "SAVEDAT.SAV", save_savedat c (e 2%nat) (e 3%nat) (sg_graph g) fuel (sg_state g));
   (name ++ lit ".SAV", file_world c (e 4%nat) (e 5%nat) W root fuel)].
(** SaveGame.cc:329-382 *)
Definition sg_save (d : disk) (cwd : loc) (c : cfg) (e : nat -> wenv) (fuel : nat) (g : sgame) (to : path)
    (W : oid -> option object) (root : oid) (name : bytes) : list step * outcome sgame :=
  let '(s, o) := prepare d cwd (sg_path g) to in
  match o with
  | Ret _ =>
      let '(s', o') := write_files (map (fun p => (locate cwd (join to (fst p)), snd p)) (files c e fuel g W root name)) in
      (s ++ s', match o' with
                | Ret _ => Ret (mkSg (sg_meta g) (sg_state g) (sg_graph g) (sg_thumb g) to)
                | Throw x => Throw x | Undef => Undef | Fuel => Fuel
                end)
  | Throw x => (s, Throw x) | Undef => (s, Undef) | Fuel => (s, Fuel)
  end.

(** [std::set<path>] holds the names in the order of their bytes. *)
Fixpoint bytes_ltb (a b : bytes) : bool :=
  match a, b with
  | _, [] => false
  | [], _ :: _ => true
  | x :: a', y :: b' => if b2n x <? b2n y then true else if b2n y <? b2n x then false else bytes_ltb a' b'
  end.
Definition least (l : list bytes) : option bytes :=
  fold_right (fun n m => match m with None => Some n | Some k => if bytes_ltb k n then Some k else Some n end) None l.
(** [directory_iterator] *)
Definition names_in (d : disk) (l : loc) : list bytes :=
  flat_map (fun p => match below l (fst p) with Some [n] => [n] | _ => [] end) d.
(** SaveGame.cc:253-264 [find_file_matching] *)
Definition find_file (d : disk) (l : loc) (name : bytes) : option bytes :=
  least (filter (fun n => MVfs.iequals n name) (names_in d l)).
(** [Read::from(path)] *)
Definition read_file (d : disk) (l : loc) : outcome bytes :=
  match dget d l with Some (DFile b) => Ret b | Some DDir => Undef | None => Throw OtherExn end.
(** The objects of a heap. *)
Definition heap_graph (h : heap object) : oid -> option object :=
  fun r => match nth_N h r with Some (mkHobj _ _ x) => x | None => None end.
(** The texture a file holds; SaveGame.cc:309-312. *)
Definition load_thumb (b : bytes) : outcome texture :=
  match tex_load tex_new (mkR b 0) with Ret (t, _) => Ret t | Throw x => Throw x | Undef => Undef | Fuel => Fuel end.
(** SaveGame.cc:277-327.  The member being read when an exception is thrown is left as it was; in
    the code it may have changed in part. *)
Definition sg_load (d : disk) (cwd : loc) (c : cfg) (fuel : nat) (g : sgame) (p : path) : sgame * outcome unit :=
  let l := locate cwd p in
  let g1 := mkSg (sg_meta g) (sg_state g) (sg_graph g) (sg_thumb g) p in
  if negb (match p with [] => false | _ => is_dir d l end) then (g1, Throw ParserError)
  else
    match find_file d l (lit "SAVEINFO.SAV") with
    | None => (g1, Throw ParserError)
    | Some n =>
        match obind (read_file d (l ++ [n])) (load_saveinfo c fuel) with
        | Throw x => (g1, Throw x) | Undef => (g1, Undef) | Fuel => (g1, Fuel)
        | Ret m =>
            let g2 := mkSg m (sg_state g) (sg_graph g) (sg_thumb g) p in
            let '(t, o) := match find_file d l (lit "THUMB.SAV") with
                           | None => (sg_thumb g, Ret tt)
                           | Some n =>
                               match obind (read_file d (l ++ [n])) load_thumb with
                               | Ret t => (Some t, Ret tt)
                               | Throw x => (Some tex_new, Throw x) | Undef => (Some tex_new, Undef) | Fuel => (Some tex_new, Fuel)
                               end
                           end in
            let g3 := mkSg m (sg_state g) (sg_graph g) t p in
            match o with
            | Throw x => (g3, Throw x) | Undef => (g3, Undef) | Fuel => (g3, Fuel)
            | Ret _ =>
                match find_file d l (lit "SAVEDAT.SAV") with
                | None => (g3, Throw ParserError)
                | Some n =>
                    match obind (read_file d (l ++ [n])) (load_savedat c fuel (sg_state g)) with
                    | Throw x => (g3, Throw x) | Undef => (g3, Undef) | Fuel => (g3, Fuel)
                    | Ret (s, h) => (mkSg m s (heap_graph h) t p, Ret tt)
                    end
                end
            end
        end
    end.
(** SaveGame.cc:266-275: the world and what it refers to. *)
Definition sg_load_world (d : disk) (cwd : loc) (c : cfg) (fuel : nat) (g : sgame) (name : bytes) : outcome (option (oid * heap object)) :=
  let p := with_ext (join (sg_path g) name) (lit "SAV") in
  if negb (there d cwd p) then Ret None
  else
    match obind (read_file d (locate cwd p)) (load_top (c_load (library c)) (c_flags (library c)) fuel (p_obj oCWorld)) with
    | Ret (Some r, h) => Ret (Some (r, h))
    | Ret (None, _) => Ret None
    | Throw x => Throw x | Undef => Undef | Fuel => Fuel
    end.
(** SaveGame.cc:384-386 *)
Definition sg_load_current (d : disk) (cwd : loc) (c : cfg) (fuel : nat) (g : sgame) : outcome (option (oid * heap object)) :=
  sg_load_world d cwd c fuel g (savemeta_world (sg_meta g) ++ lit ".ZEN").
