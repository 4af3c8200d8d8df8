(** Model of src/Vfs.cc, include/zenkit/Vfs.hh and the name comparison of src/Misc.cc.

    The build option [_ZK_WITH_ZIPPED_VDF] is on.  Pointers to nodes are modelled as
    locations: the list of stored names from the root.  [std::get] on the wrong alternative
    is [Throw OtherExn] ([std::bad_variant_access]); the same inside a [noexcept] function is
    [Undef] (the process terminates).  Reference counts of file descriptors are not modelled. *)

From Verif Require Import MBase MStream MZipped.
Local Open Scope N_scope.
Local Open Scope m_scope.

(* ------------------------------------------------------------------ *)
(** * Names *)

(** [std::tolower] in the "C" locale on a (signed) [char]. *)
Definition tolower (c : byte) : Z :=
  let n := b2n c in
  if (65 <=? n) && (n <=? 90) then Z.of_N (n + 32) else sint 8 n.

(** Misc.cc:11-15 *)
Fixpoint iequals (a b : bytes) : bool :=
  match a, b with
  | [], [] => true
  | x :: a', y :: b' => (tolower x =? tolower y)%Z && iequals a' b'
  | _, _ => false
  end.

(** Misc.cc:17-21, [std::lexicographical_compare]. *)
Fixpoint icompare (a b : bytes) : bool :=
  match a, b with
  | _, [] => false
  | [], _ :: _ => true
  | x :: a', y :: b' =>
      if (tolower x <? tolower y)%Z then true
      else if (tolower y <? tolower x)%Z then false
      else icompare a' b'
  end.

(** [std::isspace] in the "C" locale. *)
Definition isspace (c : byte) : bool :=
  let n := b2n c in (n =? 32) || ((9 <=? n) && (n <=? 13)).

(** Vfs.cc:81-87 *)
Fixpoint trim_rev (r : bytes) : bytes :=
  match r with
  | c :: r' => if isspace c then trim_rev r' else r
  | [] => []
  end.
Definition trim (s : bytes) : bytes := rev (trim_rev (rev s)).

(* ------------------------------------------------------------------ *)
(** * Nodes *)

(** Vfs.hh:39-51: a window of a memory object. *)
Record fdesc := mkFd { fd_buf : bytes; fd_off : N; fd_size : N; fd_raw : N; fd_zip : bool }.

(** Vfs.cc:41-42 *)
Definition make_fd (buf : bytes) (off size : N) (zip : bool) (raw : N) : fdesc :=
  mkFd buf off size (if raw =? 0 then size else raw) zip.

(** Vfs.hh:63-94.  The children of a directory are the elements of the [std::set] in
    iteration order. *)
Inductive node :=
| NFile (name : bytes) (time : Z) (fd : fdesc)
| NDir (name : bytes) (time : Z) (children : list node).

Definition nname (n : node) : bytes := match n with NFile x _ _ => x | NDir x _ _ => x end.
Definition ntime (n : node) : Z := match n with NFile _ t _ => t | NDir _ t _ => t end.
Definition is_file (n : node) : bool := match n with NFile _ _ _ => true | NDir _ _ _ => false end.

(** [std::set<VfsNode, VfsNodeComparator>] as its sorted element sequence: [find] by a
    transparent key, [insert] (no effect if an equivalent element exists), [erase]. *)
Fixpoint set_find (x : bytes) (l : list node) : option node :=
  match l with
  | [] => None
  | c :: l' =>
      if icompare (nname c) x then set_find x l'
      else if icompare x (nname c) then None
      else Some c
  end.
Fixpoint set_insert (n : node) (l : list node) : list node :=
  match l with
  | [] => [n]
  | c :: l' =>
      if icompare (nname c) (nname n) then c :: set_insert n l'
      else if icompare (nname n) (nname c) then n :: c :: l'
      else c :: l'
  end.
Fixpoint set_erase (x : bytes) (l : list node) : list node :=
  match l with
  | [] => []
  | c :: l' =>
      if icompare (nname c) x then c :: set_erase x l'
      else if icompare x (nname c) then c :: l'
      else l'
  end.

(** Vfs.cc:89-105 [VfsNode::child] *)
Definition find_child (l : list node) (name : bytes) : option node :=
  let name := trim name in
  match set_find name l with
  | Some c => if iequals (nname c) name then Some c else None
  | None => None
  end.
Definition child (n : node) (name : bytes) : outcome (option node) :=
  match n with
  | NFile _ _ _ => Throw OtherExn
  | NDir _ _ l => Ret (find_child l name)
  end.

(** Vfs.cc:115-124 [VfsNode::remove] *)
Definition remove_kid (l : list node) (name : bytes) : bool * list node :=
  match find_child l name with
  | Some _ => (true, set_erase (trim name) l)
  | None => (false, l)
  end.
Definition remove_child (n : node) (name : bytes) : outcome (bool * node) :=
  match n with
  | NFile _ _ _ => Throw OtherExn
  | NDir nm t l => let (b, l') := remove_kid l name in Ret (b, NDir nm t l')
  end.

(** Vfs.cc:107-113 [VfsNode::create] *)
Definition create_kid (l : list node) (k : node) : list node :=
  set_insert k (snd (remove_kid l (nname k))).
Definition create (n k : node) : outcome node :=
  match n with
  | NFile _ _ _ => Throw OtherExn
  | NDir nm t l => Ret (NDir nm t (create_kid l k))
  end.

(** Vfs.cc:146-160 *)
Definition directory (name : bytes) (t : Z) : node := NDir name t [].

(** Vfs.cc:126-144 [open_read] *)
Inductive reader := RPlain (s : rstate) | RZip (z : zstate).
Definition window (fd : fdesc) (size : N) : outcome bytes :=
  if len (fd_buf fd) <? fd_off fd + size then Undef else Ret (take size (drop (fd_off fd) (fd_buf fd))).
Definition open_fd (fd : fdesc) : outcome reader :=
  if fd_zip fd then
    obind (window fd (fd_size fd)) (fun m =>
    obind (from_zipped (r_from m)) (fun z =>
    match z with
    | Some z => Ret (RZip z)
    | None => obind (window fd (fd_raw fd)) (fun m => Ret (RPlain (r_from m)))
    end))
  else obind (window fd (fd_size fd)) (fun m => Ret (RPlain (r_from m))).

(* ------------------------------------------------------------------ *)
(** * Paths *)

(** [path.find('/')] *)
Fixpoint find_slash (p : bytes) : option N :=
  match p with
  | [] => None
  | c :: p' => if beq c x2f then Some 0 else match find_slash p' with Some i => Some (i + 1) | None => None end
  end.

(** Vfs.cc:176-195 [Vfs::resolve]; the result is the location and the node.  An exception
    from [child] leaves the [noexcept] function: [Undef].  The path shrinks in every
    iteration, so its length + 1 iterations suffice. *)
Fixpoint resolve_f (fuel : nat) (loc : list bytes) (ctx : node) (path : bytes)
  : outcome (option (list bytes * node)) :=
  match fuel with
  | O => Fuel
  | S f =>
      match path with
      | [] => Ret (Some (loc, ctx))
      | _ =>
          match find_slash path with
          | Some 0 => resolve_f f loc ctx (drop 1 path)
          | next =>
              let name := match next with Some i => take i path | None => path end in
              match child ctx name with
              | Ret None => Ret None
              | Ret (Some c) =>
                  match next with
                  | None => Ret (Some (loc ++ [nname c], c))
                  | Some i => resolve_f f (loc ++ [nname c]) c (drop (i + 1) path)
                  end
              | _ => Undef
              end
          end
      end
  end.
Definition resolve_loc (root : node) (path : bytes) : outcome (option (list bytes * node)) :=
  resolve_f (S (length path)) [] root path.
Definition resolve (root : node) (path : bytes) : outcome (option node) :=
  obind (resolve_loc root path) (fun r => Ret (match r with Some (_, n) => Some n | None => None end)).

(** Writing through a pointer: replace the node at a location. *)
Fixpoint upd_first (x : bytes) (f : node -> node) (l : list node) : list node :=
  match l with
  | [] => []
  | c :: l' => if bytes_eqb (nname c) x then f c :: l' else c :: upd_first x f l'
  end.
Fixpoint upd_at (loc : list bytes) (f : node -> node) (n : node) : node :=
  match loc with
  | [] => f n
  | x :: loc' =>
      match n with
      | NFile _ _ _ => n
      | NDir nm t l => NDir nm t (upd_first x (upd_at loc' f) l)
      end
  end.
(** Reading through a pointer. *)
Fixpoint get_at (loc : list bytes) (n : node) : option node :=
  match loc with
  | [] => Some n
  | x :: loc' =>
      match n with
      | NFile _ _ _ => None
      | NDir _ _ l =>
          match find (fun c => bytes_eqb (nname c) x) l with
          | Some c => get_at loc' c
          | None => None
          end
      end
  end.

(** Vfs.cc:197-215 [Vfs::find]: the stack holds directories; [fuel] bounds the iterations. *)
Fixpoint find_f (fuel : nat) (name : bytes) (stack : list node) : outcome (option node) :=
  match fuel with
  | O => Fuel
  | S f =>
      match stack with
      | [] => Ret None
      | NFile _ _ _ :: _ => Undef
      | NDir _ _ l :: rest =>
          match find_child l name with
          | Some c => Ret (Some c)
          | None => find_f f name (rev (filter (fun c => negb (is_file c)) l) ++ rest)
          end
      end
  end.
(** Vfs.cc:225-235 [count_nodes], as an unbounded number. *)
Fixpoint count_nodes (n : node) : N :=
  match n with
  | NFile _ _ _ => 1
  | NDir _ _ l => 1 + fold_right (fun c s => count_nodes c + s) 0 l
  end.
Definition vfs_find (root : node) (name : bytes) : outcome (option node) :=
  find_f (S (N.to_nat (count_nodes root))) name [root].

(** Vfs.cc:174 *)
Definition vfs_empty : node := NDir [x2f] (-1) [].

(** Vfs.cc:502-528 [Vfs::mkdir]: the tree afterwards and the result (the location of the
    directory).  [now] is the system clock: it may answer differently in each iteration. *)
Fixpoint mkdir_f (fuel : nat) (now : bytes -> Z) (root : node) (loc : list bytes) (path : bytes)
  : node * outcome (list bytes) :=
  match fuel with
  | O => (root, Fuel)
  | S f =>
      match path with
      | [] => (root, Ret loc)
      | _ =>
          match find_slash path with
          | Some 0 => mkdir_f f now root loc (drop 1 path)
          | next =>
              let name := match next with Some i => take i path | None => path end in
              let go root' loc' :=
                match next with
                | None => (root', Ret loc')
                | Some i => mkdir_f f now root' loc' (drop (i + 1) path)
                end in
              match get_at loc root with
              | None => (root, Undef)
              | Some ctx =>
                  match child ctx name with
                  | Ret (Some it) =>
                      if is_file it then (root, Throw VfsFileExists) else go root (loc ++ [nname it])
                  | Ret None =>
                      match create ctx (directory name (now path)) with
                      | Ret (NDir nm t l) =>
                          (* the node the insertion returned *)
                          match set_find name l with
                          | Some it => go (upd_at loc (fun _ => NDir nm t l) root) (loc ++ [nname it])
                          | None => (root, Undef)
                          end
                      | Ret (NFile _ _ _) => (root, Undef)
                      | Throw e => (root, Throw e)
                      | Undef => (root, Undef)
                      | Fuel => (root, Fuel)
                      end
                  | Throw e => (root, Throw e)
                  | Undef => (root, Undef)
                  | Fuel => (root, Fuel)
                  end
              end
          end
      end
  end.
Definition mkdir (now : bytes -> Z) (root : node) (path : bytes) : node * outcome (list bytes) :=
  mkdir_f (S (length path)) now root [] path.

(** [path.rfind('/')] *)
Definition rfind_slash (p : bytes) : option N :=
  match find_slash (rev p) with Some i => Some (len p - 1 - i) | None => None end.

(** Vfs.cc:531-533: the parent path and the last name. *)
Definition split_parent (path : bytes) : bytes * bytes :=
  match rfind_slash path with
  | Some i => (take i path, drop (i + 1) path)
  | None => ([], path)
  end.

(** Vfs.cc:530-538 [Vfs::remove] *)
Definition vfs_remove (root : node) (path : bytes) : outcome (bool * node) :=
  let '(parent, name) := split_parent path in
  obind (resolve_loc root parent) (fun r =>
  match r with
  | None => Ret (false, root)
  | Some (loc, p) =>
      obind (remove_child p name) (fun r => Ret (fst r, upd_at loc (fun _ => snd r) root))
  end).

(* ------------------------------------------------------------------ *)
(** * Mounting a node *)

(** Vfs.hh:96-101 *)
Inductive policy := ONone | OAll | ONewer | OOlder.

(** Vfs.cc:477-488, 662-677, 697-712: whether a conflicting node is kept. *)
Definition keeps (p : policy) (existing source : Z) : bool :=
  match p with
  | ONone => true
  | OAll => false
  | ONewer => (existing <=? source)%Z
  | OOlder => (source <=? existing)%Z
  end.

(** Vfs.cc:463-499: the work list pairs a source node with the location of its destination. *)
Fixpoint mount_f (fuel : nat) (pol : policy) (root : node) (work : list (node * list bytes)) : outcome node :=
  match fuel with
  | O => Fuel
  | S f =>
      match work with
      | [] => Ret root
      | (src, loc) :: rest =>
          match get_at loc root with
          | None => Undef
          | Some dest =>
              obind (child dest (nname src)) (fun existing =>
              match existing with
              | None =>
                  obind (create dest src) (fun dest' =>
                  mount_f f pol (upd_at loc (fun _ => dest') root) rest)
              | Some e =>
                  if is_file e || is_file src then
                    if keeps pol (ntime e) (ntime src) then mount_f f pol root rest
                    else
                      obind (remove_child dest (nname e)) (fun r =>
                      obind (create (snd r) src) (fun dest' =>
                      mount_f f pol (upd_at loc (fun _ => dest') root) rest))
                  else
                    match src with
                    | NFile _ _ _ => Undef
                    | NDir _ _ l =>
                        mount_f f pol root (rev (map (fun c => (c, loc ++ [nname e])) l) ++ rest)
                    end
              end)
          end
      end
  end.
(** Vfs.cc:450-500 [Vfs::mount]; every source node is processed at most once. *)
Definition mount (root src : node) (parent : bytes) (pol : policy) : outcome node :=
  obind (resolve_loc root parent) (fun r =>
  match r with
  | None => Throw VfsNotFound
  | Some (loc, p) =>
      if is_file p then Throw VfsFileExists
      else mount_f (S (N.to_nat (count_nodes src))) pol root [(src, loc)]
  end).

(** A directory of the host file system, as [std::filesystem::directory_iterator] shows it. *)
Inductive host := HFile (name : bytes) (time : Z) (data : bytes) | HDir (name : bytes) (time : Z) (l : list host).

(** Vfs.cc:545-575 [load_directory]: add the entries to a list of children. *)
Fixpoint load_host (l : list node) (h : host) : list node :=
  match h with
  | HFile name t data =>
      if 0 <? len data then create_kid l (NFile name t (make_fd data 0 (len data) false 0)) else l
  | HDir name t hs =>
      (* [create] returns the inserted (or, for an equivalent untrimmed name, the old) node;
         the entries below are added to it *)
      let l' := create_kid l (directory name t) in
      match set_find name l' with
      | Some it =>
          upd_first (nname it) (fun c => match c with
                                         | NDir nm tm k => NDir nm tm (fold_left load_host hs k)
                                         | NFile _ _ _ => c
                                         end) l'
      | None => l'
      end
  end.
(** Vfs.cc:540-582 [mount_host] *)
Definition mount_host (root : node) (hs : list host) (parent : bytes) (pol : policy) : outcome node :=
  fold_left (fun o c => obind o (fun r => mount r c parent pol)) (fold_left load_host hs []) (Ret root).

(* ------------------------------------------------------------------ *)
(** * Disk time *)

(** The C library's [struct tm], [gmtime] and [mktime]. *)
Record tm := mkTm { tm_year : Z; tm_mon : Z; tm_mday : Z; tm_hour : Z; tm_min : Z; tm_sec : Z }.
Record clock := mkClock { gmtime : Z -> tm; mktime : tm -> Z }.

(** Vfs.cc:237-249; shifts of negative or too large values are not representable in
    [int] and converted modulo 2^32. *)
Definition dos_pack (t : tm) : N :=
  let sh v k := uint 32 (v * 2 ^ k)%Z in
  N.lor (N.lor (N.lor (N.lor (N.lor
    (sh (tm_year t - 80)%Z 25%Z) (sh (tm_mon t + 1)%Z 21%Z)) (sh (tm_mday t) 16%Z)) (sh (tm_hour t) 11%Z))
    (sh (tm_min t) 5%Z)) (uint 32 (Z.quot (tm_sec t) 2)).
(** Vfs.cc:421-432 *)
Definition dos_unpack (dos : N) : tm :=
  let f k m := Z.of_N (N.land (N.shiftr dos k) m) in
  mkTm (f 25%N 127%N + 80) (f 21%N 15%N - 1) (f 16%N 31%N) (f 11%N 31%N) (f 5%N 63%N) (f 0%N 31%N * 2).

(* ------------------------------------------------------------------ *)
(** * Saving a disk *)

Definition sig_g1 : bytes := lit "PSVDSC_V2.00" ++ [x0d; x0a; x0d; x0a].
Definition sig_g2 : bytes := lit "PSVDSC_V2.00" ++ [x0a; x0d; x0a; x0d].
Definition sig_tool : bytes := lit "PSVDSC_V2.00" ++ [x1a; x1a; x1a; x1a].
(** Vfs.cc:31-32 *)
Definition flag_normal : N := 80.
Definition flag_zipped : N := 160.
Definition header_size : N := 296.

(** Vfs.cc:257-261 *)
Definition is_wave_file (name : bytes) : bool :=
  if len name <? 4 then false
  else let ext := drop (len name - 4) name in iequals ext (lit ".wav") || iequals ext (lit ".ogg").

(** [std::string::resize] *)
Definition resize (n : N) (c : byte) (s : bytes) : bytes := take n s ++ repeat c (N.to_nat (n - len s)).

(** The variables of [save_internal]: the catalog buffer, the output, the reused content
    buffer and the counters. *)
Record saver := mkSv { sv_cat : wstate; sv_out : wstate; sv_cache : bytes; sv_index : N; sv_files : N }.
Definition in_cat {A} (m : wr A) : M saver A := fun s =>
  match m (sv_cat s) with
  | Ret (a, c) => Ret (a, mkSv c (sv_out s) (sv_cache s) (sv_index s) (sv_files s))
  | Throw e => Throw e
  | Undef => Undef
  | Fuel => Fuel
  end.
Definition in_out {A} (m : wr A) : M saver A := fun s =>
  match m (sv_out s) with
  | Ret (a, c) => Ret (a, mkSv (sv_cat s) c (sv_cache s) (sv_index s) (sv_files s))
  | Throw e => Throw e
  | Undef => Undef
  | Fuel => Fuel
  end.
Definition next_index : M saver unit := fun s =>
  Ret (tt, mkSv (sv_cat s) (sv_out s) (sv_cache s) (u32 (sv_index s + 1)) (sv_files s)).
Definition next_file : M saver unit := fun s =>
  Ret (tt, mkSv (sv_cat s) (sv_out s) (sv_cache s) (sv_index s) (u32 (sv_files s + 1))).

(** Vfs.cc:336-342: seek to the end, take the position as the size, read that many bytes
    from the beginning into the reused buffer. *)
Definition slurp (c : codec) (rd0 : reader) : outcome (N * bytes) :=
  match rd0 with
  | RPlain s =>
      match (rd_seek 0 END ;; let* sz := rd_tell in rd_seek 0 BEG ;; let* b := rd_read sz in ret (sz, b)) s with
      | Ret (r, _) => Ret r
      | Throw e => Throw e
      | Undef => Undef
      | Fuel => Fuel
      end
  | RZip z =>
      match (zseek 0 END ;; let* sz := ztell in zseek 0 BEG ;; let* b := zread c sz in ret (sz, b)) z with
      | Ret (r, _) => Ret r
      | Throw e => Throw e
      | Undef => Undef
      | Fuel => Fuel
      end
  end.
Definition load_cache (c : codec) (fd : fdesc) : M saver (N * bytes) := fun s =>
  obind (open_fd fd) (fun r => obind (slurp c r) (fun q =>
  let '(sz, b) := q in
  let cache := resize sz x00 (sv_cache s) in
  let cache' := b ++ drop (len b) cache in
  Ret ((sz, cache'), mkSv (sv_cat s) (sv_out s) cache' (sv_index s) (sv_files s)))).

(** Vfs.cc:329-370, one child; the result is the catalog position to patch, for directories. *)
Definition save_entry (c : codec) (compressed : bool) (last : bool) (k : node) : M saver (list N) :=
  in_cat (write_string (resize 64 x20 (nname k))) ;;
  let* offs := match k with
  | NFile name _ fd =>
      let* q := load_cache c fd in
      let '(sz, data) := q in
      let* here := in_out wr_tell in
      in_cat (write_uint (u32 here)) ;;
      in_cat (write_uint (u32 sz)) ;;
      in_cat (write_uint (if last then 1073741824 else 0)) ;;
      in_out (if compressed && negb (is_wave_file name) then write_zipped c data else wr_write data) ;;
      next_file ;;
      ret []
  | NDir _ _ _ =>
      let* here := in_cat wr_tell in
      in_cat (write_uint 0) ;;
      in_cat (write_uint 0) ;;
      in_cat (write_uint (if last then 3221225472 else 2147483648)) ;;
      ret [u32 here]
  end in
  in_cat (write_uint 0) ;;
  next_index ;;
  ret offs.

Fixpoint save_entries (c : codec) (compressed : bool) (l : list node) : M saver (list N) :=
  match l with
  | [] => ret []
  | k :: l' =>
      let* a := save_entry c compressed (match l' with [] => true | _ => false end) k in
      let* b := save_entries c compressed l' in
      ret (a ++ b)
  end.

(** Vfs.cc:373-376 *)
Definition patch_index (off : N) : M saver unit :=
  let* here := in_cat wr_tell in
  in_cat (wr_seek (Z.of_N off) BEG) ;;
  let* s := get in
  in_cat (write_uint (sv_index s)) ;;
  in_cat (wr_seek (sint 64 here) BEG).

(** Vfs.cc:325-380 [write_node]: [dirs] is the list of the directory children with their
    catalog positions; here the positions are kept and the children visited again. *)
Fixpoint write_node (c : codec) (compressed : bool) (n : node) : M saver unit :=
  match n with
  | NFile _ _ _ => throw OtherExn
  | NDir _ _ l =>
      let* offs := save_entries c compressed l in
      (fix go (l : list node) (offs : list N) : M saver unit :=
         match l with
         | [] => ret tt
         | (NFile _ _ _) :: l' => go l' offs
         | ((NDir _ _ _) as d) :: l' =>
             match offs with
             | [] => undef
             | o :: offs' => patch_index o ;; write_node c compressed d ;; go l' offs'
             end
         end) l offs
  end.

(** Vfs.cc:311-404 [save_internal].  [unix_t] = 0 stands for the current time in the code:
    here the caller passes the time that is stored. *)
Definition vfs_save (c : codec) (k : clock) (compressed : bool) (v : game) (unix_t : Z) (root : node) : wr unit :=
  fun w0 =>
  let catalog_size := u32 (u32 (count_nodes root - 1) * 80) in
  match (in_out (wr_seek (Z.of_N (u32 (header_size + catalog_size))) BEG) ;;
         write_node c compressed root) (mkSv w_empty w0 [] 0 0) with
  | Ret (_, s) =>
      (let* off := wr_tell in
       wr_seek 0 BEG ;;
       write_string (resize 256 x1a (lit "Created using ZenKit")) ;;
       write_string (match v with G1 => sig_g1 | G2 => sig_g2 end) ;;
       write_uint (sv_index s) ;;
       write_uint (sv_files s) ;;
       write_uint (dos_pack (gmtime k unix_t)) ;;
       write_uint (u32 (off + len (wbuf (sv_cat s)))) ;;
       write_uint header_size ;;
       write_uint (if compressed then flag_zipped else flag_normal) ;;
       wr_seek (Z.of_N header_size) BEG ;;
       wr_write (wbuf (sv_cat s))) (sv_out s)
  | Throw e => Throw e
  | Undef => Undef
  | Fuel => Fuel
  end.

(* ------------------------------------------------------------------ *)
(** * Mounting a disk *)

(** Vfs.cc:636-643: cut at the last non-space character, if there is one. *)
Definition entry_name (raw : bytes) : bytes :=
  match trim raw with [] => raw | s => s end.

(** Replace a child by its updated version (writing through the pointer [existing]). *)
Definition put_kid (l : list node) (name : bytes) (k : node) : list node := upd_first name (fun _ => k) l.

(** Vfs.cc:683-687: fill the directory [it], a child of [l]; [pos] is where its table is. *)
Definition enter_dir (rec : list node -> rd (list node)) (pos : N) (last : bool) (l : list node) (it : node)
  : rd (bool * list node) :=
  match it with
  | NFile _ _ _ => throw OtherExn
  | NDir nm t k =>
      let* self := rd_tell in
      rd_seek (Z.of_N pos) BEG ;;
      let* k' := rec k in
      rd_seek (sint 64 self) BEG ;;
      ret (last, put_kid l nm (NDir nm t k'))
  end.
(** Vfs.cc:658-659, 679-680: create the directory, then fill the node [create] returned. *)
Definition make_dir (rec : list node -> rd (list node)) (pos : N) (last : bool) (ts : Z) (name : bytes) (l : list node)
  : rd (bool * list node) :=
  let l' := create_kid l (directory name ts) in
  match set_find name l' with
  | Some it => enter_dir rec pos last l' it
  | None => undef
  end.

(** Vfs.cc:627-728 [load_entry]; the parent is a directory given by its parts; [rec] is the
    loop at line 685.  The result is [last] and the parent's new children. *)
Definition load_entry (pol : policy) (cat_off : N) (ts : Z) (zipped : bool) (buf : bytes)
  (rec : list node -> rd (list node)) (l : list node) : rd (bool * list node) :=
  let* raw := read_string 64 in
  let* off := read_uint in
  let* size := read_uint in
  let* ty := read_uint in
  let* _ := read_uint in
  let name := entry_name raw in
  let existing := find_child l name in
  let dir := negb (N.land ty 2147483648 =? 0) in
  let last := negb (N.land ty 1073741824 =? 0) in
  let pos := u32 (cat_off + u32 (off * 80)) in
  if dir then
    match existing with
    | None => make_dir rec pos last ts name l
    | Some e =>
        if is_file e then
          if keeps pol (ntime e) ts then ret (last, l) else make_dir rec pos last ts name (snd (remove_kid l name))
        else enter_dir rec pos last l e
    end
  else
    let n := len buf in
    if (if zipped then n <=? off else n <? u32 (off + size)) then ret (last, l)
    else
      let fd := make_fd buf off (if zipped then n - off else size) zipped size in
      match existing with
      | Some e =>
          if keeps pol (ntime e) ts then ret (last, l)
          else ret (last, create_kid (snd (remove_kid l name)) (NFile name ts fd))
      | None => ret (last, create_kid l (NFile name ts fd))
      end.

(** Vfs.cc:685, 731: [while (!load_entry(parent));] *)
Fixpoint load_table (fuel : nat) (pol : policy) (cat_off : N) (ts : Z) (zipped : bool) (buf : bytes)
  (l : list node) : rd (list node) :=
  match fuel with
  | O => fuelout
  | S f =>
      let* r := load_entry pol cat_off ts zipped buf (load_table f pol cat_off ts zipped buf) l in
      if fst r then ret (snd r) else load_table f pol cat_off ts zipped buf (snd r)
  end.

(** Vfs.cc:584-733 (and 434-444, which copies the stream's contents); [fuel] bounds the
    nesting plus the number of entries per table. *)
Definition mount_disk (fuel : nat) (k : clock) (pol : policy) (root : node) (buf : bytes) : outcome node :=
  match root with
  | NFile _ _ _ => Throw OtherExn
  | NDir nm t l =>
      match (let* _ := read_string 256 in
             let* sig := read_string 16 in
             let* _ := read_uint in
             let* _ := read_uint in
             let* dos := read_uint in
             let* _ := read_uint in
             let* cat_off := read_uint in
             let* flags := read_uint in
             if negb (bytes_eqb sig sig_tool || bytes_eqb sig sig_g1 || bytes_eqb sig sig_g2)
             then throw VfsBrokenDisk
             else
               let* here := rd_tell in
               let cat_off := if cat_off =? 0 then u32 here else cat_off in
               rd_seek (Z.of_N cat_off) BEG ;;
               load_table fuel pol cat_off (mktime k (dos_unpack dos)) (flags =? flag_zipped) buf l)
            (r_from buf) with
      | Ret (l', _) => Ret (NDir nm t l')
      | Throw e => Throw e
      | Undef => Undef
      | Fuel => Fuel
      end
  end.
