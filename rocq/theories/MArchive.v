(** Model of the ZenGin archives: src/Archive.cc, include/zenkit/Archive.hh and the three
    encodings in src/archive/ArchiveBinary.cc, ArchiveBinsafe.cc and ArchiveAscii.cc.

    An archive is read and written through primitive operations (entries, object
    beginnings and ends, references); [prims] and [wprims] collect them, the three formats
    implement them over streams, and the object layer (reading and writing object graphs)
    is written once over them, as in the C++ base classes. *)

From Coq Require Import String.
From Verif Require Import MBase MStream MBoxes MText MClasses.
Local Open Scope N_scope.
Local Open Scope m_scope.

(** Archive.hh:21-29 [ArchiveFormat] *)
Inductive fmt := ABinary | ABinsafe | AAscii.

(** ** Entries *)
(** The typed values [ReadArchive] and [WriteArchive] transfer, Archive.hh:170-236 and 300-325.
    A colour is red, green, blue, alpha. *)
Record color := mkColor { c_r : N; c_g : N; c_b : N; c_a : N }.
Inductive entry :=
| EStr (s : bytes) | EInt (z : Z) | EFloat (x : N) | EByte (n : N) | EWord (n : N)
| EEnum (n : N) | EBool (b : bool) | EColor (c : color) | EVec3 (v : vec3) | EVec2 (v : vec2)
| EBox (b : aabb) | EMat3 (m : mat) | ERaw (b : bytes).
(** The reading operations; [KRaw n] is [read_raw(n)]. *)
Inductive kind :=
| KStr | KInt | KFloat | KByte | KWord | KEnum | KBool | KColor | KVec3 | KVec2 | KBox | KMat3
| KRaw (n : N).
Definition kval (k : kind) : Type :=
  match k with
  | KStr => bytes | KInt => Z | KFloat => N | KByte => N | KWord => N | KEnum => N | KBool => bool
  | KColor => color | KVec3 => vec3 | KVec2 => vec2 | KBox => aabb | KMat3 => mat | KRaw _ => bytes
  end.

(** Archive.hh:80-92 [ArchiveObject] *)
Record ohead := mkH { oh_name : bytes; oh_class : bytes; oh_ver : N; oh_idx : N }.

(* ------------------------------------------------------------------ *)
(** * Reading primitives *)

(** The reader: the stream and, for the binary format, [_m_object_end]
    (ArchiveBinary.hh:49).  The hash table of the safe binary format is read by
    [read_header] and not consulted by any operation modelled here. *)
Record rar := mkRar { ra_r : rstate; ra_ends : list N }.
Definition ard := M rar.
Definition rdl {A} (m : rd A) : ard A := fun s =>
  match m (ra_r s) with
  | Ret (a, r) => Ret (a, mkRar r (ra_ends s))
  | Throw e => Throw e | Undef => Undef | Fuel => Fuel
  end.
(** [read->seek(mark, Whence::BEG)] *)
Definition r_back (mark : N) : rd unit := rd_seek (sint 64 mark) BEG.

(** ** Binary *)
(** ArchiveBinary.cc:52-111 *)
Definition bin_read (k : kind) : rd (kval k) :=
  match k with
  | KStr => read_line false
  | KInt => read_int
  | KFloat => read_float
  | KByte => read_ubyte
  | KWord => read_ushort
  | KEnum => read_ubyte
  | KBool => let* n := read_ubyte in ret (negb (n =? 0))
  | KColor => let* b := read_ubyte in let* g := read_ubyte in let* r := read_ubyte in
              let* a := read_ubyte in ret (mkColor r g b a)
  | KVec3 => read_vec3
  | KVec2 => read_vec2
  | KBox => aabb_load
  | KMat3 => read_mat3
  | KRaw n => rd_fixed n
  end.
(** ArchiveBinary.cc:30-41 *)
Definition bin_begin : ard (option ohead) :=
  let* e := rdl rd_eof in
  if e then ret None else
  let* pos := rdl rd_tell in
  let* size := rdl read_uint in
  (fun s => Ret (tt, mkRar (ra_r s) (u64 (pos + size) :: ra_ends s))) ;;
  let* ver := rdl read_ushort in
  let* idx := rdl read_uint in
  let* name := rdl (read_line false) in
  let* cls := rdl (read_line false) in
  ret (Some (mkH name cls ver idx)).
(** [_m_object_end.top()] and [pop()]; undefined on an empty stack. *)
Definition top_end : ard N := fun s =>
  match ra_ends s with [] => Undef | e :: _ => Ret (e, s) end.
Definition pop_end : ard unit := fun s =>
  match ra_ends s with [] => Undef | _ :: l => Ret (tt, mkRar (ra_r s) l) end.
(** ArchiveBinary.cc:43-50 *)
Definition bin_end : ard bool :=
  let* pos := rdl rd_tell in
  let* e := top_end in
  if pos =? e then pop_end ;; ret true else rdl rd_eof.
(** ArchiveBinary.cc:117-124.  [read_uint() - 4] is computed in 32 bits. *)
Definition bin_skip (cur : bool) : ard unit :=
  if cur then
    let* e := top_end in
    rdl (r_back e) ;; pop_end
  else
    let* n := rdl read_uint in
    rdl (rd_seek (Z.of_N (u32 (n + (2 ^ 32 - 4)))) CUR).

(** ** Safe binary *)
(** Archive.hh:94-106 [ArchiveEntryType] *)
Definition T_STRING : N := 1.  Definition T_INTEGER : N := 2.  Definition T_FLOAT : N := 3.
Definition T_BYTE : N := 4.    Definition T_WORD : N := 5.     Definition T_BOOL : N := 6.
Definition T_VEC3 : N := 7.    Definition T_COLOR : N := 8.    Definition T_RAW : N := 9.
Definition T_RAWFLOAT : N := 16. Definition T_ENUM : N := 17.  Definition T_HASH : N := 18.
(** ArchiveBinsafe.cc:250-273 [ensure_entry_meta], without the length. *)
Definition bs_meta (tp : N) : rd unit :=
  let* t := read_ubyte in
  if negb (t =? T_HASH) then throw ParserError else
  rd_seek 4 CUR ;;
  let* t := read_ubyte in
  if t =? tp then ret tt else throw ParserError.
(** ... and with the length of a string, raw or raw-float entry. *)
Definition bs_meta_len (tp : N) : rd N := bs_meta tp ;; read_ushort.
(** ArchiveBinsafe.cc:159-203: a fixed-size value at the start of a longer entry. *)
Definition bs_sized {A} (tp need : N) (m : rd A) : rd A :=
  let* l := bs_meta_len tp in
  if l <? need then throw ParserError else
  let* v := m in
  rd_seek (Z.of_N (l - need)) CUR ;;
  ret v.
(** ArchiveBinsafe.cc:109-219 *)
Definition bs_read (k : kind) : rd (kval k) :=
  match k with
  | KStr => let* l := bs_meta_len T_STRING in read_string l
  | KInt => bs_meta T_INTEGER ;; read_int
  | KFloat => bs_meta T_FLOAT ;; read_float
  | KByte => bs_meta T_BYTE ;; read_ubyte
  | KWord => bs_meta T_WORD ;; read_ushort
  | KEnum => bs_meta T_ENUM ;; read_uint
  | KBool => bs_meta T_BOOL ;; let* n := read_uint in ret (negb (n =? 0))
  | KColor => bs_meta T_COLOR ;;
              let* b := read_ubyte in let* g := read_ubyte in let* r := read_ubyte in
              let* a := read_ubyte in ret (mkColor r g b a)
  | KVec3 => bs_meta T_VEC3 ;; read_vec3
  | KVec2 => bs_sized T_RAWFLOAT 8 read_vec2
  | KBox => bs_sized T_RAWFLOAT 24 aabb_load
  | KMat3 => bs_sized T_RAW 36 read_mat3
  | KRaw n => let* l := bs_meta_len T_RAW in
              if l <? n then throw ParserError else rd_fixed l
  end.
Definition bs_delim (c : byte) : bool := beq c x20 || beq c x5d.
(** ArchiveBinsafe.cc:55-74: the line of an object beginning. *)
Definition bs_head (line : bytes) : outcome (option ohead) :=
  match line with
  | c :: it =>
      if negb (beq c x5b) then Ret None else
      match tokens bs_delim it [] with
      | name :: cls :: ver :: idx :: _ =>
          obind (atoi ver) (fun v => obind (atoi idx) (fun i =>
          Ret (Some (mkH name cls (uint 16 v) (uint 32 i)))))
      | _ => Ret None
      end
  | [] => Ret None
  end.
(** ArchiveBinsafe.cc:38-76 *)
Definition bs_begin : rd (option ohead) :=
  let* e := rd_eof in
  if e then ret None else
  let* mark := rd_tell in
  let* t := read_ubyte in
  if negb (t =? T_STRING) then r_back mark ;; ret None else
  let* l := read_ushort in
  let* line := read_string l in
  if len line <=? 2 then r_back mark ;; ret None else
  let* h := lift (bs_head line) in
  match h with
  | Some o => ret (Some o)
  | None => r_back mark ;; ret None
  end.
(** ArchiveBinsafe.cc:78-98 *)
Definition bs_end : rd bool :=
  let* e := rd_eof in
  if e then ret true else
  let* mark := rd_tell in
  let* t := read_ubyte in
  if negb (t =? T_STRING) then r_back mark ;; ret false else
  let* l := read_ushort in
  if negb (l =? 2) then r_back mark ;; ret false else
  let* s := read_string 2 in
  if bytes_eqb s (lit "[]") then ret true else r_back mark ;; ret false.
(** ArchiveBinsafe.cc:221-248.  An unknown type byte skips nothing more. *)
Definition bs_skip_entry : rd unit :=
  let* t := read_ubyte in
  if (t =? T_STRING) || (t =? T_RAW) || (t =? T_RAWFLOAT) then
    let* l := read_ushort in rd_seek (Z.of_N l) CUR
  else if (t =? T_ENUM) || (t =? T_HASH) || (t =? T_INTEGER) || (t =? T_FLOAT) || (t =? T_BOOL)
          || (t =? T_COLOR) then read_uint ;; ret tt
  else if t =? T_BYTE then read_ubyte ;; ret tt
  else if t =? T_WORD then read_ushort ;; ret tt
  else if t =? T_VEC3 then read_float ;; read_float ;; read_float ;; ret tt
  else ret tt.

(** ** ASCII *)
(** ArchiveAscii.cc:90-101 [read_entry] *)
Definition as_entry (type : bytes) : rd bytes :=
  let* line := read_line true in
  let rest := after x3d line in
  if bytes_eqb (before x3a rest) type then ret (after x3a rest) else throw ParserError.
(** The conversions [std::from_chars] of two characters at a time; an unreadable pair leaves
    the zero the vector was initialised with. *)
Fixpoint hex_read (s : bytes) : bytes :=
  match s with
  | a :: b :: s' => n2b (match hex_byte a b with Some n => n | None => 0 end) :: hex_read s'
  | _ => []
  end.
(** ArchiveAscii.cc:194-216: the target bytes are not initialised, so an unreadable pair is
    undefined behaviour. *)
Fixpoint hex_strict (k : nat) (s : bytes) : outcome bytes :=
  match k with
  | O => Ret []
  | S k' =>
      match s with
      | a :: b :: s' =>
          match hex_byte a b with
          | Some n => obind (hex_strict k' s') (fun r => Ret (n2b n :: r))
          | None => Undef
          end
      | _ => Undef
      end
  end.
(** ArchiveAscii.cc:103-241 *)
Definition as_read (k : kind) : rd (kval k) :=
  match k with
  | KStr => as_entry (lit "string")
  | KInt => let* t := as_entry (lit "int") in lift (stoi t)
  | KFloat => let* t := as_entry (lit "float") in lift (stof t)
  | KByte => let* t := as_entry (lit "int") in let* n := lift (stoul t) in ret (n mod 2 ^ 8)
  | KWord => let* t := as_entry (lit "int") in let* n := lift (stoul t) in ret (n mod 2 ^ 16)
  | KEnum => let* t := as_entry (lit "enum") in let* n := lift (stoul t) in ret (n mod 2 ^ 32)
  | KBool => let* t := as_entry (lit "bool") in let* n := lift (stoul t) in ret (negb (n =? 0))
  | KColor =>
      (* a failed extraction leaves uninitialised variables to be read *)
      let* t := as_entry (lit "color") in
      match stream_u16 t with
      | Some (r, t1) =>
          match stream_u16 t1 with
          | Some (g, t2) =>
              match stream_u16 t2 with
              | Some (b, t3) =>
                  match stream_u16 t3 with
                  | Some (a, _) => ret (mkColor (u8 r) (u8 g) (u8 b) (u8 a))
                  | None => undef
                  end
              | None => undef
              end
          | None => undef
          end
      | None => undef
      end
  | KVec3 =>
      let* t := as_entry (lit "vec3") in
      let l := stream_floats 3 t in ret (mkV3 (nth 0 l 0) (nth 1 l 0) (nth 2 l 0))
  | KVec2 =>
      let* t := as_entry (lit "rawFloat") in
      let l := stream_floats 2 t in ret (mkV2 (nth 0 l 0) (nth 1 l 0))
  | KBox =>
      let* t := as_entry (lit "rawFloat") in
      let l := stream_floats 6 t in
      ret (mkAabb (mkV3 (nth 0 l 0) (nth 1 l 0) (nth 2 l 0)) (mkV3 (nth 3 l 0) (nth 4 l 0) (nth 5 l 0)))
  | KMat3 =>
      let* t := as_entry (lit "raw") in
      if len t <? 72 then throw ParserError else
      let* b := lift (hex_strict 36 t) in
      ret (transpose3 (le_words 9 b))
  | KRaw n =>
      let* t := as_entry (lit "raw") in
      if len t / 2 <? n then throw ParserError else ret (hex_read t)
  end.
(** ArchiveAscii.cc:51-61: [sscanf(line, "[%127s %127s %hu %u]")], four conversions. *)
Definition as_head (line : bytes) : option ohead :=
  match cstr line with
  | c :: s0 =>
      if negb (beq c x5b) then None else
      match scan_word s0 with
      | None => None
      | Some (name, s1) =>
          match scan_word s1 with
          | None => None
          | Some (cls, s2) =>
              match scan_int s2 with
              | None => None
              | Some (v, s3) =>
                  match scan_int s3 with
                  | None => None
                  | Some (i, _) => Some (mkH name cls (uint 16 v) (uint 32 i))
                  end
              end
          end
      end
  | [] => None
  end.
(** ArchiveAscii.cc:36-62 *)
Definition as_begin : rd (option ohead) :=
  let* e := rd_eof in
  if e then ret None else
  let* mark := rd_tell in
  let* line := read_line true in
  if len line <=? 2 then r_back mark ;; ret None else
  match as_head line with
  | Some o => ret (Some o)
  | None => r_back mark ;; ret None
  end.
(** ArchiveAscii.cc:64-88 *)
Definition as_end : rd bool :=
  let* e := rd_eof in
  if e then ret false else
  let* mark := rd_tell in
  let* line := read_line true in
  if bytes_eqb (drop_while is_ws line) (lit "[]") then ret true
  else r_back mark ;; ret false.
(** ArchiveAscii.cc:182-184 *)
Definition as_skip_entry : rd unit := read_line true ;; ret tt.

(** ** The three formats together *)
Definition ar_read (f : fmt) (k : kind) : ard (kval k) :=
  match f with
  | ABinary => rdl (bin_read k)
  | ABinsafe => rdl (bs_read k)
  | AAscii => rdl (as_read k)
  end.
Definition ar_begin (f : fmt) : ard (option ohead) :=
  match f with ABinary => bin_begin | ABinsafe => rdl bs_begin | AAscii => rdl as_begin end.
Definition ar_end (f : fmt) : ard bool :=
  match f with ABinary => bin_end | ABinsafe => rdl bs_end | AAscii => rdl as_end end.
(** ArchiveBinary.cc:113-115: a binary archive cannot skip an entry. *)
Definition ar_skip_entry (f : fmt) : ard unit :=
  match f with ABinary => throw ParserError | ABinsafe => rdl bs_skip_entry | AAscii => rdl as_skip_entry end.
(** Archive.cc:529-542 [ReadArchive::skip_object].  [level] is a 32-bit counter; the loop
    runs at least once. *)
Fixpoint skip_loop (fuel : nat) (f : fmt) (level : Z) : ard unit :=
  match fuel with
  | O => fuelout
  | S n =>
      let* b := ar_begin f in
      let* level' :=
        match b with
        | Some _ => ret (level + 1)%Z
        | None =>
            let* e := ar_end f in
            if e then ret (level - 1)%Z else ar_skip_entry f ;; ret level
        end in
      if (0 <? level')%Z then skip_loop n f level' else ret tt
  end.
(** The binary format overrides [skip_object].  Every turn of the loop that does not reach
    the end of the data moves forward, except when it never ends (see DESIGN.md); the fuel is
    the number of bytes left, plus two. *)
Definition ar_skip (f : fmt) (cur : bool) : ard unit :=
  match f with
  | ABinary => bin_skip cur
  | _ => fun s => skip_loop (S (S (N.to_nat (len (rdata (ra_r s)) - rpos (ra_r s))))) f (if cur then 1%Z else 0%Z) s
  end.

(* ------------------------------------------------------------------ *)
(** * The object layer: reading *)

(** The virtual operations of [ReadArchive] (Archive.hh:145-246) over a state [S]. *)
Record prims (S : Type) := mkPrims {
  p_read : forall k : kind, M S (kval k);
  p_begin : M S (option ohead);
  p_end : M S bool;
  p_skip : bool -> M S unit
}.
Arguments p_read {S}. Arguments p_begin {S}. Arguments p_end {S}. Arguments p_skip {S}.
Definition fmt_prims (f : fmt) : prims rar := mkPrims rar (ar_read f) (ar_begin f) (ar_end f) (ar_skip f).

(** A [load] function of the library: what it asks of the archive, in order, and what it
    does with the answers.  [PObj] is [read_object]: a reference to an object of the graph,
    its type, and the flags of an item (which [VNpc::load] looks at right after reading it,
    Misc.cc:377-380). *)
Inductive prog (R A : Type) : Type :=
| PRet (a : A)
| PThrow (e : exn)
| PUndef
| PFuel
| PRead (k : kind) (c : kval k -> prog R A)
| PObj (c : option (R * otype * Z) -> prog R A)
| PBegin (c : option ohead -> prog R A)
| PEnd (c : bool -> prog R A)
| PSkip (cur : bool) (p : prog R A).
Arguments PRet {R A}. Arguments PThrow {R A}. Arguments PUndef {R A}. Arguments PFuel {R A}.
Arguments PRead {R A}. Arguments PObj {R A}. Arguments PBegin {R A}.
Arguments PEnd {R A}. Arguments PSkip {R A}.

Fixpoint pbind {R A B} (p : prog R A) (f : A -> prog R B) : prog R B :=
  match p with
  | PRet a => f a
  | PThrow e => PThrow e
  | PUndef => PUndef
  | PFuel => PFuel
  | PRead k c => PRead k (fun v => pbind (c v) f)
  | PObj c => PObj (fun v => pbind (c v) f)
  | PBegin c => PBegin (fun v => pbind (c v) f)
  | PEnd c => PEnd (fun v => pbind (c v) f)
  | PSkip b p => PSkip b (pbind p f)
  end.

Definition oid := N.
(** The objects made so far, in order of creation: type, index in the archive, and the
    content once [load] has returned. *)
Record hobj (O : Type) := mkHobj { ho_type : otype; ho_index : N; ho_val : option O }.
Arguments mkHobj {O}. Arguments ho_type {O}. Arguments ho_index {O}. Arguments ho_val {O}.
Definition heap (O : Type) := list (hobj O).

Section Reader.
  Context {St Ob : Type} (P : prims St).
  (** The classes: how each type is loaded ([None]: no object is made for the type) and what
      [PObj] shows of an object. *)
  Variable load : otype -> option (prog oid Ob).
  Variable flags_of : Ob -> Z.

  (** The archive, [_m_cache] and the objects. *)
  Record rg := mkRg { rg_s : St; rg_cache : list (N * oid); rg_heap : heap Ob }.
  Definition rgl {A} (m : M St A) : M rg A := fun g =>
    match m (rg_s g) with
    | Ret (a, s) => Ret (a, mkRg s (rg_cache g) (rg_heap g))
    | Throw e => Throw e | Undef => Undef | Fuel => Fuel
    end.
  Definition cache_find (i : N) (l : list (N * oid)) : option oid :=
    match find (fun e => fst e =? i) l with Some e => Some (snd e) | None => None end.
  Definition heap_type (h : heap Ob) (r : oid) : otype :=
    match nth_N h r with Some e => ho_type e | None => unknown end.
  Definition heap_set (h : heap Ob) (r : oid) (v : Ob) : heap Ob :=
    match nth_N h r with
    | Some e => take r h ++ mkHobj (ho_type e) (ho_index e) (Some v) :: drop (r + 1) h
    | None => h
    end.
  (** Flags of an item: those of an object still being loaded are their initial value 0. *)
  Definition heap_flags (h : heap Ob) (r : oid) : Z :=
    match nth_N h r with Some e => match ho_val e with Some v => flags_of v | None => 0%Z end | None => 0%Z end.

  (** Run a load function; [rec] is [read_object]. *)
  Fixpoint runp {A} (rec : M rg (option oid)) (p : prog oid A) : M rg A :=
    match p with
    | PRet a => ret a
    | PThrow e => throw e
    | PUndef => undef
    | PFuel => fuelout
    | PRead k c => let* v := rgl (p_read P k) in runp rec (c v)
    | PObj c =>
        let* r := rec in
        fun g => runp rec (c (match r with
                              | Some r => Some (r, heap_type (rg_heap g) r, heap_flags (rg_heap g) r)
                              | None => None end)) g
    | PBegin c => let* h := rgl (p_begin P) in runp rec (c h)
    | PEnd c => let* b := rgl (p_end P) in runp rec (c b)
    | PSkip b p => rgl (p_skip P b) ;; runp rec p
    end.

  (** Archive.cc:255-527 [ReadArchive::read_object(GameVersion)]. *)
  Fixpoint read_obj (fuel : nat) : M rg (option oid) :=
    match fuel with
    | O => fuelout
    | S n =>
        let* h := rgl (p_begin P) in
        match h with
        | None => ret None
        | Some h =>
            if bytes_eqb (oh_class h) [xa7] then
              let* e := rgl (p_end P) in
              (if e then ret tt else rgl (p_skip P true)) ;;
              fun g => Ret (cache_find (oh_idx h) (rg_cache g), g)
            else if bytes_eqb (oh_class h) (lit "%") then
              rgl (p_skip P true) ;; ret None
            else
              let t := type_of_class (oh_class h) in
              let* made :=
                match load t with
                | None => ret None
                | Some p => fun g =>
                    let r := len (rg_heap g) in
                    (let* v := runp (read_obj n) p in
                     fun g' => Ret (Some r, mkRg (rg_s g') (rg_cache g') (heap_set (rg_heap g') r v)))
                      (mkRg (rg_s g) ((oh_idx h, r) :: rg_cache g)
                            (rg_heap g ++ [mkHobj t (oh_idx h) None]))
                end in
              let* e := rgl (p_end P) in
              (if e then ret tt else rgl (p_skip P true)) ;;
              ret made
        end
    end.
End Reader.
Arguments mkRg {St Ob}. Arguments rg_s {St Ob}. Arguments rg_cache {St Ob}. Arguments rg_heap {St Ob}.

(** Archive.hh:133-143 [read_object<T>]: an object of another type is a [ParserError]. *)
Definition p_obj {R} (t : otype) : prog R (option R) :=
  PObj (fun o => match o with
                 | None => PRet None
                 | Some (r, t', _) => if otype_eqb t' t then PRet (Some r) else PThrow ParserError
                 end).
(** [read_object(version)] without a type. *)
Definition p_any {R} : prog R (option R) :=
  PObj (fun o => PRet (match o with None => None | Some (r, _, _) => Some r end)).
Definition p_rd {R} (k : kind) : prog R (kval k) := PRead k PRet.
Declare Scope p_scope.
Delimit Scope p_scope with p.
Notation "'do' x <- m ; k" := (pbind m (fun x => k))
  (at level 200, x binder, m at level 100, k at level 200) : p_scope.
Fixpoint p_rep {R A} (n : nat) (p : prog R A) : prog R (list A) :=
  match n with
  | O => PRet []
  | S n' => pbind p (fun a => pbind (p_rep n' p) (fun l => PRet (a :: l)))
  end.
Definition p_lift {R A} (o : outcome A) : prog R A :=
  match o with Ret a => PRet a | Throw e => PThrow e | Undef => PUndef | Fuel => PFuel end.

(* ------------------------------------------------------------------ *)
(** * Writing primitives *)

(** The writer: the stream, [_m_index], the hash keys of the safe binary format in order of
    insertion, the indentation of the ASCII format, the open objects of the binary format,
    [_m_head] and [_m_save]. *)
Record war := mkWar {
  wa_w : wstate; wa_index : N; wa_keys : list bytes; wa_indent : N; wa_starts : list N;
  wa_head : N; wa_save : bool }.
Definition awr := M war.
Definition wrl {A} (m : wr A) : awr A := fun s =>
  match m (wa_w s) with
  | Ret (a, w) => Ret (a, mkWar w (wa_index s) (wa_keys s) (wa_indent s) (wa_starts s) (wa_head s) (wa_save s))
  | Throw e => Throw e | Undef => Undef | Fuel => Fuel
  end.
Definition set_index (i : N) : awr unit := fun s =>
  Ret (tt, mkWar (wa_w s) i (wa_keys s) (wa_indent s) (wa_starts s) (wa_head s) (wa_save s)).
Definition set_keys (l : list bytes) : awr unit := fun s =>
  Ret (tt, mkWar (wa_w s) (wa_index s) l (wa_indent s) (wa_starts s) (wa_head s) (wa_save s)).
Definition set_indent (i : N) : awr unit := fun s =>
  Ret (tt, mkWar (wa_w s) (wa_index s) (wa_keys s) i (wa_starts s) (wa_head s) (wa_save s)).
Definition set_starts (l : list N) : awr unit := fun s =>
  Ret (tt, mkWar (wa_w s) (wa_index s) (wa_keys s) (wa_indent s) l (wa_head s) (wa_save s)).
(** [class_name.empty() || class_name == "%"]: the object gets index 0 and no new index is used. *)
Definition no_class (cls : bytes) : bool := match cls with [] => true | _ => bytes_eqb cls (lit "%") end.
(** [empty_class ? 0 : _m_index++] *)
Definition next_index (cls : bytes) : awr N := fun s =>
  if no_class cls then Ret (0, s)
  else Ret (wa_index s, mkWar (wa_w s) (u32 (wa_index s + 1)) (wa_keys s) (wa_indent s) (wa_starts s) (wa_head s) (wa_save s)).

(** ** Binary *)
(** ArchiveBinary.cc:172-233.  A raw entry is written with all its bytes. *)
Definition box_words (b : aabb) : list N :=
  [v3x (bb_min b); v3y (bb_min b); v3z (bb_min b); v3x (bb_max b); v3y (bb_max b); v3z (bb_max b)].
Definition write_color_bgra (c : color) : wr unit :=
  write_ubyte (c_b c) ;; write_ubyte (c_g c) ;; write_ubyte (c_r c) ;; write_ubyte (c_a c).
Definition bin_entry (e : entry) : wr unit :=
  match e with
  | EStr s => write_string0 s
  | EInt z => write_int z
  | EFloat x => write_float x
  | EByte n => write_ubyte n
  | EWord n => write_ushort n
  | EEnum n => write_ubyte n
  | EBool b => write_ubyte (if b then 1 else 0)
  | EColor c => write_color_bgra c
  | EVec3 v => write_vec3 v
  | EVec2 v => write_vec2 v
  | EBox b => aabb_save b
  | EMat3 m => write_mat3 m
  | ERaw b => wr_write b
  end.
(** ArchiveBinary.cc:131-144 *)
Definition bin_wbegin (name cls : bytes) (ver : N) : awr N :=
  let* pos := wrl wr_tell in
  (fun s => set_starts (pos :: wa_starts s) s) ;;
  (fun s => wrl (write_uint (u32 (6 + len name + len cls + 2)) ;;
                 write_ushort ver ;;
                 write_uint (if no_class cls then 0 else wa_index s) ;;
                 write_string0 name ;; write_string0 cls) s) ;;
  next_index cls.
(** ArchiveBinary.cc:146-155; [top] of an empty stack is undefined. *)
Definition bin_wend : awr unit :=
  let* cur := wrl wr_tell in
  fun s => match wa_starts s with
  | [] => Undef
  | prev :: l =>
      (set_starts l ;;
       wrl (wr_seek (Z.of_N prev) BEG ;; write_uint (u32 (cur - prev)) ;; wr_seek (Z.of_N cur) BEG)) s
  end.
(** ArchiveBinary.cc:157-170 *)
Definition bin_wref (name : bytes) (idx : N) : wr unit :=
  let* start := wr_tell in
  write_uint (u32 (6 + len name + 1 + 2)) ;; write_ushort 0 ;; write_uint idx ;;
  write_string0 name ;; write_string0 [xa7] ;;
  let* cur := wr_tell in
  wr_seek (Z.of_N start) BEG ;; write_uint (u32 (cur - start)) ;; wr_seek (Z.of_N cur) BEG.

(** ** Safe binary *)
(** Position of a key in the table. *)
Fixpoint key_pos (name : bytes) (l : list bytes) (i : N) : option N :=
  match l with
  | [] => None
  | k :: l' => if bytes_eqb k name then Some i else key_pos name l' (i + 1)
  end.
(** ArchiveBinsafe.cc:459-472 [write_entry]; the map's values are 16 bits wide. *)
Definition bs_wmeta (name : bytes) (tp : N) : awr unit :=
  wrl (write_ubyte T_HASH) ;;
  (fun s => match key_pos name (wa_keys s) 0 with
            | Some i => wrl (write_uint (u16 i)) s
            | None => (let i := len (wa_keys s) in
                       set_keys (wa_keys s ++ [name]) ;; wrl (write_uint (u32 i))) s
            end) ;;
  wrl (write_ubyte tp).
(** ArchiveBinsafe.cc:388-392 [write_raw]: the length is a 16-bit parameter, and only so many
    bytes are written. *)
Definition bs_wraw (name : bytes) (b : bytes) : awr unit :=
  bs_wmeta name T_RAW ;;
  wrl (write_ushort (u16 (len b)) ;; wr_write (take (u16 (len b)) b)).
(** ArchiveBinsafe.cc:394-398 *)
Definition bs_wfloats (name : bytes) (l : list N) : awr unit :=
  bs_wmeta name T_RAWFLOAT ;;
  wrl (write_ushort (u16 (len l * 4)) ;; wr_write (words_le l)).
(** ArchiveBinsafe.cc:321-386 *)
Definition bs_entry (name : bytes) (e : entry) : awr unit :=
  match e with
  | EStr s => bs_wmeta name T_STRING ;; wrl (write_ushort (u16 (len s)) ;; write_string s)
  | EInt z => bs_wmeta name T_INTEGER ;; wrl (write_int z)
  | EFloat x => bs_wmeta name T_FLOAT ;; wrl (write_float x)
  | EByte n => bs_wmeta name T_BYTE ;; wrl (write_ubyte n)
  | EWord n => bs_wmeta name T_WORD ;; wrl (write_ushort n)
  | EEnum n => bs_wmeta name T_ENUM ;; wrl (write_uint n)
  | EBool b => bs_wmeta name T_BOOL ;; wrl (write_uint (if b then 1 else 0))
  | EColor c => bs_wmeta name T_COLOR ;; wrl (write_color_bgra c)
  | EVec3 v => bs_wmeta name T_VEC3 ;; wrl (write_vec3 v)
  | EVec2 v => bs_wfloats name [v2x v; v2y v]
  | EBox b => bs_wfloats name (box_words b)
  | EMat3 m => bs_wraw name (words_le (transpose3 m))
  | ERaw b => bs_wraw name b
  end.
(** "[%.127s %.127s %d %d]" (ArchiveBinsafe.cc:286-296 and 310-314).  At most 275 characters, so
    nothing is cut off; the version is a 16-bit and the index a 32-bit number printed as [int]. *)
Definition bs_line (name cls : bytes) (ver idx : N) : bytes :=
  [x5b] ++ take 127 (cstr name) ++ [x20] ++ take 127 (cstr cls) ++ [x20] ++
  dec ver ++ [x20] ++ decz (sint 32 idx) ++ [x5d].
Definition bs_wline (l : bytes) : wr unit :=
  write_ubyte T_STRING ;; write_ushort (u16 (len l)) ;; write_string l.
(** ArchiveBinsafe.cc:280-299 *)
Definition bs_wbegin (name cls : bytes) (ver : N) : awr N :=
  (fun s => wrl (bs_wline (bs_line name (match cls with [] => lit "%" | _ => cls end) ver
                                   (if no_class cls then 0 else wa_index s))) s) ;;
  next_index cls.
(** ArchiveBinsafe.cc:301-305 *)
Definition bs_wend : wr unit := bs_wline (lit "[]").
(** ArchiveBinsafe.cc:307-319 *)
Definition bs_wref (name : bytes) (idx : N) : wr unit :=
  bs_wline (bs_line name [xa7] 0 idx) ;; bs_wend.

(** ** ASCII *)
(** ArchiveAscii.cc:413-417 *)
Definition as_windent : awr unit := fun s => wrl (wr_write (repeat x09 (N.to_nat (wa_indent s)))) s.
(** ArchiveAscii.cc:404-411 [write_entry] *)
Definition as_wentry (name type value : bytes) : awr unit :=
  as_windent ;;
  wrl (write_string name ;; write_char x3d ;; write_string type ;; write_char x3a ;; write_line value).
(** ArchiveAscii.cc:391-402 *)
Definition as_wfloats (name : bytes) (l : list N) : awr unit :=
  as_windent ;;
  wrl (write_string name ;; write_string (lit "=rawFloat:") ;;
       iterM (fun x => write_string (show_f x) ;; write_char x20) l ;; write_char x0a).
(** ArchiveAscii.cc:375-386: [buf] keeps its second character from the previous byte when a
    byte needs one digit only. *)
Fixpoint hex_write (stale : byte) (b : bytes) : bytes :=
  match b with
  | [] => []
  | c :: b' =>
      let n := b2n c in
      if n <? 16 then
        (if beq stale x00 then [x30; hex_chr n] else [hex_chr n; stale]) ++ hex_write stale b'
      else
        [hex_chr (n / 16); hex_chr (n mod 16)] ++ hex_write (hex_chr (n mod 16)) b'
  end.
(** ArchiveAscii.cc:366-389 *)
Definition as_wraw (name : bytes) (b : bytes) : awr unit :=
  as_windent ;;
  wrl (write_string name ;; write_string (lit "=raw:") ;;
       wr_write (hex_write x00 (take (u16 (len b)) b)) ;; write_char x0a).
(** ArchiveAscii.cc:301-372.  [std::to_chars] into ten characters fails for the eleven of
    -1000000000 and below; what the buffer then holds is unspecified, modelled as [Undef]. *)
Definition as_wentry_of (name : bytes) (e : entry) : awr unit :=
  match e with
  | EStr s => as_wentry name (lit "string") s
  | EInt z => if len (decz z) <=? 10 then as_wentry name (lit "int") (decz z) else undef
  | EFloat x => as_wentry name (lit "float") (show_f x)
  | EByte n => as_wentry name (lit "byte") (dec (u8 n))
  | EWord n => as_wentry name (lit "word") (dec (u16 n))
  | EEnum n => as_wentry name (lit "enum") (dec (u32 n))
  | EBool b => as_wentry name (lit "bool") (if b then lit "1" else lit "0")
  | EColor c => as_wentry name (lit "color")
                  (dec (c_r c) ++ [x20] ++ dec (c_g c) ++ [x20] ++ dec (c_b c) ++ [x20] ++ dec (c_a c))
  | EVec3 v => as_wentry name (lit "vec3") (show_f (v3x v) ++ [x20] ++ show_f (v3y v) ++ [x20] ++ show_f (v3z v))
  | EVec2 v => as_wfloats name [v2x v; v2y v]
  | EBox b => as_wfloats name (box_words b)
  | EMat3 m => as_wfloats name (transpose3 m)
  | ERaw b => as_wraw name b
  end.
(** ArchiveAscii.cc:255-276 *)
Definition as_wbegin (name cls : bytes) (ver : N) : awr N :=
  as_windent ;;
  (fun s => wrl (write_char x5b ;; write_string name ;; write_char x20 ;;
                 write_string (if no_class cls then lit "%" else cls) ;; write_char x20 ;;
                 write_string (dec ver) ;; write_char x20 ;;
                 write_string (dec (if no_class cls then 0 else wa_index s)) ;;
                 write_char x5d ;; write_char x0a) s) ;;
  (fun s => set_indent (u32 (wa_indent s + 1)) s) ;;
  next_index cls.
(** ArchiveAscii.cc:278-283; the indentation is unsigned. *)
Definition as_wend : awr unit :=
  (fun s => set_indent (u32 (wa_indent s + (2 ^ 32 - 1))) s) ;;
  as_windent ;;
  wrl (write_line (lit "[]")).
(** ArchiveAscii.cc:285-299 *)
Definition as_wref (name : bytes) (idx : N) : awr unit :=
  as_windent ;;
  wrl (write_char x5b ;; write_string name ;; write_string ([x20; xa7; x20; x30; x20]) ;;
       write_string (dec idx) ;; write_char x5d ;; write_char x0a) ;;
  as_windent ;;
  wrl (write_line (lit "[]")).

(** ** The three formats together *)
Record wprims (S : Type) := mkWprims {
  wp_entry : bytes -> entry -> M S unit;
  wp_begin : bytes -> bytes -> N -> M S N;
  wp_end : M S unit;
  wp_ref : bytes -> N -> M S unit
}.
Arguments wp_entry {S}. Arguments wp_begin {S}. Arguments wp_end {S}. Arguments wp_ref {S}.
Definition fmt_wprims (f : fmt) : wprims war :=
  match f with
  | ABinary => mkWprims war (fun _ e => wrl (bin_entry e)) bin_wbegin bin_wend (fun n i => wrl (bin_wref n i))
  | ABinsafe => mkWprims war bs_entry bs_wbegin (wrl bs_wend) (fun n i => wrl (bs_wref n i))
  | AAscii => mkWprims war as_wentry_of as_wbegin as_wend as_wref
  end.

(* ------------------------------------------------------------------ *)
(** * The object layer: writing *)

(** A [save] function of the library: the operations it performs, in order.  [WObj] is
    [write_object] of an object of the graph (or a null pointer); [WSub] is a section
    bracketed by [write_object_begin(name, class, version)] and [write_object_end]. *)
Inductive wop (R : Type) :=
| WEntry (name : bytes) (e : entry)
| WObj (name : bytes) (r : option R)
| WSub (name cls : bytes) (ver : N) (l : list (wop R))
| WThrow (e : exn)
| WUndef.
Arguments WEntry {R}. Arguments WObj {R}. Arguments WSub {R}. Arguments WThrow {R}. Arguments WUndef {R}.

Section Writer.
  Context {St : Type} (P : wprims St).
  (** The object graph being saved: type, version identifier and saved operations of every
      object.  [None]: no such object. *)
  Variable graph : oid -> option (otype * N * list (wop oid)).

  (** The archive and [_m_cache]. *)
  Record wg := mkWg { wg_s : St; wg_cache : list (oid * N) }.
  Definition wgl {A} (m : M St A) : M wg A := fun g =>
    match m (wg_s g) with
    | Ret (a, s) => Ret (a, mkWg s (wg_cache g))
    | Throw e => Throw e | Undef => Undef | Fuel => Fuel
    end.
  Definition wcache_find (r : oid) (l : list (oid * N)) : option N :=
    match find (fun e => fst e =? r) l with Some e => Some (snd e) | None => None end.
  Definition cache_put (r : oid) (i : N) : M wg unit := fun g => Ret (tt, mkWg (wg_s g) ((r, i) :: wg_cache g)).

  (** [rec name r] is [write_object(name, r)]. *)
  Section Ops.
    Variable rec : bytes -> option oid -> M wg unit.
    Fixpoint run_wop (o : wop oid) : M wg unit :=
      match o with
      | WEntry name e => wgl (wp_entry P name e)
      | WObj name r => rec name r
      | WSub name cls ver l =>
          wgl (wp_begin P name cls ver) ;;
          (fix go (l : list (wop oid)) : M wg unit :=
             match l with [] => ret tt | o :: l' => run_wop o ;; go l' end) l ;;
          wgl (wp_end P)
      | WThrow e => throw e
      | WUndef => undef
      end.
    Fixpoint run_wops (l : list (wop oid)) : M wg unit :=
      match l with [] => ret tt | o :: l' => run_wop o ;; run_wops l' end.
  End Ops.

  (** Archive.cc:563-591 [WriteArchive::write_object]. *)
  Fixpoint write_obj (fuel : nat) (name : bytes) (r : option oid) : M wg unit :=
    match fuel with
    | O => fuelout
    | S n =>
        match r with
        | None => wgl (wp_begin P name (lit "%") 0) ;; wgl (wp_end P)
        | Some r => fun g =>
            match wcache_find r (wg_cache g) with
            | Some i => wgl (wp_ref P name i) g
            | None =>
                match graph r with
                | None => Undef
                | Some (t, ver, ops) =>
                    match class_of_type t with
                    | None => Throw OutOfRange
                    | Some cls =>
                        (let* i := wgl (wp_begin P name cls ver) in
                         cache_put r i ;;
                         run_wops (write_obj n) ops ;;
                         wgl (wp_end P)) g
                    end
                end
            end
        end
    end.
End Writer.
Arguments mkWg {St}. Arguments wg_s {St}. Arguments wg_cache {St}.

(* ------------------------------------------------------------------ *)
(** * Headers *)

(** Archive.hh:31-66 [ArchiveHeader] *)
Record ahead := mkHead { ah_version : Z; ah_archiver : bytes; ah_format : fmt; ah_save : bool;
                         ah_user : bytes; ah_date : bytes }.
(** Archive.cc:182-232 [ArchiveHeader::load].  An unknown format line leaves the format's
    initial value, which is that of [BINARY] (Archive.hh:23). *)
Definition head_load : rd ahead :=
  let* l := read_line true in
  if negb (bytes_eqb l (lit "ZenGin Archive")) then throw ParserError else
  let* ver := read_line true in
  if negb (starts_with (lit "ver ") ver) then throw ParserError else
  let* version := lift (stoi (after x20 ver)) in
  if negb (version =? 1)%Z then throw ParserError else
  let* archiver := read_line true in
  let* fl := read_line true in
  let format := if bytes_eqb fl (lit "ASCII") then AAscii
                else if bytes_eqb fl (lit "BINARY") then ABinary
                else if bytes_eqb fl (lit "BIN_SAFE") then ABinsafe
                else ABinary in
  let* sg := read_line true in
  if negb (starts_with (lit "saveGame ") sg) then throw ParserError else
  let* sv := lift (stoi (after x20 sg)) in
  let* o1 := read_line true in
  let* d := (if starts_with (lit "date ") o1
             then let* o := read_line true in ret (after x20 o1, o) else ret ([], o1)) in
  let* u := (if starts_with (lit "user ") (snd d)
             then let* o := read_line true in ret (after x20 (snd d), o) else ret ([], snd d)) in
  if negb (bytes_eqb (snd u) (lit "END")) then throw ParserError else
  ret (mkHead version archiver format (negb (sv =? 0)%Z) (fst u) (fst d)).

(** ArchiveBinary.cc:11-28 and ArchiveAscii.cc:17-34, which differ in how the last line is
    read. *)
Definition objects_header (last : rd bytes) : rd unit :=
  let* o := read_line true in
  if negb (starts_with (lit "objects ") o) then throw ParserError else
  lift (stoi (after x20 o)) ;;
  let* e := last in
  if bytes_eqb e (lit "END") then ret tt else throw ParserError.
(** ArchiveBinsafe.cc:13-36: the table at the end of the file.  An insertion index at or
    beyond the table's size writes outside the vector. *)
Fixpoint bs_table (fuel : nat) (n size : N) : rd unit :=
  match fuel with
  | O => fuelout
  | S f =>
      if n =? 0 then ret tt else
      let* kl := read_ushort in
      let* ii := read_ushort in
      let* _h := read_uint in
      let* _k := read_string kl in
      if ii <? size then bs_table f (n - 1) size else undef
  end.
Definition bs_header : rd unit :=
  let* _v := read_uint in
  let* _c := read_uint in
  let* off := read_uint in
  let* mark := rd_tell in
  rd_seek (Z.of_N off) BEG ;;
  let* size := read_uint in
  bs_table (S (N.to_nat size)) size size ;;
  r_back mark.
(** Archive.cc:234-253 [ReadArchive::from] *)
Definition ar_open : rd ahead :=
  let* h := head_load in
  (match ah_format h with
   | ABinary => objects_header (read_line_then_ignore [x0a])
   | ABinsafe => bs_header
   | AAscii => objects_header (read_line true)
   end) ;;
  ret h.

(** ** Writing headers *)
(** The environment of a call of [write_header]: the formatted date (ArchiveBinary.cc:243-247)
    and the user's name (lines 239-241). *)
Record wenv := mkEnv { we_date : bytes; we_user : bytes }.
Definition common_header (e : wenv) (archiver format : bytes) (save : bool) : wr unit :=
  write_line (lit "ZenGin Archive") ;;
  write_line (lit "ver 1") ;;
  write_line archiver ;;
  write_line format ;;
  write_line (if save then lit "saveGame 1" else lit "saveGame 0") ;;
  write_string (lit "date ") ;; write_line (we_date e) ;;
  write_string (lit "user ") ;; write_line (we_user e) ;;
  write_line (lit "END").
(** ArchiveBinary.cc:260-266, ArchiveAscii.cc:444-450: the number of objects, left-aligned in a
    field of spaces.  A number that does not fit leaves unspecified characters: [Undef]. *)
Definition objects_line (room width : nat) (idx : N) : wr unit :=
  if Nat.leb (length (dec idx)) room then
    write_string (lit "objects ") ;; write_line (dec idx ++ repeat x20 (width - length (dec idx))) ;;
    write_line (lit "END" ++ [x0a])
  else undef.
(** ArchiveBinsafe.cc:446-451: the hash of a key, in 32 bits over signed characters. *)
Definition key_hash (k : bytes) : N :=
  fold_left (fun h c => u32 (h * 33 + uint 32 (sint 8 (b2n c)))) k 0 mod 97.
Fixpoint bs_wtable (l : list bytes) (i : N) : wr unit :=
  match l with
  | [] => ret tt
  | k :: l' =>
      write_ushort (u16 (len k)) ;; write_ushort (u16 i) ;; write_uint (key_hash k) ;; write_string k ;;
      bs_wtable l' (i + 1)
  end.
(** ArchiveBinary.cc:235-271, ArchiveAscii.cc:419-455, ArchiveBinsafe.cc:400-457.  The keys are
    sorted by their number, which is the order of insertion (for up to 2^16 keys). *)
Definition ar_wheader (f : fmt) (e : wenv) : awr unit := fun s =>
  wrl (let* cur := wr_tell in
       wr_seek (Z.of_N (wa_head s)) BEG ;;
       match f with
       | ABinary =>
           common_header e (lit "zCArchiverGeneric") (lit "BINARY") (wa_save s) ;;
           objects_line 9 10 (wa_index s) ;;
           if cur =? wa_head s then ret tt else wr_seek (Z.of_N cur) BEG
       | AAscii =>
           common_header e (lit "zCArchiverGeneric") (lit "ASCII") (wa_save s) ;;
           objects_line 10 11 (wa_index s) ;;
           if cur =? wa_head s then ret tt else wr_seek (Z.of_N cur) BEG
       | ABinsafe =>
           common_header e (lit "zCArchiverBinSafe") (lit "BIN_SAFE") (wa_save s) ;;
           write_uint 2 ;; write_uint (wa_index s) ;; write_uint (u32 cur) ;;
           let* cur' := (if cur =? wa_head s then wr_tell
                         else wr_seek (Z.of_N cur) BEG ;; ret cur) in
           write_uint (u32 (len (wa_keys s))) ;;
           bs_wtable (wa_keys s) 0 ;;
           wr_seek (Z.of_N cur') BEG
       end) s.
(** Archive.cc:544-561 [WriteArchive::to] and [to_save]: the constructor writes a header with
    [_m_save] still false. *)
Definition ar_create (f : fmt) (e : wenv) (save : bool) (w : wstate) : outcome war :=
  match ar_wheader f e (mkWar w 0 [] 0 [] (wpos w) false) with
  | Ret (_, s) => Ret (mkWar (wa_w s) (wa_index s) (wa_keys s) (wa_indent s) (wa_starts s) (wa_head s) save)
  | Throw x => Throw x | Undef => Undef | Fuel => Fuel
  end.

(* ------------------------------------------------------------------ *)
(** * Whole archives *)

(** The way the library writes an archive (SaveGame.cc:345-348 and 367-378,
    MultiResolutionMesh.cc:173-178): make the writer, write an object, write the header again.
    [e1] and [e2] are the environments of the two headers; the writer is the library's
    growable one, empty at first. *)
Definition save_archive (f : fmt) (e1 e2 : wenv) (save : bool)
    (graph : oid -> option (otype * N * list (wop oid))) (fuel : nat) (name : bytes) (root : option oid) : outcome bytes :=
  match ar_create f e1 save w_empty with
  | Ret s =>
      match write_obj (fmt_wprims f) graph fuel name root (mkWg s []) with
      | Ret (_, g) =>
          match ar_wheader f e2 (wg_s g) with
          | Ret (_, s') => Ret (wbuf (wa_w s'))
          | Throw x => Throw x | Undef => Undef | Fuel => Fuel
          end
      | Throw x => Throw x | Undef => Undef | Fuel => Fuel
      end
  | Throw x => Throw x | Undef => Undef | Fuel => Fuel
  end.
(** Reading it (SaveGame.cc:236-240, MultiResolutionMesh.cc:110-115): [ReadArchive::from], then
    [read_object].  The results are the header, the root object and all objects made. *)
Definition load_archive {Ob} (load : otype -> option (prog oid Ob)) (flags_of : Ob -> Z) (fuel : nat) (b : bytes)
    : outcome (ahead * option oid * heap Ob) :=
  match ar_open (mkR b 0) with
  | Ret (h, r) =>
      match read_obj (fmt_prims (ah_format h)) load flags_of fuel (mkRg (mkRar r []) [] []) with
      | Ret (root, g) => Ret (h, root, rg_heap g)
      | Throw x => Throw x | Undef => Undef | Fuel => Fuel
      end
  | Throw x => Throw x | Undef => Undef | Fuel => Fuel
  end.
