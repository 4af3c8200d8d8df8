(** Specification vocabulary for archives: what an archive contains (a tree of named, typed
    entries and objects), what a load function makes of such a tree, and which values each
    format can carry. *)

From Coq Require Import String.
From Verif Require Import MBase MStream MBoxes MText MClasses MArchive SStream.
Local Open Scope N_scope.

(** ** The content of an archive *)
(** [NEntry name key e]: an entry, with the number its name has in the key table.  [NRaw b]: bytes
    written to the stream behind the back of the archive (World.cc:182-194). *)
Inductive node :=
| NEntry (name : bytes) (key : N) (e : entry)
| NObj (h : ohead) (l : list node)
| NRaw (b : bytes).

(** The value a read of kind [k] takes from an entry of that kind. *)
Definition kmatch (k : kind) (e : entry) : option (kval k) :=
  match k return option (kval k) with
  | KStr => match e with EStr s => Some s | _ => None end
  | KInt => match e with EInt z => Some z | _ => None end
  | KFloat => match e with EFloat x => Some x | _ => None end
  | KByte => match e with EByte n => Some n | _ => None end
  | KWord => match e with EWord n => Some n | _ => None end
  | KEnum => match e with EEnum n => Some n | _ => None end
  | KBool => match e with EBool b => Some b | _ => None end
  | KColor => match e with EColor c => Some c | _ => None end
  | KVec3 => match e with EVec3 v => Some v | _ => None end
  | KVec2 => match e with EVec2 v => Some v | _ => None end
  | KBox => match e with EBox b => Some b | _ => None end
  | KMat3 => match e with EMat3 m => Some m | _ => None end
  | KRaw n => match e with ERaw b => if len b =? n then Some b else None | _ => None end
  end.
(** The reading operation that belongs to an entry. *)
Definition kind_of (e : entry) : kind :=
  match e with
  | EStr _ => KStr | EInt _ => KInt | EFloat _ => KFloat | EByte _ => KByte | EWord _ => KWord
  | EEnum _ => KEnum | EBool _ => KBool | EColor _ => KColor | EVec3 _ => KVec3 | EVec2 _ => KVec2
  | EBox _ => KBox | EMat3 _ => KMat3 | ERaw b => KRaw (len b)
  end.
Definition val_of (e : entry) : kval (kind_of e) :=
  match e with
  | EStr s => s | EInt z => z | EFloat x => x | EByte n => n | EWord n => n | EEnum n => n
  | EBool b => b | EColor c => c | EVec3 v => v | EVec2 v => v | EBox b => b | EMat3 m => m
  | ERaw b => b
  end.

(** ** Values *)
(** The values the C++ types have (an [int32_t], a [uint16_t], ...). *)
Definition b32 (x : N) : bool := x <? 2 ^ 32.
Definition entry_wf (e : entry) : bool :=
  match e with
  | EStr s => true
  | EInt z => ((- 2 ^ 31 <=? z) && (z <? 2 ^ 31))%Z
  | EFloat x => b32 x
  | EByte n => n <? 2 ^ 8
  | EWord n => n <? 2 ^ 16
  | EEnum n => n <? 2 ^ 32
  | EBool _ => true
  | EColor c => (c_r c <? 2 ^ 8) && (c_g c <? 2 ^ 8) && (c_b c <? 2 ^ 8) && (c_a c <? 2 ^ 8)
  | EVec3 v => b32 (v3x v) && b32 (v3y v) && b32 (v3z v)
  | EVec2 v => b32 (v2x v) && b32 (v2y v)
  | EBox b => forallb b32 (box_words b)
  | EMat3 m => Nat.eqb (length m) 9 && forallb b32 m
  | ERaw b => true
  end.
Definition no_eolb (s : bytes) : bool :=
  forallb (fun c => negb (beq c x00 || beq c x0d || beq c x0a)) s.
(** A float whose "%f" text is read back as the same float. *)
Definition text_ok (x : N) : bool :=
  match stof (show_f x) with Ret y => x =? y | _ => false end.
(** Bytes whose hexadecimal text is read back: no byte below 16 follows one that is not. *)
Fixpoint hex_ok (seen : bool) (b : bytes) : bool :=
  match b with
  | [] => true
  | c :: b' => if b2n c <? 16 then negb seen && hex_ok seen b' else hex_ok true b'
  end.
(** An entry each format can write as one entry, whatever its value reads back as. *)
Definition entry_fit (f : fmt) (e : entry) : bool :=
  entry_wf e &&
  match f, e with
  | ABinary, EStr s => no_eolb s
  | ABinary, ERaw b => 0 <? len b
  | ABinsafe, EStr s => len s <? 2 ^ 16
  | ABinsafe, ERaw b => len b <? 2 ^ 16
  | AAscii, EStr s => no_eolb s
  | AAscii, EInt z => (- 1000000000 <? z)%Z
  | AAscii, ERaw b => len b <? 2 ^ 16
  | _, _ => true
  end.
(** An entry each format carries: the value read back is the value written. *)
Definition entry_ok (f : fmt) (e : entry) : bool :=
  entry_fit f e &&
  match f, e with
  | ABinary, EEnum n => n <? 2 ^ 8
  | AAscii, EFloat x => text_ok x
  | AAscii, EByte _ => false
  | AAscii, EWord _ => false
  | AAscii, EVec3 v => text_ok (v3x v) && text_ok (v3y v) && text_ok (v3z v)
  | AAscii, EVec2 v => text_ok (v2x v) && text_ok (v2y v)
  | AAscii, EBox b => forallb text_ok (box_words b)
  | AAscii, EMat3 _ => false
  | AAscii, ERaw b => hex_ok false b
  | _, _ => true
  end.
(** Names of entries. *)
Definition key_ok (f : fmt) (s : bytes) : bool :=
  match f with
  | AAscii => no_eolb s && negb (existsb (beq x3d) s) &&
              match s with c :: _ => negb (beq c x5b) && negb (is_ws c) | [] => true end
  | ABinsafe => len s <? 2 ^ 16
  | ABinary => true
  end.
(** Names of objects and classes: one word of 1 to 127 characters without a bracket. *)
Definition word_ok (s : bytes) : bool :=
  (0 <? len s) && (len s <=? 127) &&
  forallb (fun c => negb (is_ws c) && negb (beq c x5d) && negb (beq c x00)) s.
(** The class read back for a section written without a class. *)
Definition shown_class (f : fmt) (c : bytes) : bytes :=
  match c, f with
  | [], ABinary => []
  | [], _ => lit "%"
  | _, _ => c
  end.
Definition head_ok (h : ohead) : bool :=
  word_ok (oh_name h) && (word_ok (oh_class h) || (len (oh_class h) =? 0)) &&
  (oh_ver h <? 2 ^ 16) && (oh_idx h <? 2 ^ 32).
(** Bytes that are taken neither for an end of an object nor for white space: the first is a NUL,
    as it is of the numbers the section of the mesh starts with. *)
Definition raw_ok (b : bytes) : bool := match b with c :: _ :: _ => beq c x00 | _ => false end.
(** Content whose every entry satisfies [ok]. *)
Fixpoint node_is (f : fmt) (ok : entry -> bool) (n : node) : bool :=
  match n with
  | NEntry name k e => key_ok f name && (k <? 2 ^ 32) && ok e
  | NObj h l => head_ok h && forallb (node_is f ok) l
  | NRaw b => raw_ok b
  end.
Definition node_fit (f : fmt) : node -> bool := node_is f (entry_fit f).
Definition node_ok (f : fmt) : node -> bool := node_is f (entry_ok f).
(** Content that can be skipped without being mistaken for the markers of objects: in the
    safe binary format a string entry must not look like an object's first or last line.  Only a
    binary archive can be skipped where there are bytes that are not its own. *)
Definition skip_entry_ok (f : fmt) (e : entry) : bool :=
  match f, e with
  | ABinsafe, EStr s => negb (bytes_eqb s (lit "[]")) &&
                        match bs_head s with Ret None => true | _ => false end
  | _, _ => true
  end.
Fixpoint skip_ok (f : fmt) (n : node) : bool :=
  match n with
  | NEntry _ _ e => skip_entry_ok f e
  | NObj h l => forallb (skip_ok f) l
  | NRaw _ => match f with ABinary => true | _ => false end
  end.

(** ** The file formats *)
(** The bytes of a binary entry. *)
Definition bin_bytes (e : entry) : bytes :=
  match e with
  | EStr s => s ++ [x00]
  | EInt z => le_enc 4 (uint 32 z)
  | EFloat x => le_enc 4 x
  | EByte n => le_enc 1 n
  | EWord n => le_enc 2 n
  | EEnum n => le_enc 1 n
  | EBool b => le_enc 1 (if b then 1 else 0)
  | EColor c => le_enc 1 (c_b c) ++ le_enc 1 (c_g c) ++ le_enc 1 (c_r c) ++ le_enc 1 (c_a c)
  | EVec3 v => words_le [v3x v; v3y v; v3z v]
  | EVec2 v => words_le [v2x v; v2y v]
  | EBox b => words_le (box_words b)
  | EMat3 m => words_le (transpose3 m)
  | ERaw b => b
  end.
(** The type and the bytes of a safe binary entry. *)
Definition safe_type (e : entry) : N :=
  match e with
  | EStr _ => T_STRING | EInt _ => T_INTEGER | EFloat _ => T_FLOAT | EByte _ => T_BYTE
  | EWord _ => T_WORD | EEnum _ => T_ENUM | EBool _ => T_BOOL | EColor _ => T_COLOR
  | EVec3 _ => T_VEC3 | EVec2 _ => T_RAWFLOAT | EBox _ => T_RAWFLOAT | EMat3 _ => T_RAW | ERaw _ => T_RAW
  end.
Definition safe_bytes (e : entry) : bytes :=
  match e with
  | EStr s => le_enc 2 (len s) ++ s
  | EEnum n => le_enc 4 n
  | EBool b => le_enc 4 (if b then 1 else 0)
  | EVec2 _ => le_enc 2 8 ++ bin_bytes e
  | EBox _ => le_enc 2 24 ++ bin_bytes e
  | EMat3 _ => le_enc 2 36 ++ bin_bytes e
  | ERaw b => le_enc 2 (len b) ++ b
  | _ => bin_bytes e
  end.
(** The type and the text of an ASCII entry. *)
Definition text_type (e : entry) : bytes :=
  match e with
  | EStr _ => lit "string" | EInt _ => lit "int" | EFloat _ => lit "float" | EByte _ => lit "byte"
  | EWord _ => lit "word" | EEnum _ => lit "enum" | EBool _ => lit "bool" | EColor _ => lit "color"
  | EVec3 _ => lit "vec3" | EVec2 _ | EBox _ | EMat3 _ => lit "rawFloat" | ERaw _ => lit "raw"
  end.
Definition text_of (e : entry) : bytes :=
  match e with
  | EStr s => s
  | EInt z => decz z
  | EFloat x => show_f x
  | EByte n => dec n
  | EWord n => dec n
  | EEnum n => dec n
  | EBool b => if b then lit "1" else lit "0"
  | EColor c => dec (c_r c) ++ [x20] ++ dec (c_g c) ++ [x20] ++ dec (c_b c) ++ [x20] ++ dec (c_a c)
  | EVec3 v => show_f (v3x v) ++ [x20] ++ show_f (v3y v) ++ [x20] ++ show_f (v3z v)
  | EVec2 v => flat_map (fun x => show_f x ++ [x20]) [v2x v; v2y v]
  | EBox b => flat_map (fun x => show_f x ++ [x20]) (box_words b)
  | EMat3 m => flat_map (fun x => show_f x ++ [x20]) (transpose3 m)
  | ERaw b => hex_write x00 b
  end.
Definition tabs (d : nat) : bytes := repeat x09 d.
Definition enc_entry (f : fmt) (d : nat) (name : bytes) (key : N) (e : entry) : bytes :=
  match f with
  | ABinary => bin_bytes e
  | ABinsafe => le_enc 1 T_HASH ++ le_enc 4 key ++ le_enc 1 (safe_type e) ++ safe_bytes e
  | AAscii => tabs d ++ name ++ [x3d] ++ text_type e ++ [x3a] ++ text_of e ++ [x0a]
  end.
(** The first and last bytes of an object; [size] is the size a binary object states. *)
Definition head_size (h : ohead) : N := 4 + 2 + 4 + len (oh_name h) + 1 + len (oh_class h) + 1.
Definition safe_line (l : bytes) : bytes := le_enc 1 T_STRING ++ le_enc 2 (len l) ++ l.
Definition head_text (h : ohead) (idx : bytes) : bytes :=
  [x5b] ++ oh_name h ++ [x20] ++ (if no_class (oh_class h) then lit "%" else oh_class h) ++ [x20] ++
  dec (oh_ver h) ++ [x20] ++ idx ++ [x5d].
Definition opening (f : fmt) (d : nat) (size : N) (h : ohead) : bytes :=
  match f with
  | ABinary => le_enc 4 size ++ le_enc 2 (oh_ver h) ++ le_enc 4 (oh_idx h) ++
               (oh_name h ++ [x00]) ++ (oh_class h ++ [x00])
  | ABinsafe => safe_line (head_text h (decz (sint 32 (oh_idx h))))
  | AAscii => tabs d ++ head_text h (dec (oh_idx h)) ++ [x0a]
  end.
Definition closing (f : fmt) (d : nat) : bytes :=
  match f with
  | ABinary => []
  | ABinsafe => safe_line (lit "[]")
  | AAscii => tabs d ++ lit "[]" ++ [x0a]
  end.
(** The bytes of content at nesting depth [d]. *)
Fixpoint encode (f : fmt) (d : nat) (n : node) : bytes :=
  match n with
  | NEntry name key e => enc_entry f d name key e
  | NObj h l =>
      let body := flat_map (encode f (S d)) l in
      opening f d (head_size h + len body) h ++ body ++ closing f d
  | NRaw b => b
  end.
Definition encodes (f : fmt) (d : nat) (l : list node) : bytes := flat_map (encode f d) l.

(** ** Reading content *)
(** The state is the remaining content of the current object, of its parent, and so on.
    [Undef] stands for "not specified". *)
Definition nstack := list (list node).
Definition n_read (k : kind) : M nstack (kval k) := fun s =>
  match s with
  | (NEntry _ _ e :: l) :: st => match kmatch k e with Some v => Ret (v, l :: st) | None => Undef end
  | _ => Undef
  end.
Definition n_begin (f : fmt) : M nstack (option ohead) := fun s =>
  match s with
  | (NObj h cs :: l) :: st =>
      Ret (Some (mkH (oh_name h) (shown_class f (oh_class h)) (oh_ver h) (oh_idx h)), cs :: l :: st)
  | _ => Undef
  end.
Definition n_end : M nstack bool := fun s =>
  match s with
  | [] :: l :: st => Ret (true, l :: st)
  | (_ :: _) :: _ :: _ => Ret (false, s)
  | _ => Undef
  end.
Definition n_skip (f : fmt) (cur : bool) : M nstack unit := fun s =>
  match cur, s with
  | true, l :: l2 :: st => if forallb (skip_ok f) l then Ret (tt, l2 :: st) else Undef
  | false, (NObj h cs :: l) :: st => if forallb (skip_ok f) cs then Ret (tt, l :: st) else Undef
  | _, _ => Undef
  end.
Definition nprims (f : fmt) : prims nstack := mkPrims nstack n_read (n_begin f) n_end (n_skip f).

(** ** Writing content *)
(** The content of the innermost open object, the open objects with what precedes them, the
    next index and the keys used so far. *)
Record nw := mkNw { nw_cur : list node; nw_open : list (ohead * list node); nw_idx : N; nw_keys : list bytes }.
Definition nw_put (n : node) (keys : list bytes) (w : nw) : nw :=
  mkNw (nw_cur w ++ [n]) (nw_open w) (nw_idx w) keys.
Definition nw_entry (name : bytes) (e : entry) : M nw unit := fun w =>
  match key_pos name (nw_keys w) 0 with
  | Some i => Ret (tt, nw_put (NEntry name i e) (nw_keys w) w)
  | None => Ret (tt, nw_put (NEntry name (len (nw_keys w)) e) (nw_keys w ++ [name]) w)
  end.
Definition nw_begin (name cls : bytes) (ver : N) : M nw N := fun w =>
  let i := if no_class cls then 0 else nw_idx w in
  Ret (i, mkNw [] ((mkH name cls ver i, nw_cur w) :: nw_open w)
               (if no_class cls then nw_idx w else nw_idx w + 1) (nw_keys w)).
Definition nw_end : M nw unit := fun w =>
  match nw_open w with
  | (h, prev) :: op => Ret (tt, mkNw (prev ++ [NObj h (nw_cur w)]) op (nw_idx w) (nw_keys w))
  | [] => Undef
  end.
Definition nw_ref (name : bytes) (idx : N) : M nw unit := fun w =>
  Ret (tt, nw_put (NObj (mkH name [xa7] 0 idx) []) (nw_keys w) w).
Definition nwprims : wprims nw := mkWprims nw nw_entry nw_begin nw_end nw_ref.
Definition nw_empty : nw := mkNw [] [] 0 [].

(** ** What a load function makes of saved operations, class by class *)
(** [ph] maps the objects written to the references the reader uses, [ty] and [fl] are the
    type and the flags of every object. *)
Fixpoint flat {R A} (f : fmt) (ph : oid -> R) (ty : oid -> otype) (fl : oid -> Z)
    (p : prog R A) (st : list (list (wop oid))) : option (A * list (list (wop oid))) :=
  match p with
  | PRet a => Some (a, st)
  | PRead k c =>
      match st with
      | (WEntry _ e :: l) :: st' =>
          match kmatch k e with Some v => flat f ph ty fl (c v) (l :: st') | None => None end
      | _ => None
      end
  | PObj c =>
      match st with
      | (WObj _ r :: l) :: st' =>
          flat f ph ty fl (c (match r with Some r => Some (ph r, ty r, fl r) | None => None end)) (l :: st')
      | _ => None
      end
  | PBegin c =>
      match st with
      | (WSub name cls ver cs :: l) :: st' =>
          if no_class cls then
            flat f ph ty fl (c (Some (mkH name (shown_class f cls) ver 0))) (cs :: l :: st')
          else None
      | _ => None
      end
  | PEnd c =>
      match st with
      | [] :: l :: st' => flat f ph ty fl (c true) (l :: st')
      | (_ :: _) :: _ => flat f ph ty fl (c false) st
      | _ => None
      end
  | _ => None
  end.
(** ** Object graphs *)
Fixpoint wop_refs (o : wop oid) : list oid :=
  match o with
  | WObj _ (Some r) => [r]
  | WSub _ _ _ l => flat_map wop_refs l
  | _ => []
  end.

(** The classes of the library as far as the archive layer sees them: objects, renaming of
    the references in an object, loading by type, saving, the type and version an object
    reports, the flags others may look at, and whose flags saving the object looks at. *)
Record classes := mkClasses {
  c_ob : Type;
  c_map : (oid -> oid) -> c_ob -> c_ob;
  c_load : otype -> option (prog oid c_ob);
  c_save : (oid -> Z) -> c_ob -> list (wop oid);
  c_type : c_ob -> otype;
  c_ver : c_ob -> N;
  c_flags : c_ob -> Z;
  c_looks : c_ob -> list oid
}.

Section Graphs.
  Variable C : classes.
  (** An object graph: the objects by identity. *)
  Variable G : oid -> option (c_ob C).
  Definition g_type (r : oid) : otype := match G r with Some x => c_type C x | None => unknown end.
  Definition g_flags (r : oid) : Z := match G r with Some x => c_flags C x | None => 0%Z end.
  Definition g_ops (x : c_ob C) : list (wop oid) := c_save C g_flags x.
  Definition g_graph (r : oid) : option (otype * N * list (wop oid)) :=
    match G r with Some x => Some (c_type C x, c_ver C x, g_ops x) | None => None end.
  (** Object [a] refers to object [b], directly or through others. *)
  Definition refers (a b : oid) : Prop :=
    exists x, G a = Some x /\ In b (flat_map wop_refs (g_ops x)).
  Inductive reaches : oid -> oid -> Prop :=
  | reach_refl a : reaches a a
  | reach_step a b c : reaches a b -> refers b c -> reaches a c.

  (** Loading what was saved for one object gives the object back, with its references
      replaced by those the reader uses, different ones by different ones. *)
  Definition obeys (f : fmt) (x : c_ob C) : Prop :=
    (forall ph, c_flags C (c_map C ph x) = c_flags C x) /\
    class_of_type (c_type C x) <> None /\
    forall ph fl rest,
      (forall a b, In a (flat_map wop_refs (g_ops x)) -> In b (flat_map wop_refs (g_ops x)) -> ph a = ph b -> a = b) ->
      (forall r, In r (c_looks C x) -> fl r = g_flags r) ->
      exists p, c_load C (c_type C x) = Some p /\
        flat f ph g_type fl p (g_ops x :: rest) = Some (c_map C ph x, [] :: rest).
  (** All objects do, and no object is part of one whose flags it looks at. *)
  Definition graph_ok (f : fmt) : Prop :=
    forall r x, G r = Some x -> obeys f x /\ (forall i, In i (c_looks C x) -> ~ reaches i r).

  (** The content of an archive holding the object [root] under the name [name]; the list
      says which objects were written and under which index, last first.  [fuel] bounds the
      nesting. *)
  Definition content (fuel : nat) (name : bytes) (root : option oid) : option (node * nw * list (oid * N)) :=
    match write_obj nwprims g_graph fuel name root (mkWg nw_empty []) with
    | Ret (_, g) => match nw_cur (wg_s g) with
                    | [n] => Some (n, wg_s g, wg_cache g)
                    | _ => None
                    end
    | _ => None
    end.
  (** Position of an object in the order of writing. *)
  Fixpoint place (wc : list (oid * N)) (r : oid) : N :=
    match wc with
    | [] => 0
    | e :: wc' => if fst e =? r then len wc' else place wc' r
    end.
  (** The heap a reader has built is the graph: one object per object written, in that
      order, with its type and content, references renamed to positions in the heap. *)
  Definition same_graph (wc : list (oid * N)) (h : heap (c_ob C)) : Prop :=
    len h = len wc /\
    forall r, In r (map fst wc) ->
      exists x i, G r = Some x /\
        nth_N h (place wc r) = Some (mkHobj (c_type C x) i (Some (c_map C (place wc) x))).
  Definition from_root (root : option oid) (r : oid) : Prop := exists a, root = Some a /\ reaches a r.
  (** The heap [h] is a copy of what [root] reaches, [ph] saying where each object is:
      different objects are at different places, there are no others, and each is the object
      of the graph with its references renamed. *)
  Definition isomorphic (root : option oid) (ph : oid -> oid) (h : heap (c_ob C)) : Prop :=
    (forall r, from_root root r -> exists x i, G r = Some x /\
       nth_N h (ph r) = Some (mkHobj (c_type C x) i (Some (c_map C ph x)))) /\
    (forall r r', from_root root r -> from_root root r' -> ph r = ph r' -> r = r') /\
    (exists l, NoDup l /\ (forall r, from_root root r <-> In r l) /\ len h = len l).
End Graphs.

(** ** Whole archives *)
Definition text_line (s : bytes) : bytes := s ++ [x0a].
Definition archiver_of (f : fmt) : bytes := match f with ABinsafe => lit "zCArchiverBinSafe" | _ => lit "zCArchiverGeneric" end.
Definition format_name (f : fmt) : bytes := match f with ABinary => lit "BINARY" | ABinsafe => lit "BIN_SAFE" | AAscii => lit "ASCII" end.
Definition header_text (f : fmt) (e : wenv) (save : bool) : bytes :=
  flat_map text_line [lit "ZenGin Archive"; lit "ver 1"; archiver_of f; format_name f;
    if save then lit "saveGame 1" else lit "saveGame 0"; lit "date " ++ we_date e; lit "user " ++ we_user e; lit "END"].
Definition count_text (width : nat) (idx : N) : bytes :=
  text_line (lit "objects " ++ dec idx ++ repeat x20 (width - length (dec idx))) ++ text_line (lit "END" ++ [x0a]).
Fixpoint key_lines (l : list bytes) (i : N) : bytes :=
  match l with
  | [] => []
  | k :: l' => le_enc 2 (len k) ++ le_enc 2 i ++ le_enc 4 (key_hash k) ++ k ++ key_lines l' (i + 1)
  end.
Definition archive_head (f : fmt) (e : wenv) (save : bool) (idx : N) (body : N) : bytes :=
  header_text f e save ++
  match f with
  | ABinary => count_text 10 idx
  | AAscii => count_text 11 idx
  | ABinsafe => le_enc 4 2 ++ le_enc 4 idx ++ le_enc 4 (len (header_text f e save) + 12 + body)
  end.
Definition archive_tail (f : fmt) (keys : list bytes) : bytes :=
  match f with ABinsafe => le_enc 4 (len keys) ++ key_lines keys 0 | _ => [] end.
(** An archive holding the content [n], with [idx] objects and the key table [keys]. *)
Definition archive_bytes (f : fmt) (e : wenv) (save : bool) (n : node) (idx : N) (keys : list bytes) : bytes :=
  archive_head f e save idx (len (encode f 0 n)) ++ encode f 0 n ++ archive_tail f keys.
(** The archive [b] begins with the header for [e] and [save] and states [n] objects: in a line
    "objects n", or in the number after the version of the safe binary format. *)
Definition header_states (f : fmt) (e : wenv) (save : bool) (n : N) (b : bytes) : Prop :=
  exists X, b = header_text f e save ++
    match f with ABinary => count_text 10 n | AAscii => count_text 11 n | ABinsafe => le_enc 4 2 ++ le_enc 4 n end ++ X.
(** The date and the user's name are single lines. *)
Definition env_ok (e : wenv) : Prop := no_eol (we_date e) /\ no_eol (we_user e).
(** The archive fits the format: at most 2^31 bytes, 2^16 different keys, and so on; a binary
    archive moreover must not begin with the byte the reader of the header skips. *)
Definition archive_fits (f : fmt) (e : wenv) (n : node) (idx : N) (keys : list bytes) : Prop :=
  node_ok f n = true /\ idx < (match f with ABinary => 1000000000 | AAscii => 2 ^ 31 | ABinsafe => 2 ^ 32 end) /\
  len keys <= 2 ^ 16 /\ Forall (fun k => len k < 2 ^ 16) keys /\
  len (archive_bytes f e true n idx keys) < 2 ^ 31 /\
  match f with
  | ABinary => match encode ABinary 0 n with c :: _ => c <> x0a | [] => True end
  | _ => True
  end.

(** ** Readers at a place *)
(** Before what it reads next the reader of an ASCII archive has passed white space. *)
Definition strip (f : fmt) (b : bytes) : bytes := match f with AAscii => drop_while is_ws b | _ => b end.
(** What may follow a line of an ASCII archive: not a single NUL at the very end. *)
Definition after_ok (f : fmt) (X : bytes) : Prop := match f with AAscii => drop_while is_ws X <> [x00] | _ => True end.
(** The bytes [X] end the file [D]; a stream that has them still to read. *)
Definition suf (D X : bytes) : Prop := exists pre, D = pre ++ X.
Definition pos (D X : bytes) : rstate := mkR D (len D - len X).
(** The archive reader in front of the bytes [X] of the file [D]; [E] are the ends of the
    objects it is in (binary format). *)
Definition rat (f : fmt) (D X : bytes) (E : list N) : rar := mkRar (pos D (strip f X)) E.

(** ** Sequences of entries *)
Fixpoint write_all (f : fmt) (l : list (bytes * entry)) : awr unit :=
  match l with
  | [] => ret tt
  | (name, e) :: l' => bind (wp_entry (fmt_wprims f) name e) (fun _ => write_all f l')
  end.
(** Reads of the given kinds, one after the other; the values with their kinds. *)
Fixpoint read_all (f : fmt) (l : list kind) : ard (list { k : kind & kval k }) :=
  match l with
  | [] => ret []
  | k :: l' => bind (ar_read f k) (fun v => bind (read_all f l') (fun r => ret (existT _ k v :: r)))
  end.
Definition typed (e : entry) : { k : kind & kval k } := existT _ (kind_of e) (val_of e).
(** A new archive, the entries written to it, and the same kinds of entries read from where
    they begin: the same values, and nothing but the entries is read. *)
Definition entries_come_back (f : fmt) (e : wenv) (save : bool) (l : list (bytes * entry)) : Prop :=
  exists s0 s1, ar_create f e save w_empty = Ret s0 /\ write_all f l s0 = Ret (tt, s1) /\
    read_all f (map kind_of (map snd l)) (mkRar (mkR (wbuf (wa_w s1)) (wpos (wa_w s0))) []) =
    Ret (map typed (map snd l), mkRar (mkR (wbuf (wa_w s1)) (wpos (wa_w s1))) []).
(** The different names used. *)
Fixpoint names_of (l : list (bytes * entry)) (seen : list bytes) : list bytes :=
  match l with
  | [] => seen
  | (name, _) :: l' => names_of l' (match key_pos name seen 0 with Some _ => seen | None => seen ++ [name] end)
  end.
(** What the format's fields allow: less than 2^31 bytes altogether, at most 2^16 names. *)
Definition entries_fit (f : fmt) (e : wenv) (l : list (bytes * entry)) : Prop :=
  len (header_text f e false) + 25 + len (flat_map (fun x => enc_entry f 0 (fst x) 0 (snd x)) l) < 2 ^ 31 /\
  len (names_of l []) <= 2 ^ 16.

(** ** Passing over what an object contains: reading entries, skipping objects. *)
Definition pass (f : fmt) (n : node) : ard unit :=
  match n with
  | NEntry _ _ e => bind (ar_read f (kind_of e)) (fun _ => ret tt)
  | NObj _ _ => ar_skip f false
  | NRaw b => bind (ar_read f (KRaw (len b))) (fun _ => ret tt)
  end.

(** ** The type an entry is stored under, and the type a read asks for *)
Definition stored_type (f : fmt) (e : entry) : N + bytes :=
  match f with ABinsafe => inl (safe_type e) | _ => inr (text_type e) end.
Definition asked_type (f : fmt) (k : kind) : N + bytes :=
  match f with
  | ABinsafe => inl (match k with
      | KStr => T_STRING | KInt => T_INTEGER | KFloat => T_FLOAT | KByte => T_BYTE | KWord => T_WORD
      | KEnum => T_ENUM | KBool => T_BOOL | KColor => T_COLOR | KVec3 => T_VEC3
      | KVec2 => T_RAWFLOAT | KBox => T_RAWFLOAT | KMat3 => T_RAW | KRaw _ => T_RAW end)
  | _ => inr (match k with
      | KStr => lit "string" | KInt => lit "int" | KFloat => lit "float" | KByte => lit "int"
      | KWord => lit "int" | KEnum => lit "enum" | KBool => lit "bool" | KColor => lit "color"
      | KVec3 => lit "vec3" | KVec2 => lit "rawFloat" | KBox => lit "rawFloat"
      | KMat3 => lit "raw" | KRaw _ => lit "raw" end)
  end.
