(** Properties of the archive layer: C24 to C31. *)

From Coq Require Import String.
From Verif Require Import MBase MStream MBoxes MText MClasses MArchive SStream SArchive SFloat.
From Verif Require Import LArchProps LFloatProps.
Local Open Scope N_scope.
Local Open Scope m_scope.

(** ** C24 *)
(** Every type but the two that stand for no class has a class name; the name leads back to
    the type, and every class name is the name of its type. *)
Theorem C24_class_names : forall t,
  (t <> ignored -> t <> unknown -> exists c, class_of_type t = Some c) /\
  (forall c, class_of_type t = Some c -> type_of_class c = t).
Proof. exact class_names. Qed.
Print Assumptions C24_class_names.
Theorem C24_class_types : forall c t, type_of_class c = t -> t <> unknown -> class_of_type t = Some c.
Proof. exact class_types. Qed.
Print Assumptions C24_class_types.

Example C24_example : type_of_class (lit "oCNpc:zCVob") = oCNpc /\ class_of_type oCNpc = Some (lit "oCNpc:zCVob") /\
  type_of_class (lit "oCNpc") = unknown.
Proof. repeat split; vm_compute; reflexivity. Qed.

(** ** C25 *)
(** [entry_ok ABinsafe] says that strings and raw entries are shorter than 2^16 bytes. *)
Theorem C25_binsafe_entries : forall e save l,
  Forall (fun x => len (fst x) < 2 ^ 16 /\ entry_ok ABinsafe (snd x) = true) l -> entries_fit ABinsafe e l ->
  entries_come_back ABinsafe e save l.
Proof. exact binsafe_entries. Qed.
Print Assumptions C25_binsafe_entries.

Definition demo_env : wenv := mkEnv (lit "2024-02-29 12:00:00") (lit "zenkit").
Definition demo_entries : list (bytes * entry) :=
  [(lit "name", EStr (lit "A[]B")); (lit "int", EInt (- 2 ^ 31)); (lit "float", EFloat 1065353216);
   (lit "byte", EByte 255); (lit "word", EWord 65535); (lit "enum", EEnum 4000000000); (lit "bool", EBool true);
   (lit "color", EColor (mkColor 1 2 3 4)); (lit "vec", EVec3 (mkV3 1 2 3)); (lit "name", EVec2 (mkV2 4 5));
   (lit "box", EBox (mkAabb (mkV3 1 2 3) (mkV3 4 5 6))); (lit "mat", EMat3 [1; 2; 3; 4; 5; 6; 7; 8; 9]);
   (lit "raw", ERaw [x00; xff; x10; x05])].
Example C25_example : Forall (fun x => len (fst x) < 2 ^ 16 /\ entry_ok ABinsafe (snd x) = true) demo_entries /\
  entries_fit ABinsafe demo_env demo_entries.
Proof. split; [repeat (constructor; [split; vm_compute; reflexivity|]); constructor | split; vm_compute; [reflexivity | discriminate]]. Qed.

(** ** C26 *)
(** [entry_ok ABinary] says that strings have no NUL, carriage return or line feed, that
    enumerations are below 256 and raw entries not empty. *)
Theorem C26_binary_entries_partial : forall e save l,
  Forall (fun x => entry_ok ABinary (snd x) = true) l -> entries_fit ABinary e l ->
  entries_come_back ABinary e save l.
Proof. exact binary_entries. Qed.
Print Assumptions C26_binary_entries_partial.
(** An enumeration value of the C++ type [uint32_t], and a string of two lines. *)
Theorem C26_binary_entries_refuted :
  (exists e save n, n < 2 ^ 32 /\ entries_fit ABinary e [(lit "x", EEnum n)] /\ ~ entries_come_back ABinary e save [(lit "x", EEnum n)]) /\
  (exists e save s, entries_fit ABinary e [(lit "x", EStr s)] /\ ~ entries_come_back ABinary e save [(lit "x", EStr s)]).
Proof. exact binary_entries_not. Qed.
Print Assumptions C26_binary_entries_refuted.

Example C26_example :
  let l := [(lit "name", EStr (lit "A[]B")); (lit "int", EInt (- 2 ^ 31)); (lit "enum", EEnum 255); (lit "raw", ERaw [x00; x0a])] in
  Forall (fun x => entry_ok ABinary (snd x) = true) l /\ entries_fit ABinary demo_env l.
Proof. split; [repeat (constructor; [vm_compute; reflexivity|]); constructor | split; vm_compute; [reflexivity | discriminate]]. Qed.

(** ** C27 *)
(** Names are those of lines (no "=", no line end, not beginning with "[" or white space);
    strings are single lines, integers above -10^9, floats those whose decimal text is read
    back as the same float, raw bytes those whose hexadecimal text is read back; bytes, words
    and matrices are excluded. *)
Theorem C27_ascii_entries_partial : forall e save l,
  Forall (fun x => key_ok AAscii (fst x) = true /\ entry_ok AAscii (snd x) = true) l -> entries_fit AAscii e l ->
  entries_come_back AAscii e save l.
Proof. exact ascii_entries. Qed.
Print Assumptions C27_ascii_entries_partial.
(** No byte, no word and no matrix is ever read back; an integer of ten digits and a sign cannot be
    written; raw bytes can come back as others. *)
Theorem C27_ascii_entries_refuted :
  (forall e save n, n < 2 ^ 8 -> entries_fit AAscii e [(lit "x", EByte n)] -> ~ entries_come_back AAscii e save [(lit "x", EByte n)]) /\
  (forall e save n, n < 2 ^ 16 -> entries_fit AAscii e [(lit "x", EWord n)] -> ~ entries_come_back AAscii e save [(lit "x", EWord n)]) /\
  (forall e save m, length m = 9%nat -> Forall f32 m -> entries_fit AAscii e [(lit "x", EMat3 m)] ->
     ~ entries_come_back AAscii e save [(lit "x", EMat3 m)]) /\
  (exists e save, ~ entries_come_back AAscii e save [(lit "x", EInt (- 1000000000))]) /\
  (exists e save, ~ entries_come_back AAscii e save [(lit "x", ERaw [x10; x05])]).
Proof. exact ascii_entries_not. Qed.
Print Assumptions C27_ascii_entries_refuted.

Example C27_example :
  let l := [(lit "name", EStr (lit "A[]B")); (lit "int", EInt (- 999999999)); (lit "float", EFloat 1069547520);
            (lit "enum", EEnum 4000000000); (lit "color", EColor (mkColor 1 2 3 4));
            (lit "vec", EVec3 (mkV3 1065353216 0 3212836864)); (lit "raw", ERaw [x01; xff; x10])] in
  Forall (fun x => key_ok AAscii (fst x) = true /\ entry_ok AAscii (snd x) = true) l /\ entries_fit AAscii demo_env l.
Proof. split; [repeat (constructor; [split; vm_compute; reflexivity|]); constructor | split; vm_compute; [reflexivity | discriminate]]. Qed.

(** Which floats these are: all finite ones of magnitude 16 or more, and all multiples of 1/64.
    (0x417ffff5, which is 15.99998950958252, is printed as 15.999990 and read as the next float.) *)
Theorem C27_floats_partial : forall e save l,
  Forall (fun x => key_ok AAscii (fst x) = true /\ finite (snd x) = true /\ (at_least_16 (snd x) \/ sixty_fourths (snd x))) l ->
  entries_fit AAscii e (map (fun x => (fst x, EFloat (snd x))) l) ->
  entries_come_back AAscii e save (map (fun x => (fst x, EFloat (snd x))) l).
Proof. exact float_entries. Qed.
Print Assumptions C27_floats_partial.
Theorem C27_floats_refuted :
  exists e save, finite 1098907637 = true /\ ~ entries_come_back AAscii e save [(lit "x", EFloat 1098907637)].
Proof. exact float_entries_not. Qed.
Print Assumptions C27_floats_refuted.
(** 16.000002, the largest float, -0.359375 and 0. *)
Example C27_floats_example :
  let l := [(lit "a", 1098907649); (lit "b", 2139095039); (lit "c", 3199729664); (lit "d", 0)] in
  Forall (fun x => key_ok AAscii (fst x) = true /\ finite (snd x) = true /\ (at_least_16 (snd x) \/ sixty_fourths (snd x))) l /\
  entries_fit AAscii demo_env (map (fun x => (fst x, EFloat (snd x))) l).
Proof.
  split; [|split; vm_compute; [reflexivity | discriminate]].
  repeat (apply Forall_cons; [split; [|split]; [reflexivity | reflexivity |] |]); [| | | | apply Forall_nil].
  - left. vm_compute. discriminate.
  - left. vm_compute. discriminate.
  - right. exists 23%Z. vm_compute. reflexivity.
  - right. exists 0%Z. vm_compute. reflexivity.
Qed.

(** ** C28 *)
(** The reader of the file [D] in front of the object [NObj h l] and the bytes [X]: skipping the
    object leads it in front of [X], with the same objects open. *)
Theorem C28_skip_next_partial : forall f D h l d X E, len D < 2 ^ 31 ->
  head_ok h = true -> forallb (node_fit f) l = true -> forallb (skip_ok f) l = true -> after_ok f X ->
  suf D (strip f (encode f d (NObj h l) ++ X)) ->
  ar_skip f false (rat f D (encode f d (NObj h l) ++ X) E) = Ret (tt, rat f D X E).
Proof. exact skips_next. Qed.
Print Assumptions C28_skip_next_partial.
(** Skipping the rest of an object of which [l1] has been read. *)
Theorem C28_skip_inside_partial : forall f D h l1 l2 d X E, len D < 2 ^ 31 ->
  head_ok h = true -> forallb (node_ok f) l1 = true -> forallb (node_fit f) l2 = true ->
  forallb (skip_ok f) (l1 ++ l2) = true -> after_ok f X ->
  suf D (strip f (encode f d (NObj h (l1 ++ l2)) ++ X)) ->
  exists s1 s2,
    ar_begin f (rat f D (encode f d (NObj h (l1 ++ l2)) ++ X) E) =
      Ret (Some (mkH (oh_name h) (shown_class f (oh_class h)) (oh_ver h) (oh_idx h)), s1) /\
    iterM (pass f) l1 s1 = Ret (tt, s2) /\ ar_skip f true s2 = Ret (tt, rat f D X E).
Proof. exact skips_inside. Qed.
Print Assumptions C28_skip_inside_partial.
(** In the safe binary format a string entry with the text "[]" ends the skipping early. *)
Theorem C28_skip_refuted : exists D h l d X E,
  D = encode ABinsafe d (NObj h l) ++ X /\
  head_ok h = true /\ forallb (node_ok ABinsafe) l = true /\
  ar_skip ABinsafe false (rat ABinsafe D D E) <> Ret (tt, rat ABinsafe D X E).
Proof. exact skip_not. Qed.
Print Assumptions C28_skip_refuted.

Definition demo_head (i : N) : ohead := mkH (lit "obj") (lit "oCNpc:zCVob") 3 i.
Definition demo_nodes : list node :=
  [NEntry (lit "a") 0 (EStr (lit "[x]")); NObj (demo_head 2) [NEntry (lit "b") 1 (EInt 7); NObj (mkH (lit "r") [xa7] 0 1) []];
   NEntry (lit "a") 0 (EFloat 1065353216)].
Example C28_example : forall f,
  head_ok (demo_head 1) = true /\ forallb (node_ok f) demo_nodes = true /\ forallb (node_fit f) demo_nodes = true /\
  forallb (skip_ok f) demo_nodes = true /\ len (encode f 0 (NObj (demo_head 1) demo_nodes) ++ lit "end") < 2 ^ 31 /\
  after_ok f (lit "end") /\ suf (encode f 0 (NObj (demo_head 1) demo_nodes) ++ lit "end") (strip f (encode f 0 (NObj (demo_head 1) demo_nodes) ++ lit "end")).
Proof. intros []; repeat split; try (vm_compute; reflexivity || discriminate); exists []; reflexivity. Qed.

(** ** C29 *)
(** The graph is finite and has no dangling references; loading what an object of it has saved
    gives the object ([graph_ok]).  When the content fits the format, the saved archive is
    loaded as a copy of what the root reaches: [isomorphic]. *)
Theorem C29_graphs_come_back : forall C G f dom name root e1 e2 save,
  graph_ok C G f -> (forall r, G r <> None -> In r dom) -> (forall a b, refers C G a b -> G b <> None) ->
  (forall r, root = Some r -> G r <> None) ->
  len (we_date e1) = len (we_date e2) -> len (we_user e1) = len (we_user e2) -> env_ok e2 ->
  exists n nd w wc, content C G n name root = Some (nd, w, wc) /\
    (archive_fits f e2 nd (nw_idx w) (nw_keys w) ->
     exists b head h ph,
       save_archive f e1 e2 save (g_graph C G) n name root = Ret b /\
       load_archive (c_load C) (c_flags C) n b = Ret (head, option_map ph root, h) /\
       isomorphic C G root ph h).
Proof. exact finite_graphs_come_back. Qed.
Print Assumptions C29_graphs_come_back.

(** A class with a number and two references, and a graph with a shared object and a cycle. *)
Record demo_ob := mkDemo { do_n : Z; do_a : option oid; do_b : option oid }.
Definition demo_classes : classes :=
  mkClasses demo_ob
    (fun ph x => mkDemo (do_n x) (option_map ph (do_a x)) (option_map ph (do_b x)))
    (fun t => if otype_eqb t zCVob then
       Some (pbind (p_rd KInt) (fun n => pbind (p_obj zCVob) (fun a => pbind (p_obj zCVob) (fun b => PRet (mkDemo n a b)))))
     else None)
    (fun _ x => [WEntry (lit "n") (EInt (do_n x)); WObj (lit "a") (do_a x); WObj (lit "b") (do_b x)])
    (fun _ => zCVob) (fun _ => 1) (fun _ => 0%Z) (fun _ => []).
Definition demo_graph (r : oid) : option demo_ob :=
  if r =? 10 then Some (mkDemo 1 (Some 20) (Some 30))
  else if r =? 20 then Some (mkDemo (-2) (Some 30) None)
  else if r =? 30 then Some (mkDemo 3 (Some 10) (Some 30))
  else None.
Example C29_example : forall f,
  graph_ok demo_classes demo_graph f /\ (forall r, demo_graph r <> None -> In r [10; 20; 30]) /\
  (forall a b, refers demo_classes demo_graph a b -> demo_graph b <> None) /\
  exists nd w wc, content demo_classes demo_graph 4 (lit "root") (Some 10) = Some (nd, w, wc) /\
    archive_fits f demo_env nd (nw_idx w) (nw_keys w) /\ len wc = 3 /\
    exists b head, save_archive f demo_env demo_env true (g_graph demo_classes demo_graph) 4 (lit "root") (Some 10) = Ret b /\
      load_archive (c_load demo_classes) (c_flags demo_classes) 4 b =
        Ret (head, Some 0, [mkHobj zCVob 0 (Some (mkDemo 1 (Some 1) (Some 2))); mkHobj zCVob 1 (Some (mkDemo (-2) (Some 2) None));
                      mkHobj zCVob 2 (Some (mkDemo 3 (Some 0) (Some 2)))]).
Proof.
  intros f. repeat apply conj.
  - intros r x Hx. assert (Hr : r = 10 \/ r = 20 \/ r = 30).
    { unfold demo_graph in Hx. destruct (N.eqb_spec r 10); [left; assumption|]. destruct (N.eqb_spec r 20); [right; left; assumption|].
      destruct (N.eqb_spec r 30); [right; right; assumption | discriminate]. }
    split; [|intros i []]. split; [reflexivity|]. split; [discriminate|].
    intros ph fl rest _ _. eexists. split; [reflexivity|].
    destruct Hr as [-> | [-> | ->]]; injection Hx as <-; reflexivity.
  - intros r Hr. unfold demo_graph in Hr. destruct (N.eqb_spec r 10); [left; congruence|].
    destruct (N.eqb_spec r 20); [right; left; congruence|]. destruct (N.eqb_spec r 30); [right; right; left; congruence | contradiction Hr; reflexivity].
  - intros a b (x & Hx & Hb). unfold demo_graph in Hx. destruct (N.eqb_spec a 10); [|destruct (N.eqb_spec a 20); [|destruct (N.eqb_spec a 30); [|discriminate]]];
    injection Hx as <-; cbn in Hb; repeat destruct Hb as [<- | Hb]; try destruct Hb; discriminate.
  - do 3 eexists. split; [vm_compute; reflexivity|]. split.
    + destruct f; (split; [vm_compute; reflexivity|]; split; [vm_compute; reflexivity|]; split; [vm_compute; discriminate|];
        split; [repeat (constructor; [vm_compute; reflexivity|]); constructor|]; split; [vm_compute; reflexivity|]); try exact I.
      vm_compute. discriminate.
    + split; [reflexivity|]. destruct f; (do 2 eexists; split; [vm_compute; reflexivity | vm_compute; reflexivity]).
Qed.

(** ** C30 *)
(** The archive begins with its header, which names the number of objects, and opening it
    recognises format, version, save game flag, user and date. *)
Theorem C30_headers_partial : forall C G f e1 e2 save n name root nd w wc,
  graph_ok C G f -> content C G n name root = Some (nd, w, wc) ->
  len (we_date e1) = len (we_date e2) -> len (we_user e1) = len (we_user e2) -> env_ok e2 ->
  archive_fits f e2 nd (nw_idx w) (nw_keys w) ->
  exists b head root' h, save_archive f e1 e2 save (g_graph C G) n name root = Ret b /\
    load_archive (c_load C) (c_flags C) n b = Ret (head, root', h) /\
    header_states f e2 save (len h) b /\
    ah_version head = 1%Z /\ ah_format head = f /\ ah_save head = save /\ ah_archiver head = archiver_of f /\
    ah_user head = we_user e2 /\ ah_date head = we_date e2.
Proof. exact headers_come_back. Qed.
Print Assumptions C30_headers_partial.
(** A binary archive whose object has 266 bytes and refers to itself: the first byte of the
    object is skipped as if it were a line end, so its index is misread and the reference lost. *)
Theorem C30_headers_refuted : exists C G n name root e save b head r h,
  graph_ok C G ABinary /\ G root <> None /\ env_ok e /\
  save_archive ABinary e e save (g_graph C G) n name (Some root) = Ret b /\ len b < 2 ^ 10 /\
  load_archive (c_load C) (c_flags C) n b = Ret (head, r, h) /\
  forall ph, ~ isomorphic C G (Some root) ph h.
Proof. exact headers_not. Qed.
Print Assumptions C30_headers_refuted.

(** ** C31 *)
(** The types an entry is stored under and a read asks for are those of the format. *)
Theorem C31_wrong_type_partial : forall f D k d name key e X E, len D < 2 ^ 31 -> f <> ABinary ->
  key_ok f name = true -> entry_fit f e = true -> after_ok f X ->
  suf D (strip f (enc_entry f d name key e ++ X)) -> stored_type f e <> asked_type f k ->
  ar_read f k (rat f D (enc_entry f d name key e ++ X) E) = Throw ParserError.
Proof. exact wrong_types. Qed.
Print Assumptions C31_wrong_type_partial.
(** A box is read as a vector of two, and an integer as a byte. *)
Theorem C31_wrong_type_refuted :
  (exists D b v s, D = enc_entry ABinsafe 0 (lit "x") 0 (EBox b) /\ entry_ok ABinsafe (EBox b) = true /\
     ar_read ABinsafe KVec2 (rat ABinsafe D D []) = Ret (v, s)) /\
  (exists D z n s, D = enc_entry AAscii 0 (lit "x") 0 (EInt z) /\ entry_ok AAscii (EInt z) = true /\
     ar_read AAscii KByte (rat AAscii D D []) = Ret (n, s) /\ Z.of_N n <> z).
Proof. exact wrong_types_not. Qed.
Print Assumptions C31_wrong_type_refuted.

Example C31_example : forall f, f <> ABinary -> stored_type f (EInt 5) <> asked_type f KStr /\ entry_fit f (EInt 5) = true /\
  stored_type f (EStr (lit "x")) <> asked_type f KInt /\ stored_type f (EFloat 0) <> asked_type f KInt.
Proof. intros [] H; try (contradiction H; reflexivity); repeat split; vm_compute; try reflexivity; discriminate. Qed.
