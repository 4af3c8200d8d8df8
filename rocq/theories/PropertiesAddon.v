(** The C++ classes of the bundled script classes: C118 and C119. *)

From Coq Require Import String Lia.
From Verif Require Import MBase MStream MDaedalus MVm MAddon SVmOps SSym SAddon LVmDae LAddon.
From Verif Require PropertiesDaedalus.
Local Open Scope N_scope.

(** Every script the library loads, with the symbols the machine adds, has a table of its names. *)
Theorem C118_loaded : forall b sc r extra, load_script b = Ret (sc, r) -> named (sc_names sc) (sc_syms sc ++ extra).
Proof. exact loaded_named. Qed.
Print Assumptions C118_loaded.

(** ** C118: every member is bound to the field of its name, and to no other's *)
Theorem C118_members_bound : forall names l l', named names l -> register_all names l = (l', Ret tt) ->
  forall k m f, offered names k m f ->
  exists i x off ty n, find_by_name names (lit m) = Some i /\ nth_N l' i = Some x /\
    find_field base_size (k_fields k) f = Some (off, ty, n) /\
    s_reg x = Some (k_id k) /\ s_moff x = off /\ s_count x <= n /\ binds (s_type x) ty /\ is_member x = true.
Proof. exact members_bound. Qed.
Print Assumptions C118_members_bound.
Theorem C118_members_spelled : forall names k m f, offered names k m f -> same_name m f \/ In (m, f) renamed.
Proof. exact members_spelled. Qed.
Print Assumptions C118_members_spelled.
(** The library knows these classes, each with a C++ class of its own; a member belongs to its class by
    name, is conditional only on a member of the class, and every field but a [std::vector] has one. *)
Theorem C118_classes_known : map k_sym script_classes = class_names /\ NoDup (map k_id script_classes).
Proof. exact classes_known. Qed.
Print Assumptions C118_classes_known.
Theorem C118_members_of_class : forall k g m f, In k script_classes -> In (g, m, f) (members k) -> of_class m (k_sym k) /\
  match g with None => True | Some g => exists g' f', In (g', g, f') (members k) end.
Proof. exact members_of_class. Qed.
Print Assumptions C118_members_of_class.
Theorem C118_fields_covered : forall k f, In k script_classes -> In f (k_fields k) ->
  fd_ty f = 3 \/ exists g m, In (g, m, fd_name f) (members k).
Proof. exact fields_covered. Qed.
Print Assumptions C118_fields_covered.
(** No two members share a byte of an object. *)
Theorem C118_members_apart : forall names l l' s, named names l -> register_all names l = (l', Ret tt) -> v_syms s = l' ->
  layout_ok (offered_symbol names) s.
Proof. exact members_apart. Qed.
Print Assumptions C118_members_apart.
(** So a member of an object is what was last written to it, whatever was written to the others. *)
Theorem C118_last_write : forall names l l' s, named names l -> register_all names l = (l', Ret tt) -> v_syms s = l' ->
  forall k i idx c x ws r s' n,
  Forall (fun w => offered_symbol names (w_sym w) /\ value_ok (w_val w)) ws -> offered_symbol names i ->
  nth_N l' i = Some x -> (k = KFlt -> is_member x = true -> idx < 256) -> the_ctx c s = VRet n s ->
  replay k i idx c (is_member x) ws (read_el k i idx c s) s = Some (r, s') -> read_el k i idx c s' = r.
Proof.
  intros names l l' s Hn H Es k i idx c x ws r s' n Hw Hi X. rewrite <- Es in X.
  exact (last_write _ k i idx c x ws s r s' n (members_apart names l l' s Hn H Es) Hw Hi X).
Qed.
Print Assumptions C118_last_write.

(** ** C119: registration accepts what it should and touches nothing else *)
Theorem C119_registers : forall names l, named names l -> (forall k m f, offered names k m f -> declared names l k m f) ->
  exists l', register_all names l = (l', Ret tt).
Proof. exact registers. Qed.
Print Assumptions C119_registers.
Theorem C119_rest_untouched : forall names l l' o, named names l -> register_all names l = (l', o) ->
  (o = Ret tt \/ exists e, o = Throw e) /\
  forall j y, nth_N l j = Some y -> ~ offered_symbol names j ->
    (forall i x, offered_symbol names i -> nth_N l i = Some x -> s_parent x <> j) -> nth_N l' j = Some y.
Proof. exact registering_rest. Qed.
Print Assumptions C119_rest_untouched.

(** A script with two of the classes. *)
Definition demo_table : list sym :=
  [PropertiesDaedalus.klass (lit "C_FIGHTAI"); PropertiesDaedalus.member (lit "C_FIGHTAI.MOVE") 0 T_INT 6;
   PropertiesDaedalus.klass (lit "C_MUSICJINGLE"); PropertiesDaedalus.member (lit "C_MUSICJINGLE.NAME") 2 T_STRING 1;
   PropertiesDaedalus.member (lit "C_MUSICJINGLE.LOOP") 2 T_INT 1; PropertiesDaedalus.member (lit "C_MUSICJINGLE.VOL") 2 T_FLOAT 1;
   PropertiesDaedalus.member (lit "C_MUSICJINGLE.TRANSSUBTYPE") 2 T_INT 1; PropertiesDaedalus.klass (lit "OTHER")].
Definition demo_names : list (bytes * N) :=
  map (fun i => (match nth_N demo_table i with Some x => s_name x | None => [] end, i)) [0; 1; 2; 3; 4; 5; 6; 7].
Example C118_example : named demo_names demo_table /\
  (exists l', register_all demo_names demo_table = (l', Ret tt) /\ map s_moff l' = [none32; 32; none32; 32; 64; 68; 72; none32]) /\
  (forall k m f, offered demo_names k m f -> declared demo_names demo_table k m f) /\
  ~ offered_symbol demo_names 7.
Proof.
  split; [|split; [|split]].
  - intros n i F. unfold find_by_name in F. destruct (find _ demo_names) as [[b j]|] eqn:X; [|discriminate]. injection F as <-.
    apply find_some in X as [I Q]. apply LBase.bytes_eqb_spec in Q. cbn [fst snd] in *. subst b.
    cbn [demo_names map In] in I. repeat (destruct I as [I|I]; [injection I as <- <-; eexists; split; reflexivity|]). destruct I.
  - eexists. split; [vm_compute; reflexivity|]. vm_compute. reflexivity.
  - intros k m f H. apply in_ops in H. vm_compute in H.
    repeat (destruct H as [H|H]; [injection H as <- <- <-; repeat eexists; vm_compute; auto; try discriminate|]). destruct H.
  - intros (k & m & f & H & F). apply in_ops in H. vm_compute in H.
    repeat (destruct H as [H|H]; [injection H as <- <- <-; vm_compute in F; discriminate|]). destruct H.
Qed.
