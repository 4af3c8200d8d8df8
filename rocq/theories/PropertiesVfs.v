(** Properties C12-C23: the virtual file system and disk files. *)

From Coq Require Import Sorted Lia.
From Verif Require Import MBase MStream MZipped MVfs SStream SZipped SVfs SVdf LBase LStream LStreamHist LZipped LStreamProps
  LVfs LVfsOps LVfsHist LVfsMount LVdf LVdfDisk LVdfSafe LVdfProps.
Local Open Scope N_scope.

(** A tree to test hypotheses with: two directories, three files. *)
Definition demo : node := NDir [x2f] (-1)
  [NDir (lit "ANIMS") 5 [file_of (lit "HUMANS.MDS") (lit "Model"); file_of (lit "S_RUN.MAN") (lit "xyz")];
   NDir (lit "Meshes") 6 [NDir (lit "LEVEL") 7 [file_of (lit "a.3ds") (lit "q")]];
   file_of (lit "readme.txt") (lit "hello")].
Lemma demo_wf : wf demo.
Proof. repeat (constructor || reflexivity). Qed.
Lemma clean_b nm : match rev nm with [] => true | c :: _ => negb (isspace c) end = true -> clean nm.
Proof.
  intros H s' c E. subst nm. rewrite rev_app_distr in H. cbn in H. destruct (isspace c); [discriminate|reflexivity].
Qed.
Lemma demo_clean : clean_tree demo.
Proof. repeat first [apply clean_b; reflexivity|constructor]. Qed.

(** ** C12 *)
(** [icompare a b] says that [a] sorts before [b]. *)
Theorem C12_strict_weak_order :
  (forall a, icompare a a = false) /\
  (forall a b c, icompare a b = true -> icompare b c = true -> icompare a c = true) /\
  (forall a b, (icompare a b = false /\ icompare b a = false) <-> lower a = lower b) /\
  (forall a b, iequals a b = true <-> lower a = lower b).
Proof. exact (conj icompare_irrefl (conj icompare_trans (conj icompare_equiv iequals_lower))). Qed.
Print Assumptions C12_strict_weak_order.

Example C12_example : icompare (lit "Anims") (lit "MESHES") = true /\ icompare (lit "MESHES") (lit "zed") = true /\
  lower (lit "Anims") = lower (lit "aNIMS").
Proof. repeat split. Qed.

(** ** C13 *)
(** After every history, no directory has two entries whose names differ only in case; *)
Theorem C13_names_unique : forall n, reach n -> unique n.
Proof. exact reach_unique. Qed.
Print Assumptions C13_names_unique.
(** and the tree meets the hypotheses of the theorems below. *)
Theorem C13_reachable_ordered : forall n, reach n -> wf n /\ is_dir (Some n).
Proof. intros n H. exact (conj (reach_wf n H) (reach_dir n H)). Qed.
Print Assumptions C13_reachable_ordered.

Example C13_example : exists n, reach n /\ exists c, lookup n [lit "Meshes"; lit "LEVEL"; lit "a.3DS"] = Some c.
Proof.
  eexists. split.
  - apply R_step with (n := NDir [x2f] (-1) [NDir (lit "Meshes") 6 [NDir (lit "level") 6 []]])
      (o := VMkdirCreate (fun _ => 6%Z) (lit "/meshes//LEVEL/") (file_of (lit "a.3ds") (lit "q"))).
    + apply R_step with (n := vfs_empty) (o := VMkdir (fun _ => 6%Z) (lit "Meshes/level")); [constructor|exact I|].
      vm_compute. reflexivity.
    + constructor.
    + vm_compute. reflexivity.
  - eexists. vm_compute. reflexivity.
Qed.

(** ** C14 *)
(** [now] gives the timestamps of the directories that are made. *)
Theorem C14_mkdir_partial : forall now root path,
  wf root -> is_dir (Some root) -> Forall clean (parts path) ->
  (hits_file root (parts path) -> mkdir now root path = (root, Throw VfsFileExists)) /\
  (~ hits_file root (parts path) -> exists root' loc d,
     mkdir now root path = (root', Ret loc) /\
     get_at loc root' = Some d /\ resolve root' path = Ret (Some d) /\ is_dir (Some d) /\ wf root' /\
     (forall q, stat (lookup root' q) = stat (lookup root q) \/
                (lookup root q = None /\ is_dir (lookup root' q) /\ at_or_below q (parts path))) /\
     (lookup root (parts path) <> None -> root' = root)).
Proof. exact mkdir_spec. Qed.
Print Assumptions C14_mkdir_partial.

Example C14_example : wf demo /\ is_dir (Some demo) /\ Forall clean (parts (lit "/meshes//Level/New/")) /\
  parts (lit "/meshes//Level/New/") = [lit "meshes"; lit "Level"; lit "New"] /\
  hits_file demo (parts (lit "ANIMS/humans.mds/x")).
Proof.
  split; [exact demo_wf|]. split; [eexists _, _, _; reflexivity|]. split; [|split; [vm_compute; reflexivity|]].
  - repeat first [apply clean_b; reflexivity|constructor].
  - exists [lit "ANIMS"], (lit "humans.mds"), [lit "x"]. split; [vm_compute; reflexivity|]. eexists _, _, _. vm_compute. reflexivity.
Qed.

(** A name that ends in white space is made but cannot be resolved. *)
Theorem C14_mkdir_refuted : exists now path root' loc,
  mkdir now vfs_empty path = (root', Ret loc) /\ resolve root' path = Ret None.
Proof. exists (fun _ => 0%Z), sp_a. destruct mkdir_blank as (r & H). exists r, [sp_a]. exact H. Qed.
Print Assumptions C14_mkdir_refuted.

(** ** C15 *)
Theorem C15_create_partial : forall nm t l k, wf (NDir nm t l) -> clean (nname k) ->
  exists n', create (NDir nm t l) k = Ret n' /\
    (forall x, lower (trim x) = lower (nname k) -> child n' x = Ret (Some k)) /\
    (forall x, lower (trim x) <> lower (nname k) -> child n' x = child (NDir nm t l) x).
Proof. exact create_spec. Qed.
Print Assumptions C15_create_partial.

Example C15_example : wf demo /\ clean (nname (file_of (lit "README.TXT") (lit "new"))).
Proof. split; [exact demo_wf|apply clean_b; reflexivity]. Qed.

Theorem C15_create_refuted : exists k n',
  create (NDir [x2f] 0 []) k = Ret n' /\ child n' (nname k) = Ret None.
Proof. exact create_blank. Qed.
Print Assumptions C15_create_refuted.

(** ** C16 *)
Theorem C16_remove_partial : forall root path, wf root -> path <> [] -> ~ ends_with_slash path ->
  ~ through_file root (names path) ->
  exists b root', vfs_remove root path = Ret (b, root') /\ wf root' /\
    (b = true <-> lookup root (names path) <> None) /\
    resolve root' path = Ret None /\
    (forall q, ~ at_or_below (names path) q -> stat (lookup root' q) = stat (lookup root q)).
Proof. exact remove_spec. Qed.
Print Assumptions C16_remove_partial.

Lemma through_file_b root a b : ~ is_leaf (lookup root []) -> ~ is_leaf (lookup root [a]) -> ~ through_file root [a; b].
Proof.
  intros H1 H2 (q & x & r & E & L). destruct q as [|y q]; [contradiction|].
  injection E as -> E. destruct q as [|z q]; [contradiction|]. injection E as -> E. destruct q; discriminate.
Qed.
Example C16_example : wf demo /\ ~ ends_with_slash (lit "/Meshes//level") /\ ~ through_file demo (names (lit "/Meshes//level")) /\
  lookup demo (names (lit "/Meshes//level")) <> None.
Proof.
  split; [exact demo_wf|]. split; [|split].
  - intros [q E]. assert (A : rev (lit "/Meshes//level") = rev (q ++ [x2f])) by (rewrite <- E; reflexivity).
    rewrite rev_app_distr in A. vm_compute in A. discriminate A.
  - change (names (lit "/Meshes//level")) with [lit "Meshes"; lit "level"].
    apply through_file_b; intros (? & ? & ? & E); vm_compute in E; discriminate E.
  - vm_compute. discriminate.
Qed.

(** With a slash at the end the path resolves but is not removed. *)
Theorem C16_remove_slash_refuted : exists root path d, wf root /\
  vfs_remove root path = Ret (false, root) /\ resolve root path = Ret (Some d).
Proof.
  exists dir_a, (lit "a/"). destruct remove_slash as [d H]. exists d. split; [|exact H].
  repeat (constructor || reflexivity).
Qed.
Print Assumptions C16_remove_slash_refuted.
(** A path that continues past a file raises an unrelated exception. *)
Theorem C16_remove_past_file_refuted : exists root path, wf root /\ vfs_remove root path = Throw OtherExn.
Proof. exists dir_a, (lit "a/f/x"). split; [repeat (constructor || reflexivity)|exact remove_past]. Qed.
Print Assumptions C16_remove_past_file_refuted.

(** ** C17 *)
Theorem C17_resolve_partial : forall n path, wf n -> ~ through_file n (names path) ->
  resolve n path = Ret (lookup n (names path)).
Proof. exact resolve_ok. Qed.
Print Assumptions C17_resolve_partial.
(** Every path that continues past a file ends the program: [children()] is [noexcept] and throws. *)
Theorem C17_resolve_past_file_refuted : forall n path, wf n -> through_file n (names path) -> resolve n path = Undef.
Proof. exact resolve_through. Qed.
Print Assumptions C17_resolve_past_file_refuted.

Example C17_example : wf demo /\ ~ through_file demo (names (lit "/ANIMS/humans.mds ")) /\
  through_file demo (names (lit "readme.txt/x")) /\ (exists c, lookup demo (names (lit "/ANIMS/humans.mds ")) = Some c).
Proof.
  split; [exact demo_wf|]. split; [|split].
  - change (names (lit "/ANIMS/humans.mds ")) with [lit "ANIMS"; lit "humans.mds"].
    apply through_file_b; intros (? & ? & ? & E); vm_compute in E; discriminate E.
  - exists [lit "readme.txt"], (lit "x"), []. split; [vm_compute; reflexivity|]. eexists _, _, _. vm_compute. reflexivity.
  - eexists. vm_compute. reflexivity.
Qed.

(** ** C18 *)
Theorem C18_mount_partial : forall root src parent pol, wf root -> wf src -> clean_tree src ->
  ~ through_file root (names parent) ->
  match lookup root (names parent) with
  | None => mount root src parent pol = Throw VfsNotFound
  | Some (NFile _ _ _) => mount root src parent pol = Throw VfsFileExists
  | Some (NDir _ _ _) => exists root', mount root src parent pol = Ret root' /\ wf root' /\
      let P := names parent ++ [nname src] in
      (forall q, ~ at_or_below P q -> stat (lookup root' q) = stat (lookup root q)) /\
      (forall q, overlay pol (lookup root P) (Some src) q (stat (lookup root' (P ++ q))))
  end.
Proof. exact mount_spec. Qed.
Print Assumptions C18_mount_partial.

Example C18_example : wf demo /\ clean_tree demo /\ ~ through_file demo (names (lit "Meshes/LEVEL")) /\
  is_dir (lookup demo (names (lit "Meshes/LEVEL"))).
Proof.
  split; [exact demo_wf|]. split; [exact demo_clean|]. split.
  - change (names (lit "Meshes/LEVEL")) with [lit "Meshes"; lit "LEVEL"].
    apply through_file_b; intros (? & ? & ? & E); vm_compute in E; discriminate E.
  - eexists _, _, _. vm_compute. reflexivity.
Qed.

(** A conflicting file whose name ends in white space is kept although the policy says to
    replace it. *)
Theorem C18_mount_refuted : exists root src root', wf root /\ mount root src [] OAll = Ret root' /\
  lookup root' [nname src] = lookup root [nname src] /\ lookup root [nname src] <> Some src /\
  is_leaf (lookup root [nname src]).
Proof.
  exists (blank_tree (lit "old")), (file_of sp_a (lit "new")). destruct blank_mount as (r & E1 & E2). exists r.
  split; [repeat (constructor || reflexivity)|]. split; [exact E1|]. cbn [nname file_of]. rewrite E2.
  split; [vm_compute; reflexivity|]. split; [vm_compute; discriminate|]. eexists _, _, _. vm_compute. reflexivity.
Qed.
Print Assumptions C18_mount_refuted.

(** ** C19 *)
Theorem C19_save_mount_partial : forall c k v ut nm t l pol, codec_ok c -> l <> [] -> wf (NDir nm t l) ->
  Forall (storable c false) l -> fits c false l ->
  exists w l', vfs_save c k false v ut (NDir nm t l) w_empty = Ret (tt, w) /\
    Forall2 (same_tree c (mktime k (dos_unpack (dos_pack (gmtime k ut))))) l l' /\
    mounts_to k pol vfs_empty (wbuf w) (NDir [x2f] (-1) l').
Proof. intros c k. exact (save_mount c k false). Qed.
Print Assumptions C19_save_mount_partial.

(** A tree that is empty, or has an empty directory, is saved but the result never finishes
    mounting. *)
Theorem C19_save_empty_refuted : forall c k z v ut nm t pol, codec_ok c ->
  exists w, vfs_save c k z v ut (NDir nm t []) w_empty = Ret (tt, w) /\ mount_hangs k pol vfs_empty (wbuf w).
Proof. exact save_empty_hangs. Qed.
Print Assumptions C19_save_empty_refuted.
Theorem C19_save_empty_dir_refuted : forall pol, exists c k v ut root w, wf root /\
  vfs_save c k false v ut root w_empty = Ret (tt, w) /\ mount_hangs k pol vfs_empty (wbuf w).
Proof.
  intros pol. destruct (empty_dir_hangs pol) as (w & H). exists id_codec, utc_like, G2, 0%Z, empty_dir_tree, w.
  split; [|exact H]. repeat (constructor || reflexivity).
Qed.
Print Assumptions C19_save_empty_dir_refuted.

(** ** C20 *)
Theorem C20_mount_disk_partial : forall fuel k pol root buf,
  len buf < 2 ^ 62 -> wf root -> in_bounds_mod root -> is_dir (Some root) ->
  match mount_disk fuel k pol root buf with
  | Ret root' => wf root' /\ in_bounds_mod root'
  | Throw e => e = VfsBrokenDisk \/ e = OtherExn
  | Undef => False
  | Fuel => True
  end.
Proof. exact mount_disk_safe. Qed.
Print Assumptions C20_mount_disk_partial.

Example C20_example : wf demo /\ in_bounds_mod demo /\ is_dir (Some demo).
Proof.
  split; [exact demo_wf|]. split; [|eexists _, _, _; reflexivity].
  repeat first [left; vm_compute; discriminate|constructor].
Qed.

(** The bound check is done modulo 2^32: a file outside the buffer is accepted, and opening it is
    undefined; *)
Theorem C20_mount_disk_bounds_refuted : forall pol, exists k buf nm fd root', mounts_to k pol vfs_empty buf root' /\
  somewhere (NFile nm 0 fd) root' /\ ~ in_bounds (NFile nm 0 fd) /\ open_fd fd = Undef.
Proof.
  intros pol. destruct (wrap_mounts pol) as (H1 & H2 & H3).
  exists utc_like, wrap_disk, (lit "A"), wrap_fd. eexists. split; [exact H1|]. split; [apply S_here; left; reflexivity|].
  split; [exact H2|exact H3].
Qed.
Print Assumptions C20_mount_disk_bounds_refuted.
(** the length of an entry of a compressed disk is not checked at all; *)
Theorem C20_mount_zipped_refuted : forall pol, exists k buf nm fd root', mounts_to k pol vfs_empty buf root' /\
  somewhere (NFile nm 0 fd) root' /\ len (fd_buf fd) < fd_off fd + fd_raw fd /\ open_fd fd = Undef.
Proof.
  intros pol. destruct (long_mounts pol) as (H1 & H2).
  exists utc_like, long_disk, (lit "A"), long_fd. eexists. split; [exact H1|]. split; [apply S_here; left; reflexivity|].
  split; [vm_compute; reflexivity|exact H2].
Qed.
Print Assumptions C20_mount_zipped_refuted.
(** a directory that contains itself is walked forever; *)
Theorem C20_mount_disk_hangs_refuted : forall pol, exists k buf, len buf = 376 /\ mount_hangs k pol vfs_empty buf.
Proof. intros pol. exists utc_like, loop_disk. split; [reflexivity|exact (loop_hangs pol)]. Qed.
Print Assumptions C20_mount_disk_hangs_refuted.
(** and blank names raise an unrelated exception. *)
Theorem C20_mount_disk_exception_refuted : forall pol, exists k buf, forall fuel, (2 <= fuel)%nat ->
  mount_disk fuel k pol vfs_empty buf = Throw OtherExn.
Proof. intros pol. exists utc_like, blank_disk. exact (blank_throws pol). Qed.
Print Assumptions C20_mount_disk_exception_refuted.

(** ** C21 *)
Theorem C21_save_mount_zipped_partial : forall c k v ut nm t l pol, codec_ok c -> l <> [] -> wf (NDir nm t l) ->
  Forall (storable c true) l -> fits c true l ->
  exists w l', vfs_save c k true v ut (NDir nm t l) w_empty = Ret (tt, w) /\
    Forall2 (same_tree c (mktime k (dos_unpack (dos_pack (gmtime k ut))))) l l' /\
    mounts_to k pol vfs_empty (wbuf w) (NDir [x2f] (-1) l').
Proof. intros c k. exact (save_mount c k true). Qed.
Print Assumptions C21_save_mount_zipped_partial.

Lemma demo_storable z : match demo with NDir _ _ l => Forall (storable id_codec z) l | _ => False end.
Proof.
  cbn [demo].
  assert (D : forall nm, match rev nm with [] => false | c :: _ => negb (isspace c) end && (len nm <=? 64) = true -> disk_name nm).
  { intros nm H. apply andb_prop in H. destruct H as [H1 H2]. split; [|split].
    - intros ->. discriminate H1.
    - apply clean_b. destruct (rev nm); [discriminate|assumption].
    - apply N.leb_le. assumption. }
  assert (F : forall nm b, match rev nm with [] => false | c :: _ => negb (isspace c) end && (len nm <=? 64) = true ->
    is_wave_file nm = false -> (0 <? len b) && (len b <? 100) = true -> storable id_codec z (file_of nm b)).
  { intros nm b H Hw L. apply andb_prop in L. destruct L as [L0 L]. apply N.ltb_lt in L0. apply N.ltb_lt in L.
    apply St_file with (b := b); [apply D; assumption|apply fd_of_bytes| |].
    - transitivity 100; [assumption|reflexivity].
    - change (2 ^ 32) with 4294967296. lia.
    - intros _. split; [assumption|]. rewrite Hw. discriminate. }
  repeat first [apply F; reflexivity|apply St_dir; [apply D; reflexivity|discriminate|]|apply Forall_cons|apply Forall_nil].
Qed.
Lemma demo_fits z : match demo with NDir _ _ l => fits id_codec z l | _ => False end.
Proof.
  cbn [demo]. unfold fits. destruct z.
  - assert (F : forall nm b, is_wave_file nm = false -> len b <? 100 = true ->
      takes id_codec true (file_of nm b) (80 + len (zip_bytes id_codec b))).
    { intros nm b Hw L. apply N.ltb_lt in L. apply Takes_file with (b := b).
      - apply fd_of_bytes. transitivity 100; [assumption|reflexivity].
      - unfold stored. rewrite Hw. apply write_zipped_writes; [exact id_codec_ok|]. transitivity 100; [assumption|reflexivity]. }
    eexists. split.
    + repeat first [apply F; reflexivity|apply Takes_dir|apply Forall2_cons|apply Forall2_nil].
    + vm_compute. reflexivity.
  - assert (F : forall nm b, len b <? 100 = true -> takes id_codec false (file_of nm b) (80 + len b)).
    { intros nm b L. apply N.ltb_lt in L. apply Takes_file with (b := b).
      - apply fd_of_bytes. transitivity 100; [assumption|reflexivity].
      - unfold stored. apply writes_raw. }
    eexists. split.
    + repeat first [apply F; reflexivity|apply Takes_dir|apply Forall2_cons|apply Forall2_nil].
    + vm_compute. reflexivity.
Qed.
Example C19_C21_example : codec_ok id_codec /\ wf demo /\
  match demo with NDir _ _ l => l <> [] /\ forall z, Forall (storable id_codec z) l /\ fits id_codec z l | _ => False end.
Proof.
  split; [exact id_codec_ok|]. split; [exact demo_wf|]. split; [discriminate|].
  intros z. exact (conj (demo_storable z) (demo_fits z)).
Qed.

(** An empty file becomes the rest of the disk. *)
Theorem C21_save_mount_empty_file_refuted : forall pol, exists c k v ut root w fd l r n b, codec_ok c /\ wf root /\
  lookup root [lit "A"] = Some (file_of (lit "A") []) /\ file_bytes c (fd_of []) [] /\
  vfs_save c k true v ut root w_empty = Ret (tt, w) /\
  mounts_to k pol vfs_empty (wbuf w) (NDir [x2f] (-1) (NFile (lit "A") 0 fd :: l)) /\
  open_fd fd = Ret r /\ slurp c r = Ret (n, b) /\ n <> 0.
Proof.
  intros pol. destruct (empty_file_grows pol) as (w & fd & l & r & n & b & H).
  exists id_codec, utc_like, G2, 0%Z, empty_file_tree, w, fd, l, r, n, b.
  split; [exact id_codec_ok|]. split; [repeat (constructor || reflexivity)|]. split; [vm_compute; reflexivity|].
  split; [apply fd_of_bytes; reflexivity|exact H].
Qed.
Print Assumptions C21_save_mount_empty_file_refuted.

(** ** C22 *)
Theorem C22_dos_time_round_trip : forall t, tm_ok t -> Z.even (tm_sec t) = true -> dos_unpack (dos_pack t) = t.
Proof. exact dos_round. Qed.
Print Assumptions C22_dos_time_round_trip.
(** Every 32-bit word, whether it denotes a valid date or not. *)
Theorem C22_dos_word_round_trip : forall w, w < 2 ^ 32 -> dos_pack (dos_unpack w) = w.
Proof. exact dos_round'. Qed.
Print Assumptions C22_dos_word_round_trip.

Example C22_example : tm_ok (mkTm 103 5 7 13 59 58) /\ dos_unpack (dos_pack (mkTm 103 5 7 13 59 58)) = mkTm 103 5 7 13 59 58.
Proof. split; [unfold tm_ok; cbn; lia|reflexivity]. Qed.

(** ** C23 *)
Theorem C23_find_partial : forall root name, wf root -> is_dir (Some root) ->
  (exists c, vfs_find root name = Ret (Some c) /\ somewhere c root /\ lower (nname c) = lower (trim name)) \/
  (vfs_find root name = Ret None /\ forall c, somewhere c root -> lower (nname c) <> lower (trim name)).
Proof. exact find_spec. Qed.
Print Assumptions C23_find_partial.

Example C23_example : wf demo /\ is_dir (Some demo) /\ exists c, vfs_find demo (lit "A.3DS") = Ret (Some c).
Proof. split; [exact demo_wf|]. split; [eexists _, _, _; reflexivity|]. eexists. vm_compute. reflexivity. Qed.

(** A name that ends in white space is not found. *)
Theorem C23_find_refuted : exists root c, wf root /\ somewhere c root /\ vfs_find root (nname c) = Ret None.
Proof.
  exists (blank_tree (lit "x")), (file_of sp_a (lit "x")). destruct blank_find as [H1 H2].
  split; [repeat (constructor || reflexivity)|]. split; [exact H2|exact H1].
Qed.
Print Assumptions C23_find_refuted.
