(** Witnesses for the virtual file system. *)

From Coq Require Import Sorted Lia.
From Verif Require Import MBase MStream MZipped MVfs SStream SZipped SVfs SVdf LBase LStream LStreamHist LZipped
  LVfs LVfsOps LVfsHist LVdf LVdfDisk LVdfSafe.
Local Open Scope N_scope.

Definition utc_like : clock := mkClock (fun _ => mkTm 100 0 1 0 0 0) (fun _ => 0%Z).
Definition fd_of (b : bytes) : fdesc := make_fd b 0 (len b) false 0.
Definition file_of (nm b : bytes) : node := NFile nm 0 (fd_of b).

(** ** Reading any file descriptor made from a buffer *)
Lemma fd_of_bytes c b : len b < 2 ^ 62 -> file_bytes c (fd_of b) b.
Proof.
  intros L. unfold file_bytes, fd_of, make_fd, open_fd, window. cbn [fd_zip fd_buf fd_off fd_size].
  destruct (N.ltb_spec (len b) (0 + len b)); [lia|]. cbn [obind]. eexists. split; [reflexivity|].
  rewrite drop_0, take_all by lia. apply slurp_plain. assumption.
Qed.

(** ** Empty file systems and directories *)
Lemma save_empty_hangs c k z v ut nm t pol : codec_ok c ->
  exists w, vfs_save c k z v ut (NDir nm t []) w_empty = Ret (tt, w) /\
            mount_hangs k pol vfs_empty (wbuf w).
Proof.
  intros Hc. destruct (vfs_save_ok c k z v ut nm t [] Hc) as (idx & files & size & w & E & L & H & R).
  { constructor. }
  { reflexivity. }
  exists w. split; [assumption|]. intros fuel. change (296 + 80 * total [] + dsizes c z []) with 296 in L.
  unfold vfs_empty. rewrite (mount_header z (wbuf w) pol) with (v := v) (idx := idx) (files := files) (dos := dos_pack (gmtime k ut)) (size := size);
    [|rewrite L; reflexivity|assumption|apply dos_pack_lt].
  replace (mkR (wbuf w) 296) with (mkR (wbuf w) (len (wbuf w))) by congruence.
  rewrite table_at_end by (rewrite L, max_size_val; reflexivity). reflexivity.
Qed.

Definition empty_dir_tree : node := NDir [x2f] (-1) [directory (lit "A") 0].
Lemma empty_dir_hangs pol : exists w,
  vfs_save id_codec utc_like false G2 0 empty_dir_tree w_empty = Ret (tt, w) /\ mount_hangs utc_like pol vfs_empty (wbuf w).
Proof.
  eexists. split; [vm_compute; reflexivity|]. cbn [wbuf].
  match goal with |- mount_hangs _ _ _ ?b => set (F := b) end.
  intros fuel.
  assert (LF : len F = 376) by reflexivity.
  assert (H : at_ F 0 (disk_header G2 1 0 (dos_pack (gmtime utc_like 0)) 456 flag_normal)).
  { exists [], (drop 296 F). split; vm_compute; reflexivity. }
  assert (H1 : at_ F 296 (entry (lit "A") 1 0 3221225472)).
  { exists (take 296 F), []. split; vm_compute; reflexivity. }
  clearbody F. unfold vfs_empty.
  rewrite (mount_header false F pol) with (v := G2) (idx := 1) (files := 0) (dos := dos_pack (gmtime utc_like 0)) (size := 456);
    [|rewrite LF; reflexivity|assumption|apply dos_pack_lt].
  set (ts := mktime _ _). clearbody ts.
  destruct fuel as [|fuel]; [reflexivity|]. cbn [load_table].
  assert (E : load_entry pol 296 ts false F (load_table fuel pol 296 ts false F) [] (mkR F 296) = Fuel).
  { unfold load_entry.
    rewrite (entry_reads _ F 296 (lit "A") 1 0 3221225472 H1) by (reflexivity || (rewrite LF, max_size_val; reflexivity)).
    change (entry_name (resize 64 x20 (lit "A"))) with (lit "A").
    change (find_child [] (lit "A")) with (@None node).
    change (N.land 3221225472 2147483648 =? 0) with false. change (N.land 3221225472 1073741824 =? 0) with false.
    cbn [negb]. unfold make_dir. change (create_kid [] (directory (lit "A") ts)) with [directory (lit "A") ts].
    change (set_find (lit "A") [directory (lit "A") ts]) with (Some (directory (lit "A") ts)).
    cbn [enter_dir directory]. change (u32 (296 + u32 (1 * 80))) with 376.
    unfold bind at 1, rd_tell. cbn [rpos].
    rewrite (bind_eq _ _ _ _ _ (rd_seek_beg F (296 + 80) 376 ltac:(rewrite LF; apply N.le_refl) ltac:(rewrite LF, max_size_val; reflexivity))).
    unfold bind at 1. replace (mkR F 376) with (mkR F (len F)) by congruence.
    rewrite table_at_end by (rewrite LF, max_size_val; reflexivity). reflexivity. }
  unfold bind at 1. rewrite E. reflexivity.
Qed.

(** ** Hostile disks *)
Definition hostile (flags : N) (rows : bytes) : bytes := disk_header G2 0 0 0 0 flags ++ rows.
Definition wrap_disk : bytes := hostile flag_normal (entry (lit "A") 4294967295 1 1073741824).
Definition wrap_fd : fdesc := mkFd wrap_disk 4294967295 1 1 false.
Lemma wrap_mounts pol : mounts_to utc_like pol vfs_empty wrap_disk (NDir [x2f] (-1) [NFile (lit "A") 0 wrap_fd]) /\
  ~ in_bounds (NFile (lit "A") 0 wrap_fd) /\ open_fd wrap_fd = Undef.
Proof.
  split; [|split].
  - exists 1%nat. intros [|fuel] H; [inversion H|]. vm_compute. reflexivity.
  - intros H. inversion H as [? ? ? L|]; subst. revert L. vm_compute. intros L. apply L. reflexivity.
  - vm_compute. reflexivity.
Qed.
Definition long_disk : bytes := hostile flag_zipped (entry (lit "A") 300 1000 1073741824).
Definition long_fd : fdesc := mkFd long_disk 300 76 1000 true.
Lemma long_mounts pol : mounts_to utc_like pol vfs_empty long_disk (NDir [x2f] (-1) [NFile (lit "A") 0 long_fd]) /\
  open_fd long_fd = Undef.
Proof.
  split.
  - exists 1%nat. intros [|fuel] H; [inversion H|]. vm_compute. reflexivity.
  - vm_compute. reflexivity.
Qed.
Definition blank_disk : bytes := hostile flag_normal (entry [] 0 0 0 ++ entry [] 0 0 3221225472).
Lemma blank_throws pol : forall fuel, (2 <= fuel)%nat -> mount_disk fuel utc_like pol vfs_empty blank_disk = Throw OtherExn.
Proof.
  intros [|[|fuel]] H; [inversion H|inversion H as [|? H1]; inversion H1|]. vm_compute. reflexivity.
Qed.
(** A directory that contains itself. *)
Definition loop_disk : bytes := hostile flag_normal (entry (lit "A") 0 0 3221225472).
Lemma loop_entry pol ts f : load_table f pol 296 ts false loop_disk [] (mkR loop_disk 296) = Fuel.
Proof.
  induction f as [|f IH]; [reflexivity|]. cbn [load_table].
  assert (LF : len loop_disk = 376) by reflexivity.
  assert (H1 : at_ loop_disk 296 (entry (lit "A") 0 0 3221225472)).
  { exists (take 296 loop_disk), []. split; vm_compute; reflexivity. }
  assert (E : load_entry pol 296 ts false loop_disk (load_table f pol 296 ts false loop_disk) [] (mkR loop_disk 296) = Fuel).
  { unfold load_entry.
    rewrite (entry_reads _ loop_disk 296 (lit "A") 0 0 3221225472 H1) by (reflexivity || (rewrite LF, max_size_val; reflexivity)).
    change (entry_name (resize 64 x20 (lit "A"))) with (lit "A").
    change (N.land 3221225472 2147483648 =? 0) with false. change (N.land 3221225472 1073741824 =? 0) with false.
    cbn [negb]. change (u32 (296 + u32 (0 * 80))) with 296.
    change (find_child [] (lit "A")) with (@None node). unfold make_dir.
    change (create_kid [] (directory (lit "A") ts)) with [directory (lit "A") ts].
    change (set_find (lit "A") [directory (lit "A") ts]) with (Some (directory (lit "A") ts)).
    unfold directory. cbn [enter_dir]. unfold bind at 1, rd_tell. cbn [rpos].
    rewrite (bind_eq _ _ _ _ _ (rd_seek_beg loop_disk (296 + 80) 296 ltac:(rewrite LF; discriminate) ltac:(rewrite LF, max_size_val; reflexivity))).
    unfold bind at 1. rewrite IH. reflexivity. }
  unfold bind. rewrite E. reflexivity.
Qed.
Lemma loop_hangs pol : mount_hangs utc_like pol vfs_empty loop_disk.
Proof.
  intros fuel. unfold vfs_empty.
  rewrite (mount_header false loop_disk pol) with (v := G2) (idx := 0) (files := 0) (dos := 0) (size := 0);
    [rewrite loop_entry; reflexivity|reflexivity| |reflexivity].
  exists [], (drop 296 loop_disk). split; vm_compute; reflexivity.
Qed.

(** ** Names that end in white space *)
Definition sp_a : bytes := lit "a ".
Lemma mkdir_blank : exists root', mkdir (fun _ => 0%Z) vfs_empty sp_a = (root', Ret [sp_a]) /\ resolve root' sp_a = Ret None.
Proof. eexists. split; vm_compute; reflexivity. Qed.
Lemma create_blank : exists k n', create (NDir [x2f] 0 []) k = Ret n' /\ child n' (nname k) = Ret None.
Proof. exists (file_of sp_a (lit "hello")). eexists. split; vm_compute; reflexivity. Qed.
Definition blank_tree (b : bytes) : node := NDir [x2f] (-1) [file_of sp_a b].
Lemma blank_mount : exists root', mount (blank_tree (lit "old")) (file_of sp_a (lit "new")) [] OAll = Ret root' /\
  lookup root' [sp_a] = Some (file_of sp_a (lit "old")).
Proof. eexists. split; vm_compute; reflexivity. Qed.
Lemma blank_find : vfs_find (blank_tree (lit "x")) sp_a = Ret None /\ somewhere (file_of sp_a (lit "x")) (blank_tree (lit "x")).
Proof. split; [vm_compute; reflexivity|apply S_here; left; reflexivity]. Qed.

(** ** A slash at the end; a file in the middle *)
Definition dir_a : node := NDir [x2f] (-1) [NDir (lit "a") 0 [file_of (lit "f") (lit "x")]].
Lemma remove_slash : exists d, vfs_remove dir_a (lit "a/") = Ret (false, dir_a) /\ resolve dir_a (lit "a/") = Ret (Some d).
Proof. eexists. split; vm_compute; reflexivity. Qed.
Lemma resolve_past : resolve dir_a (lit "a/f/x") = Undef.
Proof. vm_compute. reflexivity. Qed.
Lemma remove_past : vfs_remove dir_a (lit "a/f/x") = Throw OtherExn.
Proof. vm_compute. reflexivity. Qed.

(** ** An empty file in a compressed disk *)
Definition empty_file_tree : node := NDir [x2f] (-1) [file_of (lit "A") []; file_of (lit "B") (lit "rest")].
Lemma empty_file_grows pol : exists w fd l r n b,
  vfs_save id_codec utc_like true G2 0 empty_file_tree w_empty = Ret (tt, w) /\
  mounts_to utc_like pol vfs_empty (wbuf w) (NDir [x2f] (-1) (NFile (lit "A") 0 fd :: l)) /\
  open_fd fd = Ret r /\ slurp id_codec r = Ret (n, b) /\ n <> 0.
Proof.
  do 6 eexists. split; [vm_compute; reflexivity|]. cbn [wbuf]. split; [|split; [|split]].
  - exists 2%nat. intros [|[|fuel]] H; [inversion H|inversion H as [|? H1]; inversion H1|]. vm_compute. reflexivity.
  - vm_compute. reflexivity.
  - vm_compute. reflexivity.
  - discriminate.
Qed.
