(** Saving a tree as a disk file. *)

From Coq Require Import Sorted Lia.
From Verif Require Import MBase MStream MZipped MVfs SStream SZipped SVfs SVdf LBase LStream LStreamHist LZipped
  LVfs LVfsOps LVfsHist.
Local Open Scope N_scope.
Local Open Scope m_scope.
Ltac Zify.zify_post_hook ::= idtac.

(** ** Byte strings at positions *)
Definition at_ (F : bytes) (p : N) (bs : bytes) : Prop := exists pre post, F = pre ++ bs ++ post /\ len pre = p.

Lemma at_app F p a b : at_ F p (a ++ b) <-> at_ F p a /\ at_ F (p + len a) b.
Proof.
  split.
  - intros (pre & post & -> & E). split.
    + exists pre, (b ++ post). rewrite <- app_assoc. auto.
    + exists (pre ++ a), post. rewrite <- !app_assoc. split; [reflexivity|]. rewrite len_app. lia.
  - intros [(pre & post & E & L) (pre' & post' & E' & L')].
    exists pre, post'. split; [|assumption]. rewrite E in E'.
    assert (X : pre' = pre ++ a).
    { rewrite app_assoc in E'. apply (f_equal (take (len pre'))) in E'.
      rewrite (take_app_exact (len pre') pre') in E' by reflexivity.
      rewrite <- E'. apply take_app_exact. rewrite len_app. lia. }
    subst pre'. rewrite <- app_assoc in E'. rewrite E. rewrite <- app_assoc. exact E'.
Qed.
Lemma at_len F p bs : at_ F p bs -> p + len bs <= len F.
Proof. intros (pre & post & -> & <-). rewrite !len_app. lia. Qed.
Lemma at_reads {A} (r : rd A) F p bs a : reads r bs a -> at_ F p bs -> len F < max_size ->
  r (mkR F p) = Ret (a, mkR F (p + len bs)).
Proof. intros R (pre & post & -> & <-) L. apply R; auto. Qed.
Lemma at_window F p bs : at_ F p bs -> take (len bs) (drop p F) = bs.
Proof.
  intros (pre & post & -> & <-). rewrite drop_app_exact by reflexivity. apply take_app_exact. reflexivity.
Qed.
Lemma at_drop F p bs : at_ F p bs -> exists post, drop p F = bs ++ post.
Proof. intros (pre & post & -> & <-). exists post. apply drop_app_exact. reflexivity. Qed.

(** ** Catalog entries *)
Definition entry (nm : bytes) (off size ty : N) : bytes :=
  resize 64 x20 nm ++ le_enc 4 off ++ le_enc 4 size ++ le_enc 4 ty ++ le_enc 4 0.
Lemma len_resize n c s : len (resize n c s) = n.
Proof. unfold resize. rewrite len_app, len_take, len_repeat. lia. Qed.
Lemma len_entry nm off size ty : len (entry nm off size ty) = 80.
Proof. unfold entry. rewrite !len_app, len_resize, !len_le_enc. reflexivity. Qed.

Lemma trim_spaces nm k : clean nm -> trim (nm ++ repeat x20 k) = nm.
Proof.
  intros C. unfold trim. rewrite rev_app_distr.
  assert (R : forall k r, trim_rev (repeat x20 k ++ r) = trim_rev r) by (clear; induction k; intros; cbn; auto).
  assert (Rr : rev (repeat x20 k) = repeat x20 k).
  { clear. induction k; [reflexivity|]. cbn [repeat rev]. rewrite IHk.
    clear. induction k; [reflexivity|]. cbn. rewrite IHk. reflexivity. }
  rewrite Rr, R. apply clean_trim. assumption.
Qed.
Lemma entry_name_ok nm : disk_name nm -> entry_name (resize 64 x20 nm) = nm.
Proof.
  intros (H & C & L). unfold entry_name, resize. rewrite take_all by assumption.
  rewrite trim_spaces by assumption. destruct nm; [congruence|reflexivity].
Qed.

(** ** The writer state of the output *)
Definition outs (base : N) (D : bytes) (o : wstate) : Prop :=
  (o = mkW [] base /\ D = []) \/ o = mkW (zeros base ++ D) (base + len D).
Lemma wr_write_pad b base : wr_write b (mkW [] base) = wr_write b (mkW (zeros base) base).
Proof.
  unfold wr_write. cbn [wpos wbuf]. destruct (base + len b <? max_size); [|reflexivity].
  rewrite len_nil, len_zeros. do 3 f_equal.
  destruct (N.ltb_spec 0 (base + len b)), (N.ltb_spec base (base + len b)).
  - f_equal. cbn [app]. unfold zeros. rewrite <- repeat_app. f_equal. lia.
  - cbn [app]. f_equal. f_equal. lia.
  - lia.
  - replace base with 0 by lia. reflexivity.
Qed.
Lemma write_zipped_pad c b base : write_zipped c b (mkW [] base) = write_zipped c b (mkW (zeros base) base).
Proof.
  unfold write_zipped. unfold bind at 1. unfold bind at 3. unfold write_uint at 1 4. rewrite wr_write_pad. reflexivity.
Qed.
Lemma outs_write base D o w bs : outs base D o -> writes w bs -> w (mkW [] base) = w (mkW (zeros base) base) ->
  base + len D + len bs < max_size ->
  exists o', w o = Ret (tt, o') /\ outs base (D ++ bs) o'.
Proof.
  intros [[-> ->]| ->] W P B.
  - rewrite P. eexists. split.
    + apply W; cbn [wpos wbuf]; rewrite len_zeros; [reflexivity|]. rewrite len_nil in B. lia.
    + right. cbn [wbuf app]. rewrite len_zeros. reflexivity.
  - eexists. split.
    + apply W; cbn [wpos wbuf]; rewrite len_app, len_zeros; [reflexivity|]. lia.
    + right. cbn [wbuf]. rewrite <- app_assoc. f_equal. rewrite !len_app, len_zeros. lia.
Qed.

(** ** Contents and payloads *)
Definition cont (c : codec) (fd : fdesc) : bytes :=
  match obind (open_fd fd) (slurp c) with Ret (_, b) => b | _ => [] end.
Lemma cont_ok c fd b : file_bytes c fd b -> cont c fd = b.
Proof. intros (r & E1 & E2). unfold cont. rewrite E1. cbn. rewrite E2. reflexivity. Qed.
Definition packed (z : bool) (nm : bytes) : bool := z && negb (is_wave_file nm).
Definition payload (c : codec) (z : bool) (nm : bytes) (fd : fdesc) : bytes :=
  if packed z nm then zip_bytes c (cont c fd) else cont c fd.
(** Bytes of data below a node. *)
Fixpoint dsize (c : codec) (z : bool) (n : node) : N :=
  match n with
  | NFile nm _ fd => len (payload c z nm fd)
  | NDir _ _ l => fold_right (fun k s => dsize c z k + s) 0 l
  end.
Definition dsizes (c : codec) (z : bool) (l : list node) : N := fold_right (fun k s => dsize c z k + s) 0 l.
Lemma dsizes_cons c z k l : dsizes c z (k :: l) = dsize c z k + dsizes c z l.
Proof. reflexivity. Qed.

(** Data of the files directly in a directory, and its entries with unset directory indices. *)
Definition own (c : codec) (z : bool) (k : node) : bytes :=
  match k with NFile nm _ fd => payload c z nm fd | NDir _ _ _ => [] end.
Definition level_data (c : codec) (z : bool) (l : list node) : bytes := flat_map (own c z) l.
Definition is_nil {A} (l : list A) : bool := match l with [] => true | _ => false end.
Definition row_bytes (c : codec) (doff : N) (last : bool) (k : node) : bytes :=
  match k with
  | NFile nm _ fd => entry nm doff (len (cont c fd)) (if last then 1073741824 else 0)
  | NDir nm _ _ => entry nm 0 0 (if last then 3221225472 else 2147483648)
  end.
Fixpoint level (c : codec) (z : bool) (l : list node) (doff : N) : bytes :=
  match l with
  | [] => []
  | k :: l' => row_bytes c doff (is_nil l') k ++ level c z l' (doff + len (own c z k))
  end.
Lemma len_row_bytes c doff last k : len (row_bytes c doff last k) = 80.
Proof. destruct k; apply len_entry. Qed.
Lemma len_level c z l : forall doff, len (level c z l doff) = 80 * len l.
Proof.
  induction l as [|k l IH]; intros doff; cbn [level]; [reflexivity|].
  rewrite len_app, len_row_bytes, IH, len_cons. lia.
Qed.
(** Positions of the directories' index fields. *)
Fixpoint dpos (l : list node) (p : N) : list N :=
  match l with
  | [] => []
  | NFile _ _ _ :: l' => dpos l' (p + 80)
  | NDir _ _ _ :: l' => (p + 64) :: dpos l' (p + 80)
  end.

(** ** Saving one level *)
Lemma in_cat_writes w bs C o cache i f : writes w bs -> len C + len bs < max_size ->
  in_cat w (mkSv (mkW C (len C)) o cache i f) = Ret (tt, mkSv (mkW (C ++ bs) (len (C ++ bs))) o cache i f).
Proof.
  intros W B. unfold in_cat. cbn [sv_cat]. rewrite W by auto. cbn [wbuf sv_out sv_cache sv_index sv_files].
  rewrite len_app. reflexivity.
Qed.
Lemma in_cat_step {A} w bs (m : unit -> M saver A) C o cache i f : writes w bs -> len C + len bs < 2 ^ 32 ->
  bind (in_cat w) m (mkSv (mkW C (len C)) o cache i f) = m tt (mkSv (mkW (C ++ bs) (len (C ++ bs))) o cache i f).
Proof. intros W B. apply bind_eq. apply in_cat_writes; [assumption|]. rewrite max_size_val. lia. Qed.
Lemma u32_id n : n < 2 ^ 32 -> u32 n = n.
Proof. intros. apply N.mod_small. assumption. Qed.

Lemma load_cache_ok c fd b C o cache i f : file_bytes c fd b ->
  load_cache c fd (mkSv C o cache i f) = Ret ((len b, b), mkSv C o b i f).
Proof.
  intros (r & E1 & E2). unfold load_cache. rewrite E1. cbn [obind]. rewrite E2. cbn [obind sv_cache sv_cat sv_out sv_index sv_files].
  rewrite drop_all by (rewrite len_resize; lia). rewrite app_nil_r. reflexivity.
Qed.

Section Saving.
  Variable (c : codec) (z : bool) (base : N).
  Hypothesis Hc : codec_ok c.

  Lemma payload_writes nm t fd : storable c z (NFile nm t fd) ->
    let w := if z && negb (is_wave_file nm) then write_zipped c (cont c fd) else wr_write (cont c fd) in
    writes w (payload c z nm fd) /\ w (mkW [] base) = w (mkW (zeros base) base).
  Proof.
    intros S. inversion S as [? ? ? b N B L Z|]; subst. rewrite (cont_ok _ _ _ B). unfold payload, packed.
    rewrite (cont_ok _ _ _ B). destruct (z && negb (is_wave_file nm)); cbn zeta.
    - split; [apply write_zipped_writes; [assumption|lia]|apply write_zipped_pad].
    - split; [apply writes_raw|apply wr_write_pad].
  Qed.

  Lemma save_entry_ok last k C D o cache i f : storable c z k -> outs base D o ->
    len C + 80 < 2 ^ 32 -> base + len D + len (own c z k) < 2 ^ 32 -> i + 1 < 2 ^ 32 ->
    exists o' cache' f',
      save_entry c z last k (mkSv (mkW C (len C)) o cache i f) =
        Ret (match k with NDir _ _ _ => [len C + 64] | _ => [] end,
             let C' := C ++ row_bytes c (base + len D) last k in
             mkSv (mkW C' (len C')) o' cache' (i + 1) f') /\
      outs base (D ++ own c z k) o'.
  Proof.
    intros S O B1 B2 B3. pose proof max_size_val as Mx.
    unfold save_entry.
    rewrite (in_cat_step _ _ _ _ _ _ _ _ (writes_string _)) by (rewrite len_resize; lia).
    set (nmb := resize 64 x20 (nname k)) in *.
    assert (Ln : len nmb = 64) by apply len_resize.
    destruct k as [nm t fd|nm t l]; cbn [nname] in *.
    - destruct (payload_writes nm t fd S) as [W P]. cbn zeta in W, P.
      inversion S as [? ? ? b N B L Z|]; subst.
      pose proof (cont_ok _ _ _ B) as Ec. rewrite Ec in W, P.
      cbn [own] in B2.
      destruct (outs_write base D o _ _ O W P) as (o' & Eo & Oo').
      { rewrite Mx. lia. }
      exists o', b, (u32 (f + 1)). split; [|exact Oo'].
      rewrite bind_assoc. rewrite (bind_eq _ _ _ _ _ (load_cache_ok c fd b _ _ _ _ _ B)).
      assert (Et : in_out wr_tell (mkSv (mkW (C ++ nmb) (len (C ++ nmb))) o b i f) =
        Ret (base + len D, mkSv (mkW (C ++ nmb) (len (C ++ nmb))) o b i f)).
      { unfold in_out, wr_tell. cbn [sv_out]. destruct O as [[-> ->]| ->]; cbn [wpos]; [rewrite len_nil, N.add_0_r|]; reflexivity. }
      rewrite bind_assoc. rewrite (bind_eq _ _ _ _ _ Et). clear Et.
      rewrite (u32_id (base + len D)) by lia. rewrite (u32_id (len b)) by lia.
      rewrite !bind_assoc.
      rewrite (in_cat_step _ _ _ _ _ _ _ _ (writes_uint _)) by (rewrite !len_app, Ln, len_le_enc; lia). rewrite bind_assoc.
      rewrite (in_cat_step _ _ _ _ _ _ _ _ (writes_uint _)) by (rewrite !len_app, Ln, !len_le_enc; lia). rewrite bind_assoc.
      rewrite (in_cat_step _ _ _ _ _ _ _ _ (writes_uint _)) by (rewrite !len_app, Ln, !len_le_enc; lia). rewrite bind_assoc.
      match goal with |- context [bind (in_out ?w) _ ?s] =>
        assert (Ew : in_out w s = Ret (tt, mkSv (sv_cat s) o' b i f)) end.
      { unfold in_out. cbn [sv_out]. rewrite Eo. reflexivity. }
      rewrite (bind_eq _ _ _ _ _ Ew). clear Ew. cbn [sv_cat].
      rewrite bind_assoc. unfold next_file. unfold bind at 1. cbn [sv_cat sv_out sv_cache sv_index sv_files].
      unfold bind at 1. cbn [ret].
      rewrite (in_cat_step _ _ _ _ _ _ _ _ (writes_uint _)) by (rewrite !len_app, Ln, !len_le_enc; lia).
      unfold bind, next_index, ret. cbn [sv_cat sv_out sv_cache sv_index sv_files].
      rewrite (u32_id (i + 1)) by lia.
      cbn zeta. cbn [row_bytes]. rewrite Ec. unfold entry. fold nmb.
      rewrite <- !app_assoc. reflexivity.
    - cbn [own] in *. exists o, cache, f. split; [|rewrite app_nil_r; assumption].
      assert (Et : in_cat wr_tell (mkSv (mkW (C ++ nmb) (len (C ++ nmb))) o cache i f) =
        Ret (len (C ++ nmb), mkSv (mkW (C ++ nmb) (len (C ++ nmb))) o cache i f)) by reflexivity.
      rewrite bind_assoc. rewrite (bind_eq _ _ _ _ _ Et). clear Et. rewrite bind_assoc.
      rewrite (in_cat_step _ _ _ _ _ _ _ _ (writes_uint _)) by (rewrite !len_app, Ln, len_le_enc; lia). rewrite bind_assoc.
      rewrite (in_cat_step _ _ _ _ _ _ _ _ (writes_uint _)) by (rewrite !len_app, Ln, !len_le_enc; lia). rewrite bind_assoc.
      rewrite (in_cat_step _ _ _ _ _ _ _ _ (writes_uint _)) by (rewrite !len_app, Ln, !len_le_enc; lia).
      rewrite bind_ret_l.
      rewrite (in_cat_step _ _ _ _ _ _ _ _ (writes_uint _)) by (rewrite !len_app, Ln, !len_le_enc; lia).
      unfold bind, next_index, ret. cbn [sv_cat sv_out sv_cache sv_index sv_files].
      rewrite (u32_id (i + 1)) by lia. rewrite (u32_id (len (C ++ nmb))) by (rewrite len_app, Ln; lia).
      cbn zeta. cbn [row_bytes]. unfold entry. fold nmb.
      rewrite (len_app C nmb) at 1. rewrite Ln.
      rewrite <- !app_assoc. reflexivity.
  Qed.

  Lemma save_entries_ok l : forall C D o cache i f, Forall (storable c z) l -> outs base D o ->
    len C + 80 * len l < 2 ^ 32 -> base + len D + len (level_data c z l) < 2 ^ 32 -> i + len l < 2 ^ 32 ->
    exists o' cache' f',
      save_entries c z l (mkSv (mkW C (len C)) o cache i f) =
        Ret (dpos l (len C), let C' := C ++ level c z l (base + len D) in
                             mkSv (mkW C' (len C')) o' cache' (i + len l) f') /\
      outs base (D ++ level_data c z l) o'.
  Proof.
    induction l as [|k l IH]; intros C D o cache i f S O B1 B2 B3; cbn [save_entries].
    - exists o, cache, f. cbn. rewrite !app_nil_r, N.add_0_r. auto.
    - inversion S as [|? ? S1 S2]; subst. rewrite len_cons in *. cbn [level_data flat_map] in B2.
      rewrite len_app in B2. fold (level_data c z l) in B2.
      replace (match l with [] => true | _ :: _ => false end) with (is_nil l) by reflexivity.
      destruct (save_entry_ok (is_nil l) k C D o cache i f S1 O) as (o1 & ca1 & f1 & E1 & O1); try lia.
      rewrite (bind_eq _ _ _ _ _ E1). cbn zeta.
      destruct (IH (C ++ row_bytes c (base + len D) (is_nil l) k) (D ++ own c z k) o1 ca1 (i + 1) f1 S2 O1) as (o2 & ca2 & f2 & E2 & O2);
        try (rewrite ?len_app, ?len_row_bytes; lia).
      rewrite (bind_eq _ _ _ _ _ E2). cbn zeta. unfold ret.
      exists o2, ca2, f2. split.
      + cbn [level]. rewrite len_app, len_row_bytes.
        rewrite (len_app D), N.add_assoc, <- app_assoc.
        replace (i + (1 + len l)) with (i + 1 + len l) by lia.
        destruct k; reflexivity.
      + cbn [level_data flat_map]. fold (level_data c z l). rewrite app_assoc. assumption.
  Qed.

  (** ** What the finished file must contain *)
  Variable co : N.
  Definition file_flag (last : bool) : N := if last then 1073741824 else 0.
  Definition dir_flag (last : bool) : N := if last then 3221225472 else 2147483648.
  Fixpoint row (F : bytes) (p : N) (last : bool) (k : node) : Prop :=
    match k with
    | NFile nm _ fd => exists off, off < 2 ^ 32 /\ at_ F p (entry nm off (len (cont c fd)) (file_flag last)) /\
        at_ F off (payload c z nm fd)
    | NDir nm _ l => exists idx, co + 80 * idx < 2 ^ 32 /\ at_ F p (entry nm idx 0 (dir_flag last)) /\
        (fix rows (p : N) (l : list node) : Prop :=
           match l with [] => True | k :: l' => row F p (is_nil l') k /\ rows (p + 80) l' end) (co + 80 * idx) l
    end.
  Fixpoint rows (F : bytes) (p : N) (l : list node) : Prop :=
    match l with [] => True | k :: l' => row F p (is_nil l') k /\ rows F (p + 80) l' end.
  Lemma row_dir F p last nm t l : row F p last (NDir nm t l) <->
    exists idx, co + 80 * idx < 2 ^ 32 /\ at_ F p (entry nm idx 0 (dir_flag last)) /\ rows F (co + 80 * idx) l.
  Proof.
    cbn [row].
    assert (E : forall l p, (fix rows (p : N) (l : list node) : Prop :=
           match l with [] => True | k :: l' => row F p (is_nil l') k /\ rows (p + 80) l' end) p l <-> rows F p l).
    { clear. induction l as [|k l IH]; intros p; cbn [rows]; [reflexivity|]. rewrite IH. reflexivity. }
    split; intros (idx & H1 & H2 & H3); exists idx; (split; [assumption|split; [assumption|]]); apply E; assumption.
  Qed.

  (** ** Saving the directories of a level *)
  Fixpoint dirs_loop (l : list node) (offs : list N) : M saver unit :=
    match l with
    | [] => ret tt
    | (NFile _ _ _) :: l' => dirs_loop l' offs
    | ((NDir _ _ _) as d) :: l' =>
        match offs with
        | [] => undef
        | o :: offs' => patch_index o ;; write_node c z d ;; dirs_loop l' offs'
        end
    end.
  Lemma write_node_eq nm t l : write_node c z (NDir nm t l) = (let* offs := save_entries c z l in dirs_loop l offs).
  Proof. reflexivity. Qed.

  Lemma patch_ok buf p o cache i f : p + 4 <= len buf -> len buf < 2 ^ 32 ->
    patch_index p (mkSv (mkW buf (len buf)) o cache i f) =
    Ret (tt, mkSv (mkW (overwrite buf p (le_enc 4 i)) (len buf)) o cache i f).
  Proof.
    intros B1 B2. pose proof max_size_val as Mx.
    unfold patch_index, bind, in_cat, wr_tell, wr_seek, get. cbn [sv_cat sv_out sv_cache sv_index sv_files wpos wbuf seek_internal obind].
    rewrite uint_of_N by (apply N.lt_trans with (2 ^ 32); [lia|reflexivity]).
    unfold write_uint, wr_write. cbn [wpos wbuf]. rewrite len_le_enc. change (N.of_nat 4) with 4.
    destruct (N.ltb_spec (p + 4) max_size); [|rewrite Mx in *; lia].
    destruct (N.ltb_spec (len buf) (p + 4)); [lia|].
    cbn [sv_cat sv_out sv_cache sv_index sv_files wpos wbuf seek_internal obind].
    rewrite sint_small by (apply N.lt_trans with (2 ^ 32); [lia|reflexivity]).
    rewrite uint_of_N by (apply N.lt_trans with (2 ^ 32); [lia|reflexivity]). reflexivity.
  Qed.
  Lemma len_overwrite buf p b : p + len b <= len buf -> len (overwrite buf p b) = len buf.
  Proof. intros. unfold overwrite. rewrite !len_app, len_take, len_drop. lia. Qed.

  Fixpoint subt (l : list node) : N :=
    match l with
    | [] => 0
    | NFile _ _ _ :: l' => subt l'
    | NDir _ _ k :: l' => total k + subt l'
    end.
  Fixpoint dsub (l : list node) : N :=
    match l with
    | [] => 0
    | NFile _ _ _ :: l' => dsub l'
    | NDir _ _ k :: l' => dsizes c z k + dsub l'
    end.
  Lemma total_sub l : total l = len l + subt l.
  Proof.
    induction l as [|k l IH]; [reflexivity|]. rewrite total_cons, len_cons.
    destruct k; cbn [count_nodes subt]; fold total; [lia|]. fold (total children). lia.
  Qed.
  Lemma dsizes_sub l : dsizes c z l = len (level_data c z l) + dsub l.
  Proof.
    induction l as [|k l IH]; [reflexivity|]. rewrite dsizes_cons. cbn [level_data flat_map].
    rewrite len_app. fold (level_data c z l).
    destruct k; cbn [dsize dsub own]; [lia|]. fold (dsizes c z children). rewrite len_nil. lia.
  Qed.

  Definition saves_dir (l : list node) : Prop :=
    forall nm t C D o cache i f, len C = 80 * i -> outs base D o -> Forall (storable c z) l ->
    co + len C + 80 * total l <= base -> base + len D + dsizes c z l < 2 ^ 32 ->
    exists T E o' cache' f',
      write_node c z (NDir nm t l) (mkSv (mkW C (len C)) o cache i f) =
        Ret (tt, mkSv (mkW (C ++ T) (len (C ++ T))) o' cache' (i + total l) f') /\
      outs base (D ++ E) o' /\ len T = 80 * total l /\ len E = dsizes c z l /\
      forall F, at_ F (co + len C) T -> at_ F (base + len D) E -> rows F (co + len C) l.

  Lemma dirs_loop_ok l : Forall (fun k => match k with NDir _ _ ch => saves_dir ch | _ => True end) l ->
    forall A Ts doff D o cache i f,
    len A + 80 * len l + len Ts = 80 * i -> outs base D o -> Forall (storable c z) l ->
    co + 80 * i + 80 * subt l <= base -> base + len D + dsub l < 2 ^ 32 -> doff + len (level_data c z l) < 2 ^ 32 ->
    exists L Ts' E o' cache' f',
      (let C := A ++ level c z l doff ++ Ts in
       dirs_loop l (dpos l (len A)) (mkSv (mkW C (len C)) o cache i f)) =
        (let C' := A ++ L ++ Ts ++ Ts' in Ret (tt, mkSv (mkW C' (len C')) o' cache' (i + subt l) f')) /\
      outs base (D ++ E) o' /\ len L = 80 * len l /\ len Ts' = 80 * subt l /\ len E = dsub l /\
      forall F, at_ F (co + len A) L -> at_ F (co + 80 * i) Ts' ->
        at_ F doff (level_data c z l) -> at_ F (base + len D) E -> rows F (co + len A) l.
  Proof.
    induction 1 as [|k l Hk Hl IH]; intros A Ts doff D o cache i f Hi O S B1 B2 B3.
    - exists [], [], [], o, cache, f. cbn [level dirs_loop dpos subt dsub app rows].
      rewrite !app_nil_r, N.add_0_r. unfold ret. repeat split; auto.
    - inversion S as [|? ? S1 S2]; subst. rewrite len_cons in Hi. cbn [level_data flat_map] in B3.
      rewrite len_app in B3. fold (level_data c z l) in B3.
      destruct k as [nm t fd|nm t ch]; cbn [subt dsub dirs_loop dpos level] in *.
      + destruct (IH (A ++ row_bytes c doff (is_nil l) (NFile nm t fd)) Ts (doff + len (own c z (NFile nm t fd))) D o cache i f)
          as (L & Ts' & E & o' & ca' & f' & Ew & Oo & HL & HT & HE & HF); auto.
        { rewrite len_app, len_row_bytes. lia. }
        { lia. }
        rewrite len_app, len_row_bytes in Ew.
        exists (row_bytes c doff (is_nil l) (NFile nm t fd) ++ L), Ts', E, o', ca', f'.
        cbn zeta in *. rewrite <- !app_assoc in *. split; [exact Ew|]. split; [assumption|].
        rewrite len_app, len_row_bytes, len_cons. split; [lia|]. split; [assumption|]. split; [assumption|].
        intros F F1 F2 F3 F4. apply at_app in F1. destruct F1 as [F1 F1']. rewrite len_row_bytes in F1'.
        cbn [level_data flat_map] in F3. apply at_app in F3. destruct F3 as [F3 F3']. fold (level_data c z l) in F3'.
        cbn [rows]. split.
        * cbn [row]. exists doff. split; [lia|]. split; assumption.
        * rewrite len_app, len_row_bytes in HF. rewrite <- N.add_assoc. apply HF; auto.
          rewrite N.add_assoc. assumption.
      + pose proof max_size_val as Mx. cbn [own] in *. rewrite len_nil, N.add_0_r in *.
        set (C := A ++ (row_bytes c doff (is_nil l) (NDir nm t ch) ++ level c z l doff) ++ Ts).
        assert (LC : len C = 80 * i).
        { unfold C. rewrite !len_app, len_row_bytes, len_level. lia. }
        cbn zeta. rewrite (bind_eq _ _ _ _ _ (patch_ok C (len A + 64) o cache i f ltac:(lia) ltac:(lia))).
        set (R := entry nm i 0 (dir_flag (is_nil l))).
        assert (EC : overwrite C (len A + 64) (le_enc 4 i) = A ++ (R ++ level c z l doff) ++ Ts).
        { unfold C, overwrite, R, row_bytes, entry, dir_flag. rewrite len_le_enc. change (N.of_nat 4) with 4.
          rewrite take_app_r by lia. replace (len A + 64 - len A) with 64 by lia.
          rewrite <- !app_assoc. rewrite take_app_exact by (rewrite len_resize; reflexivity).
          f_equal. f_equal. f_equal.
          rewrite drop_app_r by lia. replace (len A + 64 + 4 - len A) with 68 by lia.
          rewrite drop_app_r by (rewrite len_resize; lia). rewrite len_resize. change (68 - 64) with 4.
          rewrite drop_app_exact by (rewrite len_le_enc; reflexivity). reflexivity. }
        rewrite EC.
        set (C1 := A ++ (R ++ level c z l doff) ++ Ts) in *.
        assert (LC1 : len C1 = 80 * i).
        { unfold C1. rewrite !len_app, len_level. unfold R. rewrite len_entry. lia. }
        replace (mkW C1 (len C)) with (mkW C1 (len C1)) by congruence.
        inversion S1 as [|? ? ? Sn Sne Sch]; subst.
        destruct (Hk nm t C1 D o cache i f LC1 O Sch) as (T & E1 & o1 & ca1 & f1 & Ew1 & O1 & HT1 & HE1 & HF1); try lia.
        rewrite (bind_eq _ _ _ _ _ Ew1).
        destruct (IH (A ++ R) (Ts ++ T) doff (D ++ E1) o1 ca1 (i + total ch) f1)
          as (L & Ts' & E & o' & ca' & f' & Ew & Oo & HL & HT & HE & HF); auto.
        { rewrite !len_app. unfold R. rewrite len_entry. lia. }
        { lia. }
        { rewrite len_app. lia. }
        exists (R ++ L), (T ++ Ts'), (E1 ++ E), o', ca', f'.
        assert (LR : len R = 80) by apply len_entry.
        cbn zeta in Ew. rewrite (len_app A R), LR in Ew.
        assert (X : (A ++ R) ++ level c z l doff ++ Ts ++ T = C1 ++ T).
        { unfold C1. rewrite <- !app_assoc. reflexivity. }
        rewrite X in Ew. rewrite Ew. clear X.
        split.
        { rewrite <- !app_assoc. rewrite N.add_assoc. reflexivity. }
        split; [rewrite app_assoc; assumption|]. rewrite !len_app, len_cons, LR.
        split; [lia|]. split; [lia|]. split; [lia|].
        intros F F1 F2 F3 F4. apply at_app in F1. destruct F1 as [F1 F1']. rewrite LR in F1'.
        apply at_app in F2. destruct F2 as [F2 F2']. apply at_app in F4. destruct F4 as [F4 F4'].
        cbn [level_data flat_map own app] in F3. fold (level_data c z l) in F3.
        cbn [rows]. split.
        * apply row_dir. exists i. split; [lia|]. split; [exact F1|].
          rewrite LC1 in HF1. apply HF1; assumption.
        * rewrite len_app, LR in HF. rewrite <- N.add_assoc. apply HF; auto.
          -- rewrite N.add_assoc. assumption.
          -- rewrite HT1 in F2'. replace (co + 80 * (i + total ch)) with (co + 80 * i + 80 * total ch) by lia. assumption.
          -- rewrite len_app, N.add_assoc. assumption.
  Qed.

  Lemma saves_all n : match n with NDir _ _ l => saves_dir l | _ => True end.
  Proof.
    induction n as [|nm0 t0 l IH] using node_ind'; [trivial|].
    intros nm t C D o cache i f LC O S B1 B2. rewrite write_node_eq.
    pose proof (total_sub l) as Et. pose proof (dsizes_sub l) as Ed.
    destruct (save_entries_ok l C D o cache i f S O) as (o1 & ca1 & f1 & E1 & O1); try lia.
    rewrite (bind_eq _ _ _ _ _ E1).
    destruct (dirs_loop_ok l IH C [] (base + len D) (D ++ level_data c z l) o1 ca1 (i + len l) f1)
      as (L & Ts' & E & o' & ca' & f' & Ew & Oo & HL & HT & HE & HF); auto.
    { rewrite len_nil. lia. }
    { lia. }
    { rewrite len_app. lia. }
    { lia. }
    cbn zeta in Ew. rewrite !app_nil_r in Ew. cbn [app] in Ew. cbn zeta. rewrite Ew.
    exists (L ++ Ts'), (level_data c z l ++ E), o', ca', f'.
    split; [rewrite Et, N.add_assoc; reflexivity|]. split; [rewrite app_assoc; assumption|].
    rewrite !len_app. split; [lia|]. split; [lia|].
    intros F F1 F2. apply at_app in F1. destruct F1 as [F1 F1']. apply at_app in F2. destruct F2 as [F2 F2'].
    apply HF; auto.
    - replace (co + 80 * (i + len l)) with (co + len C + len L) by lia. assumption.
    - rewrite len_app, N.add_assoc. assumption.
  Qed.
End Saving.
