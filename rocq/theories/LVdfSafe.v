(** Mounting arbitrary bytes as a disk. *)

From Coq Require Import Sorted Lia.
From Verif Require Import MBase MStream MZipped MVfs SStream SZipped SVfs SVdf LBase LStream LStreamHist LStreamProps LZipped
  LVfs LVfsOps LVfsHist.
Local Open Scope N_scope.
Local Open Scope m_scope.
Ltac Zify.zify_post_hook ::= idtac.

(** ** Reads are safe in every state *)
Definition calm {A} (F : bytes) (Q : A -> Prop) (m : rd A) : Prop :=
  forall p, p <= len F -> exists a q, m (mkR F p) = Ret (a, mkR F q) /\ q <= len F /\ Q a.
Definition tame {A} (F : bytes) (Q : A -> Prop) (m : rd A) : Prop :=
  forall p, p <= len F ->
    match m (mkR F p) with
    | Ret (a, s) => rdata s = F /\ rpos s <= len F /\ Q a
    | Throw e => e = OtherExn
    | Undef => False
    | Fuel => True
    end.
Section Safe.
  Variable (F : bytes).
  Hypothesis HF : len F < 2 ^ 62.
  Let LF : len F < max_size.
  Proof. rewrite max_size_val. change (2 ^ 62) with 4611686018427387904 in HF. lia. Qed.

  Lemma calm_tame {A} (Q : A -> Prop) m : calm F Q m -> tame F Q m.
  Proof. intros C p Hp. destruct (C p Hp) as (a & q & -> & Hq & Ha). auto. Qed.
  Lemma tame_bind {A B} (Q : A -> Prop) (R : B -> Prop) (m : rd A) (k : A -> rd B) :
    tame F Q m -> (forall a, Q a -> tame F R (k a)) -> tame F R (bind m k).
  Proof.
    intros Hm Hk p Hp. specialize (Hm p Hp). unfold bind. destruct (m (mkR F p)) as [[a [d q]]|e| |]; auto.
    destruct Hm as (Hd & Hq & Ha). cbn [rdata rpos] in *. subst d. apply Hk; assumption.
  Qed.
  Lemma tame_ret {A} (Q : A -> Prop) (a : A) : Q a -> tame F Q (ret a).
  Proof. intros H p Hp. cbn. auto. Qed.
  Lemma tame_weaken {A} (Q R : A -> Prop) m : (forall a, Q a -> R a) -> tame F Q m -> tame F R m.
  Proof.
    intros H T p Hp. specialize (T p Hp). destruct (m (mkR F p)) as [[a s]|e| |]; auto.
    destruct T as (H1 & H2 & H3). auto.
  Qed.

  Lemma tame_read n : n <= 2 ^ 63 -> tame F (fun b => len b <= n) (rd_read n).
  Proof.
    intros Hn p Hp. rewrite rd_read_spec by (auto; split; assumption). cbn [rdata rpos].
    split; [reflexivity|]. rewrite len_take, len_drop. split; lia.
  Qed.
  Lemma tame_fixed n : n <= 2 ^ 63 -> tame F (fun b => len b = n) (rd_fixed n).
  Proof.
    intros Hn. unfold rd_fixed. eapply tame_bind; [apply tame_read; assumption|]. intros b Hb. apply tame_ret.
    cbn beta in *. unfold pad_to. rewrite len_app, len_zeros. lia.
  Qed.
  Lemma tame_uint : tame F (fun v => v < 2 ^ 32) read_uint.
  Proof.
    unfold read_uint. eapply tame_bind; [apply (tame_fixed 4); discriminate|]. intros b Hb. apply tame_ret.
    cbn beta in *. eapply N.lt_le_trans; [apply le_dec_bound|]. rewrite Hb. discriminate.
  Qed.
  Lemma tame_string n : n < max_size -> tame F (fun _ => True) (read_string n).
  Proof.
    intros Hn. unfold read_string. destruct (N.ltb_spec n max_size); [|lia].
    eapply tame_weaken; [|apply tame_fixed]; [trivial|]. rewrite max_size_val in Hn.
    change (2 ^ 63) with 9223372036854775808. lia.
  Qed.
  Lemma tame_seek_beg off : tame F (fun _ => True) (rd_seek off BEG).
  Proof.
    intros p Hp. unfold rd_seek. cbn [seek_internal rdata rpos obind].
    destruct (N.ltb_spec (len F) (uint 64 off)); cbn [rdata rpos]; auto.
  Qed.
  Lemma tame_tell : tame F (fun p => p <= len F) rd_tell.
  Proof. intros p Hp. cbn. auto. Qed.
  Definition fine (l : list node) : Prop := good l /\ Forall in_bounds_mod l.
  Lemma fine_nil : fine [].
  Proof. split; [apply good_nil|constructor]. Qed.
  Lemma fine_create l k : fine l -> wf k -> in_bounds_mod k -> fine (create_kid l k).
  Proof.
    intros [G B] W K. split; [apply good_create; assumption|]. rewrite Forall_forall in *.
    intros c Hc. apply create_kid_In in Hc. destruct Hc as [->|Hc]; auto.
  Qed.
  Lemma fine_remove l x : fine l -> fine (snd (remove_kid l x)).
  Proof.
    intros [G B]. split; [apply good_remove; assumption|]. rewrite Forall_forall in *.
    intros c Hc. apply B. eapply remove_kid_In; eassumption.
  Qed.
  Lemma fine_put l nm t k k' : fine l -> In (NDir nm t k) l -> fine k' -> fine (put_kid l nm (NDir nm t k')).
  Proof.
    intros [[S W] B] I [G B']. unfold put_kid. split; [split|].
    - apply (sorted_names l); [|assumption]. clear - S. induction l as [|c l IH]; [reflexivity|]. cbn [upd_first map].
      apply sorted_cons in S. destruct S as [S _].
      destruct (bytes_eqP (nname c) nm) as [E|E]; cbn [map nname]; [congruence|]. rewrite <- IH by assumption. reflexivity.
    - rewrite Forall_forall in *. intros c Hc. apply upd_first_In in Hc. destruct Hc as [Hc|(d & _ & _ & ->)]; [auto|].
      apply good_wf. assumption.
    - rewrite Forall_forall in B |- *. intros c Hc. apply upd_first_In in Hc. destruct Hc as [Hc|(d & _ & _ & ->)]; [auto|].
      constructor. assumption.
  Qed.

  Section Entry.
    Variable (pol : policy) (co : N) (ts : Z) (z : bool) (rec : list node -> rd (list node)).
    Hypothesis Hrec : forall l, fine l -> tame F fine (rec l).

    Lemma tame_enter pos last l it : fine l -> In it l -> tame F (fun r => fine (snd r)) (enter_dir rec pos last l it).
    Proof.
      intros Fl I. destruct it as [nm t fd|nm t k]; cbn [enter_dir].
      - intros p Hp. reflexivity.
      - assert (Fk : fine k).
        { destruct Fl as [[S W] B]. rewrite Forall_forall in W, B. specialize (W _ I). specialize (B _ I).
          split; [eapply good_wf; exact W|]. inversion B. assumption. }
        eapply tame_bind; [apply tame_tell|]. intros self Hs.
        eapply tame_bind; [apply tame_seek_beg|]. intros _ _.
        eapply tame_bind; [apply Hrec; assumption|]. intros k' Fk'.
        eapply tame_bind; [apply tame_seek_beg|]. intros _ _.
        apply tame_ret. cbn [snd]. eapply fine_put; eassumption.
    Qed.
    Lemma tame_make pos last name l : fine l -> tame F (fun r => fine (snd r)) (make_dir rec pos last ts name l).
    Proof.
      intros Fl. unfold make_dir.
      assert (F1 : fine (create_kid l (directory name ts))).
      { apply fine_create; [assumption|apply wf_dir|constructor; constructor]. }
      assert (S1 : sorted (create_kid l (directory name ts))) by apply F1.
      destruct (kid_create_kid_any l (directory name ts)) as [it E]; [apply Fl|]. cbn [nname directory] in E.
      rewrite set_find_kid by assumption. unfold directory in E. fold (directory name ts) in E. rewrite E.
      apply tame_enter; [assumption|]. apply kid_In in E. apply E.
    Qed.
    Lemma tame_entry l : fine l -> tame F (fun r => fine (snd r)) (load_entry pol co ts z F rec l).
    Proof.
      intros Fl. unfold load_entry.
      eapply tame_bind; [apply tame_string; rewrite max_size_val; reflexivity|]. intros raw _.
      eapply tame_bind; [apply tame_uint|]. intros off Ho.
      eapply tame_bind; [apply tame_uint|]. intros size Hs.
      eapply tame_bind; [apply tame_uint|]. intros ty Ht.
      eapply tame_bind; [apply tame_uint|]. intros x _.
      cbn zeta. set (name := entry_name raw). set (last := negb (N.land ty 1073741824 =? 0)).
      set (pos := u32 (co + u32 (off * 80))).
      assert (FC : forall e, find_child l name = Some e -> In e l).
      { intros e He. destruct Fl as [[S _] _]. rewrite find_child_kid in He by assumption. apply kid_In in He. apply He. }
      destruct (negb (N.land ty 2147483648 =? 0)).
      - destruct (find_child l name) as [e|] eqn:E.
        + destruct (is_file e).
          * destruct (keeps pol (ntime e) ts); [apply tame_ret; assumption|].
            apply tame_make. apply fine_remove. assumption.
          * apply tame_enter; auto.
        + apply tame_make. assumption.
      - destruct (if z then len F <=? off else len F <? u32 (off + size)) eqn:C; [apply tame_ret; assumption|].
        set (fd := make_fd F off (if z then len F - off else size) z size).
        assert (IB : in_bounds_mod (NFile name ts fd)).
        { constructor. unfold fd, make_fd. cbn [fd_off fd_size fd_buf]. destruct z.
          - apply N.leb_gt in C. left. lia.
          - apply N.ltb_ge in C. destruct (N.lt_ge_cases (off + size) (2 ^ 32)) as [L|L]; [|auto].
            unfold u32 in C. rewrite N.mod_small in C by assumption. auto. }
        destruct (find_child l name) as [e|].
        + destruct (keeps pol (ntime e) ts); apply tame_ret; [assumption|].
          apply fine_create; [apply fine_remove; assumption|constructor|assumption].
        + apply tame_ret. apply fine_create; [assumption|constructor|assumption].
    Qed.
  End Entry.

  Lemma tame_table fuel pol co ts z : forall l, fine l -> tame F fine (load_table fuel pol co ts z F l).
  Proof.
    induction fuel as [|fuel IH]; intros l Fl; cbn [load_table]; [intros p Hp; exact I|].
    eapply tame_bind; [apply tame_entry; assumption|]. intros [b l'] Fl'. cbn [fst snd] in *.
    destruct b; [apply tame_ret; assumption|apply IH; assumption].
  Qed.
End Safe.

Lemma mount_disk_safe fuel k pol root buf : len buf < 2 ^ 62 -> wf root -> in_bounds_mod root -> is_dir (Some root) ->
  match mount_disk fuel k pol root buf with
  | Ret root' => wf root' /\ in_bounds_mod root'
  | Throw e => e = VfsBrokenDisk \/ e = OtherExn
  | Undef => False
  | Fuel => True
  end.
Proof.
  intros L W B (nm & t & l & E). injection E as ->. unfold mount_disk.
  assert (Fl : fine l).
  { split; [eapply good_wf; exact W|]. inversion B. assumption. }
  set (m := (let* _ := read_string 256 in _)).
  assert (T : forall p, p <= len buf ->
    match m (mkR buf p) with
    | Ret (a, s) => fine a
    | Throw e => e = VfsBrokenDisk \/ e = OtherExn
    | Undef => False
    | Fuel => True
    end).
  { assert (step : forall A B (Q : A -> Prop) (x : rd A) (f : A -> rd B) (R : outcome (B * rstate) -> Prop),
      tame buf Q x -> R (Throw OtherExn) -> R Fuel ->
      (forall a, Q a -> forall p, p <= len buf -> R (f a (mkR buf p))) -> forall p, p <= len buf -> R (bind x f (mkR buf p))).
    { intros A B0 Q x f R T RT RF K p Hp. specialize (T p Hp). unfold bind.
      destruct (x (mkR buf p)) as [[a [d q]]|e| |]; [|subst; assumption|contradiction|assumption].
      destruct T as (H1 & H2 & H3). cbn [rdata rpos] in *. subst d. apply K; assumption. }
    set (R := fun o : outcome (list node * rstate) => match o with
      | Ret (a, s) => fine a | Throw e => e = VfsBrokenDisk \/ e = OtherExn | Undef => False | Fuel => True end).
    change (forall p, p <= len buf -> R (m (mkR buf p))). unfold m.
    assert (RT : R (Throw OtherExn)) by (right; reflexivity). assert (RF : R Fuel) by exact I.
    eapply step; [apply tame_string; [assumption|rewrite max_size_val; reflexivity]|assumption|assumption|]. intros ? _.
    eapply step; [apply tame_string; [assumption|rewrite max_size_val; reflexivity]|assumption|assumption|]. intros sig _.
    eapply step; [apply tame_uint; assumption|assumption|assumption|]. intros ? _.
    eapply step; [apply tame_uint; assumption|assumption|assumption|]. intros ? _.
    eapply step; [apply tame_uint; assumption|assumption|assumption|]. intros dos _.
    eapply step; [apply tame_uint; assumption|assumption|assumption|]. intros ? _.
    eapply step; [apply tame_uint; assumption|assumption|assumption|]. intros co _.
    eapply step; [apply tame_uint; assumption|assumption|assumption|]. intros fl _.
    destruct (negb _); [intros p Hp; left; reflexivity|].
    eapply step; [apply tame_tell; assumption|assumption|assumption|]. intros here _.
    cbn zeta.
    eapply step; [apply tame_seek_beg; assumption|assumption|assumption|]. intros _ _ p Hp.
    pose proof (tame_table buf L fuel pol (if co =? 0 then u32 here else co) (mktime k (dos_unpack dos)) (fl =? flag_zipped) l Fl p Hp) as T.
    unfold R. destruct (load_table _ _ _ _ _ _ _ _) as [[l9 s9]|e| |]; auto. apply T. }
  specialize (T 0 ltac:(lia)). unfold r_from. destruct (m (mkR buf 0)) as [[a s]|e| |]; auto.
  destruct T as [G IB]. split; [apply good_wf; assumption|constructor; assumption].
Qed.

(** ** Tables that never end *)
Lemma read_at_end F n : len F < max_size -> n <= 2 ^ 63 -> rd_fixed n (mkR F (len F)) = Ret (zeros n, mkR F (len F)).
Proof.
  intros L Hn. assert (OK : r_ok (mkR F (len F))) by (split; [apply N.le_refl|exact L]).
  unfold rd_fixed, bind. rewrite rd_read_spec by assumption. cbn [rdata rpos].
  replace (N.min n (len F - len F)) with 0 by lia. rewrite take_0, N.add_0_r. unfold ret, pad_to. cbn [app].
  rewrite len_nil, N.sub_0_r. reflexivity.
Qed.
Lemma table_at_end F pol co ts z : len F < max_size -> forall fuel l, load_table fuel pol co ts z F l (mkR F (len F)) = Fuel.
Proof.
  intros L. induction fuel as [|fuel IH]; intros l; [reflexivity|]. cbn [load_table].
  assert (E : exists l', load_entry pol co ts z F (load_table fuel pol co ts z F) l (mkR F (len F)) = Ret ((false, l'), mkR F (len F))).
  { unfold load_entry.
    assert (RU : read_uint (mkR F (len F)) = Ret (0, mkR F (len F))).
    { unfold read_uint. rewrite (bind_eq _ _ _ _ _ (read_at_end F 4 L ltac:(discriminate))). reflexivity. }
    assert (RS : exists b, read_string 64 (mkR F (len F)) = Ret (b, mkR F (len F))).
    { unfold read_string. destruct (64 <? max_size) eqn:M; [|rewrite max_size_val in M; discriminate].
      rewrite (read_at_end F 64 L ltac:(discriminate)). eexists. reflexivity. }
    destruct RS as [raw RS]. rewrite (bind_eq _ _ _ _ _ RS).
    do 4 rewrite (bind_eq _ _ _ _ _ RU). cbn zeta.
    change (N.land 0 2147483648) with 0. change (N.land 0 1073741824) with 0. cbn [N.eqb negb].
    destruct (if z then _ else _); [eexists; reflexivity|].
    destruct (find_child l (entry_name raw)); [|eexists; reflexivity].
    destruct (keeps pol (ntime n) ts); eexists; reflexivity. }
  destruct E as [l' E]. rewrite (bind_eq _ _ _ _ _ E). apply IH.
Qed.
