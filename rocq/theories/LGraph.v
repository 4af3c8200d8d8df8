(** Reading back what the object layer wrote, at the level of contents (format-independent). *)

From Coq Require Import String Lia.
From Verif Require Import MBase MStream MBoxes MText MClasses MArchive SStream SArchive LBase LDaedalus.
Local Open Scope N_scope.
Local Open Scope m_scope.

Lemma class_facts t cls : class_of_type t = Some cls ->
  type_of_class cls = t /\ bytes_eqb cls [xa7] = false /\ bytes_eqb cls (lit "%") = false /\
  no_class cls = false /\ shown_class ABinary cls = cls /\ shown_class ABinsafe cls = cls /\
  shown_class AAscii cls = cls /\ word_ok cls = true.
Proof.
  destruct t; intros H; vm_compute in H; try discriminate H; injection H as <-; vm_compute;
    (split; [reflexivity|]); repeat (split; [reflexivity|]); reflexivity.
Qed.
Lemma shown_class_of f t cls : class_of_type t = Some cls -> shown_class f cls = cls.
Proof. intros H. apply class_facts in H. destruct f; apply H. Qed.

Lemma nodup_app_r {A} (l1 l2 : list A) : NoDup (l1 ++ l2) -> NoDup l2.
Proof. induction l1 as [|x l1 IH]; intros H; [exact H|]. inversion H; subst. apply IH. assumption. Qed.

Definition inb (r : oid) (l : list oid) : bool := existsb (N.eqb r) l.
Lemma inb_spec r l : inb r l = true <-> In r l.
Proof.
  unfold inb. rewrite existsb_exists. split.
  - intros [x [H E]]. apply N.eqb_eq in E. subst. exact H.
  - intros H. exists r. split; [exact H | apply N.eqb_refl].
Qed.
Lemma inb_false r l : ~ In r l -> inb r l = false.
Proof. intros H. destruct (inb r l) eqn:E; [|reflexivity]. apply inb_spec in E. contradiction. Qed.

Section G.
  Variable C : classes.
  Variable G : oid -> option (c_ob C).
  Variable f : fmt.
  Hypothesis HG : graph_ok C G f.

  Notation wcache := (list (oid * N)).
  Fixpoint rc_of (wc : wcache) : list (N * oid) :=
    match wc with [] => [] | (r, i) :: wc' => (i, len wc') :: rc_of wc' end.
  Definition hentry (ph : oid -> oid) (anc : list oid) (e : oid * N) : hobj (c_ob C) :=
    mkHobj (g_type C G (fst e)) (snd e)
           (if inb (fst e) anc then None else option_map (c_map C ph) (G (fst e))).
  Definition heap_of (ph : oid -> oid) (anc : list oid) (wc : wcache) : heap (c_ob C) :=
    map (hentry ph anc) (rev wc).

  Definition cache_ok (w : nw) (wc : wcache) : Prop :=
    NoDup (map fst wc) /\ NoDup (map snd wc) /\
    Forall (fun e => snd e < nw_idx w /\ G (fst e) <> None) wc.

  Lemma len_heap_of ph anc wc : len (heap_of ph anc wc) = len wc.
  Proof. unfold heap_of, len. rewrite map_length, rev_length. reflexivity. Qed.

  Lemma place_app (ext wc : wcache) r : NoDup (map fst (ext ++ wc)) -> In r (map fst wc) ->
    place (ext ++ wc) r = place wc r.
  Proof.
    induction ext as [|e ext IH]; intros Hn Hr; [reflexivity|].
    cbn [app map] in Hn. inversion Hn as [|? ? Hni Hn']; subst.
    cbn [app place]. destruct (N.eqb_spec (fst e) r) as [E|E].
    - exfalso. apply Hni. rewrite E, map_app. apply in_or_app. right; exact Hr.
    - apply IH; assumption.
  Qed.
  Lemma place_nth (wc : wcache) r : In r (map fst wc) ->
    exists i, nth_error (rev wc) (N.to_nat (place wc r)) = Some (r, i) /\ place wc r < len wc.
  Proof.
    induction wc as [|e wc IH]; intros Hr; [contradiction|].
    cbn [place rev]. destruct (N.eqb_spec (fst e) r) as [E|E].
    - exists (snd e). split.
      + unfold len. rewrite Nnat.Nat2N.id. rewrite nth_error_app2 by (rewrite rev_length; lia).
        rewrite rev_length, Nat.sub_diag. cbn. destruct e; cbn in *; subst; reflexivity.
      + unfold len. cbn [length]. lia.
    - cbn [map] in Hr. destruct Hr as [Hr|Hr]; [contradiction|].
      destruct (IH Hr) as [i [Hi Hl]]. exists i. split.
      + rewrite nth_error_app1; [exact Hi|]. rewrite rev_length. unfold len in Hl. lia.
      + unfold len in *. cbn [length]. lia.
  Qed.
  Lemma nth_heap_of ph anc (wc : wcache) r : In r (map fst wc) ->
    exists i, nth_N (heap_of ph anc wc) (place wc r) = Some (hentry ph anc (r, i)).
  Proof.
    intros Hr. destruct (place_nth wc r Hr) as [i [Hi Hl]]. exists i.
    unfold nth_N. rewrite len_heap_of. apply N.ltb_lt in Hl. rewrite Hl.
    unfold heap_of. rewrite nth_error_map, Hi. reflexivity.
  Qed.

  Lemma cache_find_rc wc r i : NoDup (map snd wc) -> wcache_find r wc = Some i ->
    cache_find i (rc_of wc) = Some (place wc r).
  Proof.
    unfold wcache_find, cache_find.
    induction wc as [|[r' i'] wc IH]; intros Hn Hf; cbn in *; [discriminate|].
    inversion Hn as [|? ? Hni Hn']; subst.
    destruct (N.eqb_spec r' r) as [E|E]; cbn [snd] in Hf.
    - injection Hf as <-. rewrite N.eqb_refl. reflexivity.
    - destruct (N.eqb_spec i' i) as [Ei|Ei]; [|apply IH; assumption].
      exfalso. subst i'. apply Hni.
      destruct (find (fun e => fst e =? r) wc) as [e|] eqn:Ef; [|discriminate].
      injection Hf as <-. apply find_some in Ef. apply in_map. apply Ef.
  Qed.
  Lemma wcache_find_in wc r i : wcache_find r wc = Some i -> In r (map fst wc).
  Proof.
    unfold wcache_find. intros H.
    match type of H with match ?x with _ => _ end = _ => destruct x as [e|] eqn:Ef; [|discriminate] end.
    apply find_some in Ef as [Hi E]. apply N.eqb_eq in E. subst r. apply in_map, Hi.
  Qed.
  Lemma wcache_find_none wc r : wcache_find r wc = None -> ~ In r (map fst wc).
  Proof.
    unfold wcache_find. intros H Hin.
    match type of H with match ?x with _ => _ end = _ => destruct x as [e|] eqn:Ef; [discriminate|] end.
    apply in_map_iff in Hin as [e [E Hin]]. eapply find_none in Ef; [|exact Hin].
    apply N.eqb_neq in Ef. contradiction.
  Qed.

  Notation rdo := (read_obj (nprims f) (c_load C) (c_flags C)).
  Notation wro := (write_obj nwprims (g_graph C G)).

  (** Node [nd], written when the cache was [wc] and leaving it as [wc'], reads back as [r]. *)
  Definition readable (n : nat) (wc : wcache) (r : option oid) (nd : node) (wc' : wcache) : Prop :=
    forall wcF extF anc rest st,
      wcF = extF ++ wc' -> NoDup (map fst wcF) -> NoDup (map snd wcF) ->
      incl anc (map fst wc) ->
      (forall rr, r = Some rr -> Forall (fun a => reaches C G a rr) anc) ->
      rdo n (mkRg ((nd :: rest) :: st) (rc_of wc) (heap_of (place wcF) anc wc)) =
      Ret (option_map (place wcF) r, mkRg (rest :: st) (rc_of wc') (heap_of (place wcF) anc wc')).

  (** The same for the operations of a save function; [Q] holds of the objects they refer to. *)
  Inductive trace (n : nat) (Q : oid -> Prop) : wcache -> list (wop oid) -> list node -> wcache -> Prop :=
  | T_nil wc : trace n Q wc [] [] wc
  | T_entry wc name k e ops nds wc' :
      trace n Q wc ops nds wc' -> trace n Q wc (WEntry name e :: ops) (NEntry name k e :: nds) wc'
  | T_obj wc name r nd wc1 ops nds wc' :
      readable n wc r nd wc1 ->
      (exists ext, wc1 = ext ++ wc) -> (forall rr, r = Some rr -> In rr (map fst wc1) /\ G rr <> None /\ Q rr) ->
      trace n Q wc1 ops nds wc' -> trace n Q wc (WObj name r :: ops) (nd :: nds) wc'
  | T_sub wc name cls ver i l nds wc1 ops nds' wc' :
      (no_class cls = true -> i = 0) ->
      trace n Q wc l nds wc1 -> trace n Q wc1 ops nds' wc' ->
      trace n Q wc (WSub name cls ver l :: ops) (NObj (mkH name cls ver i) nds :: nds') wc'.

  Lemma trace_ext n Q wc ops nds wc' : trace n Q wc ops nds wc' -> exists ext, wc' = ext ++ wc.
  Proof.
    induction 1 as [wc | wc name k e ops nds wc' _ IH | wc name r nd wc1 ops nds wc' _ He _ _ IH |
                    wc name cls ver i l nds wc1 ops nds' wc' _ _ IH1 _ IH2].
    - exists []. reflexivity.
    - exact IH.
    - destruct He as [e1 ->], IH as [e2 ->]. exists (e2 ++ e1). apply app_assoc.
    - destruct IH1 as [e1 ->], IH2 as [e2 ->]. exists (e2 ++ e1). apply app_assoc.
  Qed.

  Lemma trace_refs n Q wc ops nds wc' : trace n Q wc ops nds wc' ->
    forall rr, In rr (flat_map wop_refs ops) -> In rr (map fst wc').
  Proof.
    induction 1 as [wc | wc name k e ops nds wc' _ IH | wc name r nd wc1 ops nds wc' _ _ Hr Ht IH |
                    wc name cls ver i l nds wc1 ops nds' wc' _ _ IH1 Ht IH2]; intros rr Hin.
    - destruct Hin.
    - apply IH. exact Hin.
    - cbn [flat_map wop_refs] in Hin. apply in_app_or in Hin as [Hin|Hin]; [|apply IH; exact Hin].
      apply trace_ext in Ht as [e ->]. rewrite map_app. apply in_or_app. right.
      destruct r as [r|]; [|destruct Hin]. destruct Hin as [<-|[]]. apply (Hr r eq_refl).
    - cbn [flat_map wop_refs] in Hin. apply in_app_or in Hin as [Hin|Hin]; [|apply IH2; exact Hin].
      apply trace_ext in Ht as [e ->]. rewrite map_app. apply in_or_app. right. apply IH1. exact Hin.
  Qed.
  Lemma place_inj (wc : wcache) a b : In a (map fst wc) -> In b (map fst wc) -> place wc a = place wc b -> a = b.
  Proof.
    intros Ha Hb E. destruct (place_nth wc a Ha) as (i & Hi & _). destruct (place_nth wc b Hb) as (j & Hj & _).
    rewrite E in Hi. congruence.
  Qed.

  Inductive strace (n : nat) (Q : oid -> Prop) : wcache -> list (list (wop oid)) -> nstack -> wcache -> Prop :=
  | ST_nil wc : strace n Q wc [] [] wc
  | ST_cons wc ops nds wc1 wss nst wc' :
      trace n Q wc ops nds wc1 -> strace n Q wc1 wss nst wc' ->
      strace n Q wc (ops :: wss) (nds :: nst) wc'.
  Lemma strace_ext n Q wc wss nst wc' : strace n Q wc wss nst wc' -> exists ext, wc' = ext ++ wc.
  Proof.
    induction 1 as [wc | wc ops nds wc1 wss nst wc' Ht _ IH]; [exists []; reflexivity|].
    apply trace_ext in Ht as [e1 ->]. destruct IH as [e2 ->]. exists (e2 ++ e1). apply app_assoc.
  Qed.

  Definition flags_now (anc : list oid) (r : oid) : Z := if inb r anc then 0%Z else g_flags C G r.

  Lemma heap_shows ph anc wc r : In r (map fst wc) -> G r <> None -> ph = ph ->
    heap_type (heap_of ph anc wc) (place wc r) = g_type C G r /\
    heap_flags (c_flags C) (heap_of ph anc wc) (place wc r) = flags_now anc r.
  Proof.
    intros Hin Hg _. destruct (nth_heap_of ph anc wc r Hin) as [i Hi].
    unfold heap_type, heap_flags. rewrite Hi. cbn [hentry ho_type ho_val fst].
    split; [reflexivity|]. unfold flags_now.
    destruct (inb r anc); [reflexivity|]. unfold g_flags.
    destruct (G r) as [x|] eqn:E; [|contradiction]. cbn [option_map].
    apply (HG r x E).
  Qed.

  Lemma runp_flat {A} n (Q : oid -> Prop) (wcF : wcache) anc t0 (tail0 : nstack) (p : prog oid A) : forall (wc : wcache) wss nst wcE extF a wss',
    wcF = extF ++ wcE -> NoDup (map fst wcF) -> NoDup (map snd wcF) ->
    incl anc (map fst wc) ->
    (forall rr, Q rr -> Forall (fun a => reaches C G a rr) anc) ->
    strace n Q wc wss nst wcE ->
    flat f (place wcF) (g_type C G) (flags_now anc) p wss = Some (a, wss') ->
    exists nst' wc1, strace n Q wc1 wss' nst' wcE /\ incl (map fst wc) (map fst wc1) /\
      runp (nprims f) (c_flags C) (rdo n) p (mkRg (nst ++ t0 :: tail0) (rc_of wc) (heap_of (place wcF) anc wc)) =
      Ret (a, mkRg (nst' ++ t0 :: tail0) (rc_of wc1) (heap_of (place wcF) anc wc1)).
  Proof.
    induction p as [a0 | e | | | k c IH | c IH | c IH | c IH | cur p IH];
      intros wc wss nst wcE extF a wss' HF Hn1 Hn2 Hanc HQ Hst Hflat; cbn [flat] in Hflat.
    - injection Hflat as <- <-. exists nst, wc. split; [exact Hst|]. split; [apply incl_refl | reflexivity].
    - discriminate.
    - discriminate.
    - discriminate.
    - (* PRead *)
      destruct wss as [|[|[name e|name r|name cls ver l|e0|] ops] wss]; try discriminate.
      destruct (kmatch k e) as [v|] eqn:Ek; [|discriminate].
      inversion Hst as [|? ? ? ? ? ? ? Ht Hs]; subst.
      inversion Ht as [|? ? ky ? ? ? ? Ht'| |]; subst.
      edestruct (IH v wc (ops :: wss) (nds0 :: nst0)) as (nst' & wc1' & H1 & H2 & H3);
        [reflexivity | exact Hn1 | exact Hn2 | exact Hanc | exact HQ |
         econstructor; [exact Ht' | exact Hs] | exact Hflat |].
      exists nst', wc1'. split; [exact H1|]. split; [exact H2|].
      cbn [runp]. unfold bind at 1. unfold rgl at 1. cbn [rg_s rg_cache rg_heap nprims p_read app].
      unfold n_read. rewrite Ek. exact H3.
    - (* PObj *)
      destruct wss as [|[|[name e|name r|name cls ver l|e0|] ops] wss]; try discriminate.
      inversion Hst as [|? ? ? ? ? ? ? Ht Hs]; subst.
      inversion Ht as [| |? ? ? nd wc1' ? ? ? Hr He Hin Ht'|]; subst.
      assert (Hx : exists e2, extF ++ wcE = e2 ++ wc1').
      { apply strace_ext in Hs as [e2 E2]. apply trace_ext in Ht' as [e3 E3].
        exists (extF ++ e2 ++ e3). rewrite <- !app_assoc. rewrite E2. rewrite E3. rewrite !app_assoc. reflexivity. }
      destruct Hx as [e2 E2].
      assert (Hinc : incl (map fst wc) (map fst wc1')).
      { destruct He as [ext ->]. rewrite map_app. apply incl_appr, incl_refl. }
      edestruct (IH (match r with Some r => Some (place (extF ++ wcE) r, g_type C G r, flags_now anc r) | None => None end)
                    wc1' (ops :: wss) (nds0 :: nst0)) as (nst' & wc2 & H1 & H2 & H3);
        [reflexivity | exact Hn1 | exact Hn2 | intros z Hz; apply Hinc, Hanc, Hz | exact HQ |
         econstructor; [exact Ht' | exact Hs] | exact Hflat |].
      exists nst', wc2. split; [exact H1|]. split; [intros z Hz; apply H2, Hinc, Hz|].
      cbn [runp]. unfold bind at 1. cbn [app].
      rewrite (Hr (extF ++ wcE) e2 anc nds0 (nst0 ++ t0 :: tail0) E2 Hn1 Hn2 Hanc).
      + destruct r as [rr|]; cbn [option_map].
        * destruct (Hin rr eq_refl) as (Hi & Hg & _).
          destruct (heap_shows (place (extF ++ wcE)) anc wc1' rr Hi Hg eq_refl) as [Ht1 Ht2].
          cbn [rg_heap]. rewrite E2 in *. rewrite (place_app e2 wc1' rr Hn1 Hi) in *.
          rewrite Ht1, Ht2. exact H3.
        * exact H3.
      + intros rr ->. apply HQ. apply (Hin rr eq_refl).
    - (* PBegin *)
      destruct wss as [|[|[name e|name r|name cls ver l|e0|] ops] wss]; try discriminate.
      destruct (no_class cls) eqn:Ec; [|discriminate].
      inversion Hst as [|? ? ? ? ? ? ? Ht Hs]; subst.
      inversion Ht as [| | |? ? ? ? i ? nds' wc1' ? ? ? Hi Ht1 Ht2]; subst.
      specialize (Hi Ec). subst i.
      edestruct (IH (Some (mkH name (shown_class f cls) ver 0)) wc (l :: ops :: wss) (nds' :: nds'0 :: nst0))
        as (nst' & wc2 & H1 & H2 & H3);
        [reflexivity | exact Hn1 | exact Hn2 | exact Hanc | exact HQ |
         econstructor; [exact Ht1 | econstructor; [exact Ht2 | exact Hs]] | exact Hflat |].
      exists nst', wc2. split; [exact H1|]. split; [exact H2|].
      cbn [runp]. unfold bind at 1. unfold rgl at 1. cbn [rg_s rg_cache rg_heap nprims p_begin app n_begin].
      exact H3.
    - (* PEnd *)
      destruct wss as [|[|o ops] wss]; try discriminate; [destruct wss as [|ops2 wss]; [discriminate|]|].
      + inversion Hst as [|? ? ? ? ? ? ? Ht Hs]; subst.
        inversion Ht; subst.
        inversion Hs as [|? ? ? ? ? ? ? Ht' Hs']; subst.
        edestruct (IH true wc1 (ops2 :: wss)) as (nst' & wc2 & H1 & H2 & H3);
          [reflexivity | exact Hn1 | exact Hn2 | exact Hanc | exact HQ | exact Hs | exact Hflat |].
        exists nst', wc2. split; [exact H1|]. split; [exact H2|].
        cbn [runp]. unfold bind at 1. unfold rgl at 1. cbn [rg_s rg_cache rg_heap nprims p_end app n_end].
        exact H3.
      + edestruct (IH false wc ((o :: ops) :: wss)) as (nst' & wc2 & H1 & H2 & H3);
          [exact HF | exact Hn1 | exact Hn2 | exact Hanc | exact HQ | exact Hst | exact Hflat |].
        exists nst', wc2. split; [exact H1|]. split; [exact H2|].
        cbn [runp]. unfold bind at 1. unfold rgl at 1. cbn [rg_s rg_cache rg_heap nprims p_end].
        inversion Hst as [|? ? ? ? ? ? ? Ht Hs]; subst.
        assert (exists nd nds', nds = nd :: nds') as (nd & nds' & ->) by (inversion Ht; subst; eauto).
        inversion Hs; subst; cbn [app n_end]; exact H3.
    - discriminate.
  Qed.

  (** ** Writing *)
  Lemma run_wop_sub rec name cls ver l :
    run_wop nwprims rec (WSub name cls ver l) =
    (wgl (wp_begin nwprims name cls ver) ;; run_wops nwprims rec l ;; wgl (wp_end nwprims)).
  Proof. reflexivity. Qed.

  Definition wrote (n : nat) (Q : oid -> Prop) (ops : list (wop oid)) (w : nw) (wc : wcache) (w' : nw) (wc' : wcache) : Prop :=
    exists nds, nw_cur w' = nw_cur w ++ nds /\ nw_open w' = nw_open w /\ nw_idx w <= nw_idx w' /\
      (exists ext, wc' = ext ++ wc) /\ cache_ok w' wc' /\ trace n Q wc ops nds wc'.
  Definition wrote_obj (n : nat) (r : option oid) (w : nw) (wc : wcache) (w' : nw) (wc' : wcache) : Prop :=
    exists nd, nw_cur w' = nw_cur w ++ [nd] /\ nw_open w' = nw_open w /\ nw_idx w <= nw_idx w' /\
      (exists ext, wc' = ext ++ wc) /\ cache_ok w' wc' /\
      (forall rr, r = Some rr -> In rr (map fst wc') /\ G rr <> None) /\ readable n wc r nd wc'.

  Lemma wop_ind2 (P : wop oid -> Prop) :
    (forall name e, P (WEntry name e)) -> (forall name r, P (WObj name r)) ->
    (forall name cls ver l, Forall P l -> P (WSub name cls ver l)) -> (forall e, P (WThrow e)) -> P WUndef ->
    forall o, P o.
  Proof.
    intros H1 H2 H3 H4 H5. fix IH 1. intros [name e|name r|name cls ver l|e|]; [apply H1 | apply H2 | | apply H4 | apply H5].
    apply H3. induction l as [|o l IHl]; constructor; [apply IH | exact IHl].
  Qed.

  Lemma cache_ok_mono w w' wc : nw_idx w <= nw_idx w' -> cache_ok w wc -> cache_ok w' wc.
  Proof.
    intros Hle (H1 & H2 & H3). split; [exact H1|]. split; [exact H2|].
    eapply Forall_impl; [|exact H3]. intros e [Hlt He]. cbn in Hlt. split; [lia | exact He].
  Qed.

  Section Ops.
    Variable n : nat.
    Hypothesis IHn : forall name r w wc w' wc',
      wro n name r (mkWg w wc) = Ret (tt, mkWg w' wc') -> cache_ok w wc -> wrote_obj n r w wc w' wc'.

    Lemma written_ops_of (Q : oid -> Prop) ops : Forall (fun o => forall w wc w' wc',
        run_wop nwprims (wro n) o (mkWg w wc) = Ret (tt, mkWg w' wc') -> cache_ok w wc ->
        (forall rr, In rr (wop_refs o) -> Q rr) -> wrote n Q [o] w wc w' wc') ops ->
      forall w wc w' wc',
        run_wops nwprims (wro n) ops (mkWg w wc) = Ret (tt, mkWg w' wc') -> cache_ok w wc ->
        (forall rr, In rr (flat_map wop_refs ops) -> Q rr) -> wrote n Q ops w wc w' wc'.
    Proof.
      induction 1 as [|o ops Ho _ IH]; intros w wc w' wc' Hr Hc HQ; cbn [run_wops] in Hr.
      - injection Hr as <- <-. exists []. rewrite app_nil_r. split; [reflexivity|]. split; [reflexivity|].
        split; [lia|]. split; [exists []; reflexivity|]. split; [exact Hc | constructor].
      - apply bind_Ret in Hr as ([] & [w1 wc1] & H1 & H2).
        destruct (Ho w wc w1 wc1 H1 Hc) as (nds1 & A1 & A2 & A3 & [e1 A4] & A5 & A6).
        { intros rr Hin. apply HQ. cbn [flat_map]. apply in_or_app. left; exact Hin. }
        destruct (IH w1 wc1 w' wc' H2 A5) as (nds2 & B1 & B2 & B3 & [e2 B4] & B5 & B6).
        { intros rr Hin. apply HQ. cbn [flat_map]. apply in_or_app. right; exact Hin. }
        exists (nds1 ++ nds2). split; [rewrite B1, A1, app_assoc; reflexivity|].
        split; [congruence|]. split; [lia|].
        split; [exists (e2 ++ e1); subst; apply app_assoc|]. split; [exact B5|].
        clear - A6 B6. remember [o] as os eqn:Eo.
        destruct A6 as [wc | wc name k e ops0 nds wc1 Ht | wc name r nd wc0 ops0 nds wc1 Hra He Hin Ht |
                        wc name cls ver i l nds wc0 ops0 nds' wc1 Hi Ht1 Ht]; [discriminate| | |];
          injection Eo as <- ->; (inversion Ht; subst); cbn [app].
        + constructor. exact B6.
        + econstructor; [exact Hra | exact He | exact Hin | exact B6].
        + econstructor; [exact Hi | exact Ht1 | exact B6].
    Qed.

    Lemma written_op (Q : oid -> Prop) o : forall w wc w' wc',
      run_wop nwprims (wro n) o (mkWg w wc) = Ret (tt, mkWg w' wc') -> cache_ok w wc ->
      (forall rr, In rr (wop_refs o) -> Q rr) -> wrote n Q [o] w wc w' wc'.
    Proof.
      induction o as [name e|name r|name cls ver l IHl|e|] using wop_ind2; intros w wc w' wc' Hr Hc HQ.
      - cbn [run_wop nwprims wp_entry] in Hr. unfold wgl, nw_entry in Hr. cbn [wg_s wg_cache] in Hr.
        destruct (key_pos name (nw_keys w) 0) as [i|]; injection Hr as <- <-;
          (eexists; split; [reflexivity|]; split; [reflexivity|]; split; [cbn; lia|];
           split; [exists []; reflexivity|]; split; [exact Hc | constructor; constructor]).
      - cbn [run_wop] in Hr. destruct (IHn name r w wc w' wc' Hr Hc) as (nd & A1 & A2 & A3 & A4 & A5 & A6 & A7).
        exists [nd]. split; [exact A1|]. split; [exact A2|]. split; [exact A3|]. split; [exact A4|]. split; [exact A5|].
        econstructor; [exact A7 | exact A4 | | constructor].
        intros rr ->. destruct (A6 rr eq_refl) as [Hi Hg]. split; [exact Hi|]. split; [exact Hg|].
        apply HQ. left; reflexivity.
      - rewrite run_wop_sub in Hr. apply bind_Ret in Hr as (i & [w1 wc1] & H1 & H2).
        unfold wgl in H1 at 1. cbn [nwprims wp_begin nw_begin wg_s wg_cache] in H1. injection H1 as <- <- <-.
        apply bind_Ret in H2 as ([] & [w2 wc2] & H2 & H3).
        unfold wgl in H3. cbn [nwprims wp_end wg_s wg_cache] in H3. unfold nw_end in H3.
        edestruct (written_ops_of Q l IHl _ _ _ _ H2) as (nds & B1 & B2 & B3 & B4 & B5 & B6).
        { eapply cache_ok_mono; [|exact Hc]. cbn [nw_idx]. destruct (no_class cls); lia. }
        { exact HQ. }
        cbn [nw_cur nw_open nw_idx] in B1, B2, B3.
        rewrite B2 in H3. injection H3 as <- <-.
        exists [NObj (mkH name cls ver (if no_class cls then 0 else nw_idx w)) nds].
        cbn [nw_cur nw_open nw_idx]. rewrite B1. split; [reflexivity|]. split; [reflexivity|].
        split; [destruct (no_class cls); lia|]. split; [exact B4|]. split; [exact B5|].
        econstructor; [|exact B6 | constructor]. intros ->. reflexivity.
      - discriminate.
      - discriminate.
    Qed.
    Lemma written_ops (Q : oid -> Prop) ops : forall w wc w' wc',
      run_wops nwprims (wro n) ops (mkWg w wc) = Ret (tt, mkWg w' wc') -> cache_ok w wc ->
      (forall rr, In rr (flat_map wop_refs ops) -> Q rr) -> wrote n Q ops w wc w' wc'.
    Proof. apply written_ops_of. apply Forall_forall. intros o _. apply written_op. Qed.
  End Ops.

  Lemma heap_of_push ph anc wc r i : ~ In r (map fst wc) ->
    heap_of ph anc wc ++ [mkHobj (g_type C G r) i None] = heap_of ph (r :: anc) ((r, i) :: wc).
  Proof.
    intros Hn. unfold heap_of. cbn [rev]. rewrite map_app. cbn [map]. f_equal.
    - apply map_ext_in. intros e He. unfold hentry. f_equal.
      cbn [inb existsb]. destruct (N.eqb_spec (fst e) r) as [E|E]; [|reflexivity].
      exfalso. apply Hn. rewrite <- E. apply in_map. apply in_rev. exact He.
    - unfold hentry. cbn [fst snd inb existsb]. rewrite N.eqb_refl. reflexivity.
  Qed.
  Lemma heap_set_done ph anc ext wc r i x : NoDup (map fst (ext ++ (r, i) :: wc)) -> ~ In r anc ->
    G r = Some x ->
    heap_set (heap_of ph (r :: anc) (ext ++ (r, i) :: wc)) (len wc) (c_map C ph x) =
    heap_of ph anc (ext ++ (r, i) :: wc).
  Proof.
    intros Hn Ha Hx. unfold heap_set, heap_of.
    rewrite rev_app_distr. cbn [rev]. rewrite <- app_assoc. cbn [app].
    rewrite map_app. cbn [map].
    assert (Hl : len (map (hentry ph (r :: anc)) (rev wc)) = len wc).
    { unfold len. rewrite map_length, rev_length. reflexivity. }
    assert (Hnth : nth_N (map (hentry ph (r :: anc)) (rev wc) ++ hentry ph (r :: anc) (r, i) :: map (hentry ph (r :: anc)) (rev ext)) (len wc)
                   = Some (hentry ph (r :: anc) (r, i))).
    { unfold nth_N. rewrite len_app, Hl.
      replace (len wc <? len wc + len (hentry ph (r :: anc) (r, i) :: map (hentry ph (r :: anc)) (rev ext))) with true
        by (symmetry; apply N.ltb_lt; rewrite len_cons; lia).
      rewrite nth_error_app2 by (rewrite map_length, rev_length; unfold len; lia).
      rewrite map_length, rev_length. unfold len. rewrite Nnat.Nat2N.id, Nat.sub_diag. reflexivity. }
    rewrite Hnth. cbn [ho_type ho_index hentry fst snd].
    rewrite map_app. cbn [map].
    rewrite map_app, map_cons in Hn. cbn [fst] in Hn.
    apply NoDup_remove_2 in Hn.
    rewrite (take_app_exact (len wc)) by (symmetry; exact Hl).
    replace (len wc + 1) with (len (map (hentry ph (r :: anc)) (rev wc) ++ [hentry ph (r :: anc) (r, i)])) by (rewrite len_app, Hl; reflexivity).
    change (map (hentry ph (r :: anc)) (rev wc) ++ hentry ph (r :: anc) (r, i) :: map (hentry ph (r :: anc)) (rev ext))
      with (map (hentry ph (r :: anc)) (rev wc) ++ [hentry ph (r :: anc) (r, i)] ++ map (hentry ph (r :: anc)) (rev ext)).
    rewrite app_assoc, drop_app_exact by reflexivity.
    assert (Hm : forall l : wcache, (forall e, In e l -> fst e <> r) -> map (hentry ph (r :: anc)) l = map (hentry ph anc) l).
    { intros l Hle. apply map_ext_in. intros e He. unfold hentry. f_equal. cbn [inb existsb].
      destruct (N.eqb_spec (fst e) r) as [E|E]; [exfalso; apply (Hle e He E) | reflexivity]. }
    f_equal; [|f_equal].
    - apply Hm. intros e He E. apply Hn. apply in_or_app. right. rewrite <- E. apply in_map. apply in_rev, He.
    - unfold hentry. cbn [fst snd]. rewrite inb_false by exact Ha. rewrite Hx. reflexivity.
    - apply Hm. intros e He E. apply Hn. apply in_or_app. left. rewrite <- E. apply in_map. apply in_rev, He.
  Qed.

  Lemma read_obj_eq n : rdo (S n) =
        let* h := rgl (p_begin (nprims f)) in
        match h with
        | None => ret None
        | Some h =>
            if bytes_eqb (oh_class h) [xa7] then
              let* e := rgl (p_end (nprims f)) in
              (if e then ret tt else rgl (p_skip (nprims f) true)) ;;
              fun g => Ret (cache_find (oh_idx h) (rg_cache g), g)
            else if bytes_eqb (oh_class h) (lit "%") then
              rgl (p_skip (nprims f) true) ;; ret None
            else
              let t := type_of_class (oh_class h) in
              let* made :=
                match c_load C t with
                | None => ret None
                | Some p => fun g =>
                    let r := len (rg_heap g) in
                    (let* v := runp (nprims f) (c_flags C) (rdo n) p in
                     fun g' => Ret (Some r, mkRg (rg_s g') (rg_cache g') (heap_set (rg_heap g') r v)))
                      (mkRg (rg_s g) ((oh_idx h, r) :: rg_cache g)
                            (rg_heap g ++ [mkHobj t (oh_idx h) None]))
                end in
              let* e := rgl (p_end (nprims f)) in
              (if e then ret tt else rgl (p_skip (nprims f) true)) ;;
              ret made
        end.
  Proof. reflexivity. Qed.

  Lemma written n : forall name r w wc w' wc',
    wro n name r (mkWg w wc) = Ret (tt, mkWg w' wc') -> cache_ok w wc -> wrote_obj n r w wc w' wc'.
  Proof.
    induction n as [|n IHn]; intros name r w wc w' wc' Hr Hc; [discriminate|].
    cbn [write_obj] in Hr. destruct r as [r|].
    - cbn [wg_cache] in Hr. destruct (wcache_find r wc) as [i|] eqn:Ef.
      + (* a reference *)
        unfold wgl in Hr. cbn [nwprims wp_ref nw_ref wg_s wg_cache] in Hr. injection Hr as <- <-.
        pose proof (wcache_find_in _ _ _ Ef) as Hin.
        eexists. split; [reflexivity|]. split; [reflexivity|]. split; [cbn; lia|].
        split; [exists []; reflexivity|]. split; [exact Hc|]. split.
        { intros rr E. injection E as <-. split; [exact Hin|].
          destruct Hc as (_ & _ & Hf). rewrite Forall_forall in Hf.
          apply in_map_iff in Hin as [e [<- He]]. apply (Hf e He). }
        intros wcF extF anc rest st HF Hn1 Hn2 Hanc Hreach.
        rewrite read_obj_eq. unfold bind at 1, rgl at 1. cbn [rg_s rg_cache rg_heap nprims p_begin n_begin oh_name oh_class oh_ver oh_idx].
        replace (shown_class f [xa7]) with [xa7] by (destruct f; reflexivity).
        change (bytes_eqb [xa7] [xa7]) with true. cbv iota.
        unfold bind at 1, rgl at 1. cbn [rg_s rg_cache rg_heap nprims p_end n_end].
        unfold bind, ret. cbn [rg_cache]. rewrite (cache_find_rc wc r i (proj1 (proj2 Hc)) Ef).
        subst wcF. cbn [option_map]. rewrite (place_app extF wc r Hn1 Hin). reflexivity.
      + (* a new object *)
        unfold g_graph in Hr. destruct (G r) as [x|] eqn:Ex; [|discriminate].
        destruct (class_of_type (c_type C x)) as [cls|] eqn:Ecls; [|discriminate].
        pose proof (class_facts _ _ Ecls) as (Ft & F1 & F2 & F3 & _).
        pose proof (wcache_find_none _ _ Ef) as Hnin.
        apply bind_Ret in Hr as (i & [w1 wc1] & H1 & H2).
        unfold wgl in H1 at 1. cbn [nwprims wp_begin nw_begin wg_s wg_cache] in H1. rewrite F3 in H1. injection H1 as <- <- <-.
        unfold bind at 1, cache_put at 1 in H2. cbn [wg_s wg_cache] in H2.
        apply bind_Ret in H2 as ([] & [w2 wc2] & H2 & H3).
        unfold wgl in H3. cbn [nwprims wp_end wg_s wg_cache] in H3. unfold nw_end in H3.
        set (i := nw_idx w) in *.
        assert (Hc1 : cache_ok (mkNw [] ((mkH name cls (c_ver C x) i, nw_cur w) :: nw_open w) (i + 1) (nw_keys w)) ((r, i) :: wc)).
        { destruct Hc as (C1 & C2 & C3). split; [cbn [map fst]; constructor; assumption|].
          split.
          - cbn [map snd]. constructor; [|exact C2]. intros Hin. apply in_map_iff in Hin as [e [E He]].
            rewrite Forall_forall in C3. specialize (C3 e He). cbn in C3. unfold i in E. lia.
          - constructor; [cbn [fst snd nw_idx]; split; [lia | congruence]|].
            eapply Forall_impl; [|exact C3]. intros e [A B]. cbn [nw_idx]. split; [unfold i; lia | exact B]. }
        edestruct (written_ops n IHn (fun rr => refers C G r rr) (g_ops C G x) _ _ _ _ H2 Hc1)
          as (nds & B1 & B2 & B3 & [ext B4] & B5 & B6).
        { intros rr Hin. exists x. split; [exact Ex | exact Hin]. }
        cbn [nw_cur nw_open nw_idx app] in B1, B2, B3.
        rewrite B2 in H3. injection H3 as <- <-.
        exists (NObj (mkH name cls (c_ver C x) i) nds). cbn [nw_cur nw_open nw_idx].
        rewrite B1. split; [reflexivity|]. split; [reflexivity|]. split; [unfold i in *; lia|].
        split; [exists (ext ++ [(r, i)]); rewrite B4, <- app_assoc; reflexivity|].
        split; [exact B5|]. split.
        { intros rr E. injection E as <-. split; [|congruence].
          rewrite B4, map_app. apply in_or_app. right. left. reflexivity. }
        intros wcF extF anc rest st HF Hn1 Hn2 Hanc Hreach.
        assert (Hra : ~ In r anc) by (intros Hin; apply Hnin, Hanc, Hin).
        destruct (HG r x Ex) as [(_ & _ & Hob) Hlook].
        edestruct (Hob (place wcF) (flags_now (r :: anc)) []) as (p & Hp & Hflat).
        { assert (Hin : forall q, In q (flat_map wop_refs (g_ops C G x)) -> In q (map fst wcF)).
          { intros q Hq. rewrite HF, map_app. apply in_or_app. right. exact (trace_refs _ _ _ _ _ _ B6 q Hq). }
          intros a b Ha Hb. apply place_inj; apply Hin; assumption. }
        { intros q Hq. unfold flags_now. destruct (inb q (r :: anc)) eqn:Eq; [|reflexivity].
          exfalso. apply (Hlook q Hq). apply inb_spec in Eq. destruct Eq as [<-|Hin]; [constructor|].
          specialize (Hreach r eq_refl). rewrite Forall_forall in Hreach. apply Hreach, Hin. }
        edestruct (runp_flat n (fun rr => refers C G r rr) wcF (r :: anc) rest st p ((r, i) :: wc)
                     [g_ops C G x] [nds] wc2 extF) as (nst' & wc3 & S1 & _ & S3);
          [exact HF | exact Hn1 | exact Hn2 | | | | exact Hflat |].
        { intros z [<-|Hz]; [left; reflexivity | right; apply Hanc, Hz]. }
        { intros rr Hrr. constructor; [econstructor; [constructor | exact Hrr]|].
          eapply Forall_impl; [|exact (Hreach r eq_refl)]. intros a Ha. econstructor; [exact Ha | exact Hrr]. }
        { econstructor; [exact B6 | constructor]. }
        inversion S1 as [|? ? ? ? ? ? ? Ht Hs]; subst ops wss wc3 wc'. inversion Ht; subst. inversion Hs; subst.
        rewrite read_obj_eq. unfold bind at 1, rgl at 1.
        cbn [rg_s rg_cache rg_heap nprims p_begin n_begin oh_name oh_class oh_ver oh_idx].
        rewrite (shown_class_of f _ _ Ecls), F1, F2, Ft, Hp. cbv zeta.
        unfold bind at 1. cbn [rg_s rg_cache rg_heap].
        rewrite len_heap_of.
        assert (Egt : c_type C x = g_type C G r) by (unfold g_type; rewrite Ex; reflexivity).
        rewrite Egt, (heap_of_push _ _ _ _ _ Hnin). 
        change ((i, len wc) :: rc_of wc) with (rc_of ((r, i) :: wc)).
        unfold bind at 1. cbn [app] in S3.
        match type of S3 with _ = ?rhs => match goal with |- context [runp ?x1 ?x2 ?x3 ?x4 ?x5] =>
          replace (runp x1 x2 x3 x4 x5) with rhs by (symmetry; exact S3) end end.
        cbn [rg_s rg_cache rg_heap].
        rewrite (heap_set_done (place (extF ++ ext ++ (r, i) :: wc)) anc ext wc r i x).
        * unfold bind at 1, rgl at 1. cbn [rg_s rg_cache rg_heap nprims p_end n_end app].
          unfold bind, ret. cbn [option_map].
          replace (place (extF ++ ext ++ (r, i) :: wc) r) with (len wc); [reflexivity|].
          rewrite app_assoc in Hn1 |- *. rewrite place_app; [|exact Hn1 | left; reflexivity].
          cbn [place fst]. rewrite N.eqb_refl. reflexivity.
        * rewrite map_app in Hn1. apply nodup_app_r in Hn1. exact Hn1.
        * exact Hra.
        * exact Ex.
    - (* null *)
      apply bind_Ret in Hr as (i & [w1 wc1] & H1 & H2).
      unfold wgl in H1 at 1. cbn [nwprims wp_begin nw_begin wg_s wg_cache no_class] in H1.
      change (bytes_eqb (lit "%") (lit "%")) with true in H1. cbn [lit] in H1.
      cbn in H1. injection H1 as <- <- <-. cbn in H2. injection H2 as <- <-.
      eexists. split; [reflexivity|]. split; [reflexivity|]. split; [cbn; lia|].
      split; [exists []; reflexivity|]. split; [exact Hc|]. split; [discriminate|].
      intros wcF extF anc rest st HF Hn1 Hn2 Hanc Hreach.
      rewrite read_obj_eq. unfold bind at 1, rgl at 1. cbn [rg_s rg_cache rg_heap nprims p_begin n_begin oh_name oh_class oh_ver oh_idx].
      destruct f; reflexivity.
  Qed.

  (** ** The graph theorem *)
  Theorem graph_round_trip n name root nd w wc :
    content C G n name root = Some (nd, w, wc) ->
    exists h cache,
      rdo n (mkRg [[nd]] [] []) = Ret (option_map (place wc) root, mkRg [[]] cache h) /\
      same_graph C G wc h.
  Proof.
    unfold content. destruct (wro n name root (mkWg nw_empty [])) as [[[] [w1 wc1]]| | |] eqn:Ew; try discriminate.
    cbn [wg_s wg_cache]. destruct (nw_cur w1) as [|nd1 [|nd2 l]] eqn:Ec; try discriminate.
    intros E. injection E as -> -> ->.
    assert (H0 : cache_ok nw_empty []) by (split; [constructor|]; split; constructor).
    destruct (written n name root nw_empty [] w wc Ew H0) as (nd' & A1 & A2 & A3 & _ & A5 & A6 & A7).
    cbn [nw_empty nw_cur app] in A1. rewrite Ec in A1. injection A1 as <-.
    destruct A5 as (C1 & C2 & C3).
    exists (heap_of (place wc) [] wc), (rc_of wc). split.
    - apply (A7 wc [] [] [] []); [reflexivity | exact C1 | exact C2 | intros z [] | intros; constructor].
    - split; [apply len_heap_of|]. intros r Hr.
      destruct (nth_heap_of (place wc) [] wc r Hr) as [i Hi].
      assert (Hx : G r <> None).
      { apply in_map_iff in Hr as [e [<- He]]. rewrite Forall_forall in C3. apply (C3 e He). }
      destruct (G r) as [x|] eqn:Ex; [|contradiction]. exists x, i. split; [reflexivity|].
      rewrite Hi. unfold hentry. cbn [fst snd inb existsb]. unfold g_type. rewrite Ex. reflexivity.
  Qed.
End G.

(** ** Everything that can be reached is written *)
Section Closed.
  Variable C : classes.
  Variable G : oid -> option (c_ob C).
  Context {St : Type} (P : wprims St).
  Notation wcache := (list (oid * N)).
  Notation wro := (write_obj P (g_graph C G)).

  Definition closed_ext (wc wc' : wcache) : Prop :=
    exists ext, wc' = ext ++ wc /\
      forall a b, In a (map fst ext) -> refers C G a b -> In b (map fst wc').
  Lemma closed_refl wc : closed_ext wc wc.
  Proof. exists []. split; [reflexivity | intros a b []]. Qed.
  Lemma closed_trans w1 w2 w3 : closed_ext w1 w2 -> closed_ext w2 w3 -> closed_ext w1 w3.
  Proof.
    intros (e1 & E1 & H1) (e2 & E2 & H2). exists (e2 ++ e1). split; [subst; apply app_assoc|].
    intros a b Ha Hr. rewrite map_app in Ha. apply in_app_or in Ha as [Ha|Ha]; [eapply H2; eassumption|].
    rewrite E2, map_app. apply in_or_app. right. eapply H1; eassumption.
  Qed.
  Lemma closed_keeps w1 w2 r : closed_ext w1 w2 -> In r (map fst w1) -> In r (map fst w2).
  Proof. intros (e & -> & _) H. rewrite map_app. apply in_or_app. right; exact H. Qed.

  Section Ops.
    Variable n : nat.
    Hypothesis IHn : forall name r s wc s' wc', wro n name r (mkWg s wc) = Ret (tt, mkWg s' wc') ->
      closed_ext wc wc' /\ (forall rr, r = Some rr -> In rr (map fst wc')).
    Lemma closed_op o : forall s wc s' wc', run_wop P (wro n) o (mkWg s wc) = Ret (tt, mkWg s' wc') ->
      closed_ext wc wc' /\ forall rr, In rr (wop_refs o) -> In rr (map fst wc').
    Proof.
      assert (Hl : forall l, Forall (fun o => forall s wc s' wc', run_wop P (wro n) o (mkWg s wc) = Ret (tt, mkWg s' wc') ->
          closed_ext wc wc' /\ forall rr, In rr (wop_refs o) -> In rr (map fst wc')) l ->
        forall s wc s' wc', run_wops P (wro n) l (mkWg s wc) = Ret (tt, mkWg s' wc') ->
          closed_ext wc wc' /\ forall rr, In rr (flat_map wop_refs l) -> In rr (map fst wc')).
      { induction 1 as [|o' l Ho _ IH]; intros s wc s' wc' Hr; cbn [run_wops] in Hr.
        - injection Hr as <- <-. split; [apply closed_refl | intros rr []].
        - apply bind_Ret in Hr as ([] & [s1 wc1] & H1 & H2).
          destruct (Ho _ _ _ _ H1) as [A1 A2]. destruct (IH _ _ _ _ H2) as [B1 B2].
          split; [eapply closed_trans; eassumption|].
          intros rr Hin. cbn [flat_map] in Hin. apply in_app_or in Hin as [Hin|Hin]; [|apply B2, Hin].
          eapply closed_keeps; [exact B1 | apply A2, Hin]. }
      induction o as [name e|name r|name cls ver l IHl|e|] using wop_ind2; intros s wc s' wc' Hr.
      - cbn [run_wop] in Hr. unfold wgl in Hr. cbn [wg_s wg_cache] in Hr.
        destruct (wp_entry P name e s) as [[[] s1]| | |]; try discriminate. injection Hr as <- <-.
        split; [apply closed_refl | intros rr []].
      - cbn [run_wop] in Hr. destruct (IHn _ _ _ _ _ _ Hr) as [A B]. split; [exact A|].
        intros rr Hin. destruct r as [r|]; [|destruct Hin]. destruct Hin as [<-|[]]. apply B. reflexivity.
      - change (run_wop P (wro n) (WSub name cls ver l)) with
          (wgl (wp_begin P name cls ver) ;; run_wops P (wro n) l ;; wgl (wp_end P)) in Hr.
        apply bind_Ret in Hr as (i & [s1 wc1] & H1 & H2).
        apply bind_Ret in H2 as ([] & [s2 wc2] & H2 & H3).
        unfold wgl in H1, H3. cbn [wg_s wg_cache] in H1, H3.
        destruct (wp_begin P name cls ver s) as [[i1 s3]| | |]; try discriminate. injection H1 as <- <- <-.
        destruct (wp_end P s2) as [[[] s4]| | |]; try discriminate. injection H3 as <- <-.
        apply (Hl l IHl _ _ _ _ H2).
      - discriminate.
      - discriminate.
    Qed.
    Lemma closed_ops l : forall s wc s' wc', run_wops P (wro n) l (mkWg s wc) = Ret (tt, mkWg s' wc') ->
      closed_ext wc wc' /\ forall rr, In rr (flat_map wop_refs l) -> In rr (map fst wc').
    Proof.
      induction l as [|o' l IH]; intros s wc s' wc' Hr; cbn [run_wops] in Hr.
      - injection Hr as <- <-. split; [apply closed_refl | intros rr []].
      - apply bind_Ret in Hr as ([] & [s1 wc1] & H1 & H2).
        destruct (closed_op _ _ _ _ _ H1) as [A1 A2]. destruct (IH _ _ _ _ H2) as [B1 B2].
        split; [eapply closed_trans; eassumption|].
        intros rr Hin. cbn [flat_map] in Hin. apply in_app_or in Hin as [Hin|Hin]; [|apply B2, Hin].
        eapply closed_keeps; [exact B1 | apply A2, Hin].
    Qed.
  End Ops.

  Lemma closed_obj n : forall name r s wc s' wc', wro n name r (mkWg s wc) = Ret (tt, mkWg s' wc') ->
    closed_ext wc wc' /\ (forall rr, r = Some rr -> In rr (map fst wc')).
  Proof.
    induction n as [|n IHn]; intros name r s wc s' wc' Hr; [discriminate|].
    cbn [write_obj] in Hr. destruct r as [r|].
    - cbn [wg_cache] in Hr. destruct (wcache_find r wc) as [i|] eqn:Ef.
      + unfold wgl in Hr. cbn [wg_s wg_cache] in Hr.
        destruct (wp_ref P name i s) as [[[] s1]| | |]; try discriminate. injection Hr as <- <-.
        split; [apply closed_refl|]. intros rr E. injection E as <-. eapply wcache_find_in, Ef.
      + unfold g_graph at 1 in Hr. destruct (G r) as [x|] eqn:Ex; [|discriminate].
        destruct (class_of_type (c_type C x)) as [cls|] eqn:Ecls; [|discriminate].
        apply bind_Ret in Hr as (i & [w1 wc1] & H1 & H2).
        unfold wgl in H1 at 1. cbn [wg_s wg_cache] in H1.
        destruct (wp_begin P name cls (c_ver C x) s) as [[i1 s1]| | |]; try discriminate. injection H1 as <- <- <-.
        unfold bind at 1, cache_put at 1 in H2. cbn [wg_s wg_cache] in H2.
        apply bind_Ret in H2 as ([] & [w2 wc2] & H2 & H3).
        unfold wgl in H3. cbn [wg_s wg_cache] in H3.
        destruct (wp_end P w2) as [[[] s2]| | |]; try discriminate. injection H3 as <- <-.
        destruct (closed_ops n IHn _ _ _ _ _ H2) as [(ext & -> & Hcl) Hops].
        split.
        * exists (ext ++ [(r, i1)]). split; [rewrite <- app_assoc; reflexivity|].
          intros a b Ha Hab. rewrite map_app in Ha. apply in_app_or in Ha as [Ha|[<-|[]]].
          -- eapply Hcl; eassumption.
          -- destruct Hab as (x' & Ex' & Hin). cbn [fst] in Ex'. rewrite Ex in Ex'. injection Ex' as <-.
             apply Hops, Hin.
        * intros rr E. injection E as <-. rewrite map_app. apply in_or_app. right. left. reflexivity.
    - apply bind_Ret in Hr as (i & [s1 wc1] & H1 & H2). unfold wgl in H1, H2. cbn [wg_s wg_cache] in H1, H2.
      destruct (wp_begin P name (lit "%") 0 s) as [[i1 s3]| | |]; try discriminate. injection H1 as <- <- <-.
      destruct (wp_end P s3) as [[[] s4]| | |]; try discriminate. injection H2 as <- <-.
      split; [apply closed_refl | discriminate].
  Qed.

  Theorem all_written n name root s s' wc :
    wro n name (Some root) (mkWg s []) = Ret (tt, mkWg s' wc) ->
    forall r, reaches C G root r -> In r (map fst wc).
  Proof.
    intros H. destruct (closed_obj _ _ _ _ _ _ _ H) as [(ext & E & Hc) Hr]. rewrite app_nil_r in E. subst ext.
    intros r Hre. induction Hre as [a | a b c Hab IH Hbc]; [apply Hr; reflexivity|].
    eapply Hc; [apply IH; assumption | exact Hbc].
  Qed.
End Closed.

(** ** Writing a finite graph succeeds *)
Fixpoint wgood (o : wop oid) : bool :=
  match o with
  | WEntry _ _ | WObj _ _ => true
  | WSub _ cls _ l => no_class cls && forallb wgood l
  | WThrow _ | WUndef => false
  end.
Lemma flat_good {A} f ph ty fl (p : prog oid A) : forall st a st',
  flat f ph ty fl p st = Some (a, st') -> Forall (fun l => forallb wgood l = true) st' ->
  Forall (fun l => forallb wgood l = true) st.
Proof.
  induction p as [a0 | e | | | k c IH | c IH | c IH | c IH | cur p IH]; intros st a st' H Hst; cbn [flat] in H;
    try discriminate.
  - injection H as <- <-. exact Hst.
  - destruct st as [|[|[name e|name r|name cls ver l|e0|] ops] st]; try discriminate.
    destruct (kmatch k e) as [v|]; [|discriminate].
    specialize (IH _ _ _ _ H Hst). inversion IH; subst. constructor; [cbn [forallb wgood]; assumption | assumption].
  - destruct st as [|[|[name e|name r|name cls ver l|e0|] ops] st]; try discriminate.
    specialize (IH _ _ _ _ H Hst). inversion IH; subst. constructor; [cbn [forallb wgood]; assumption | assumption].
  - destruct st as [|[|[name e|name r|name cls ver l|e0|] ops] st]; try discriminate.
    destruct (no_class cls) eqn:Ecl; [|discriminate].
    specialize (IH _ _ _ _ H Hst). inversion IH as [|? ? Hl IH']; subst. inversion IH' as [|? ? Ho Hs]; subst.
    constructor; [cbn [forallb wgood]; rewrite Ecl, Hl, Ho; reflexivity | assumption].
  - destruct st as [|[|o ops] st]; try discriminate; [destruct st as [|ops2 st]; [discriminate|]|].
    + specialize (IH _ _ _ _ H Hst). constructor; [reflexivity | exact IH].
    + apply (IH _ _ _ _ H Hst).
Qed.

Section Finite.
  Variable C : classes.
  Variable G : oid -> option (c_ob C).
  Variable dom : list oid.
  Hypothesis Hdom : forall r, G r <> None -> In r dom.
  Hypothesis Hclosed : forall a b, refers C G a b -> G b <> None.
  Hypothesis Hops : forall r x, G r = Some x ->
    class_of_type (c_type C x) <> None /\ forallb wgood (g_ops C G x) = true.
  Notation wcache := (list (oid * N)).
  Notation wro := (write_obj nwprims (g_graph C G)).

  Definition wc_fine (wc : wcache) : Prop := NoDup (map fst wc) /\ incl (map fst wc) dom.

  Lemma fine_room wc : wc_fine wc -> (length wc <= length dom)%nat.
  Proof. intros [H1 H2]. rewrite <- (map_length fst wc). apply NoDup_incl_length; assumption. Qed.

  Definition obj_fine (n : nat) : Prop := forall name r w wc,
    wc_fine wc -> (length dom < n + length wc)%nat -> (forall rr, r = Some rr -> G rr <> None) ->
    exists w' wc', wro n name r (mkWg w wc) = Ret (tt, mkWg w' wc') /\ wc_fine wc' /\
                   (length wc <= length wc')%nat /\ nw_open w' = nw_open w /\
                   exists nd, nw_cur w' = nw_cur w ++ [nd].

  Lemma op_fine n (IHn : obj_fine n) o : forall w wc,
    wc_fine wc -> (length dom < n + length wc)%nat -> wgood o = true ->
    (forall rr, In rr (wop_refs o) -> G rr <> None) ->
    exists w' wc', run_wop nwprims (wro n) o (mkWg w wc) = Ret (tt, mkWg w' wc') /\ wc_fine wc' /\
                   (length wc <= length wc')%nat /\ nw_open w' = nw_open w.
  Proof.
    induction o as [name e|name r|name cls ver l IHl|e|] using wop_ind2; intros w wc Hf Hn Hg Hr.
    - cbn [run_wop]. unfold wgl. cbn [nwprims wp_entry wg_s wg_cache]. unfold nw_entry.
      destruct (key_pos name (nw_keys w) 0); (do 2 eexists; split; [reflexivity|]; split; [exact Hf | split; [lia | reflexivity]]).
    - cbn [run_wop]. destruct (IHn name r w wc Hf Hn) as (w' & wc' & A & B & D & E & F).
      { intros rr ->. apply Hr. left. reflexivity. }
      exists w', wc'. split; [exact A|]. split; [exact B|]. split; [exact D | exact E].
    - rewrite run_wop_sub.
      assert (Hl : forall w wc, wc_fine wc -> (length dom < n + length wc)%nat ->
        exists w' wc', run_wops nwprims (wro n) l (mkWg w wc) = Ret (tt, mkWg w' wc') /\ wc_fine wc' /\
                   (length wc <= length wc')%nat /\ nw_open w' = nw_open w).
      { cbn [wgood] in Hg. apply andb_prop in Hg as [_ Hg]. cbn [wop_refs] in Hr. clear Hf Hn w wc.
        induction IHl as [|o l Ho _ IH]; intros w wc Hf Hn; cbn [run_wops].
        - exists w, wc. split; [reflexivity|]. split; [exact Hf | split; [lia | reflexivity]].
        - cbn [forallb] in Hg. apply andb_prop in Hg as [Hg1 Hg2].
          destruct (Ho w wc Hf Hn Hg1) as (w1 & wc1 & A & B & D & E).
          { intros rr Hin. apply Hr. cbn [flat_map]. apply in_or_app. left; exact Hin. }
          destruct (IH Hg2) with (w := w1) (wc := wc1) as (w2 & wc2 & A2 & B2 & D2 & E2).
          { intros rr Hin. apply Hr. cbn [flat_map]. apply in_or_app. right; exact Hin. }
          { exact B. }
          { lia. }
          exists w2, wc2. unfold bind. rewrite A, A2.
          split; [reflexivity|]. split; [exact B2|]. split; [lia | congruence]. }
      unfold bind at 1, wgl at 1. cbn [nwprims wp_begin nw_begin wg_s wg_cache].
      destruct (Hl (mkNw [] ((mkH name cls ver (if no_class cls then 0 else nw_idx w), nw_cur w) :: nw_open w)
                         (if no_class cls then nw_idx w else nw_idx w + 1) (nw_keys w)) wc Hf Hn)
        as (w' & wc' & A & B & D & E).
      unfold bind. rewrite A. unfold wgl. cbn [nwprims wp_end wg_s wg_cache]. unfold nw_end. rewrite E.
      cbn [nw_open]. do 2 eexists. split; [reflexivity|]. split; [exact B|]. split; [exact D | reflexivity].
    - discriminate.
    - discriminate.
  Qed.
  Lemma ops_fine n (IHn : obj_fine n) l : forall w wc,
    wc_fine wc -> (length dom < n + length wc)%nat -> forallb wgood l = true ->
    (forall rr, In rr (flat_map wop_refs l) -> G rr <> None) ->
    exists w' wc', run_wops nwprims (wro n) l (mkWg w wc) = Ret (tt, mkWg w' wc') /\ wc_fine wc' /\
                   (length wc <= length wc')%nat /\ nw_open w' = nw_open w.
  Proof.
    induction l as [|o l IH]; intros w wc Hf Hn Hg Hr; cbn [run_wops].
    - exists w, wc. split; [reflexivity|]. split; [exact Hf | split; [lia | reflexivity]].
    - cbn [forallb] in Hg. apply andb_prop in Hg as [Hg1 Hg2].
      destruct (op_fine n IHn o w wc Hf Hn Hg1) as (w1 & wc1 & A & B & D & E).
      { intros rr Hin. apply Hr. cbn [flat_map]. apply in_or_app. left; exact Hin. }
      destruct (IH w1 wc1) as (w2 & wc2 & A2 & B2 & D2 & E2); [exact B | lia | exact Hg2 | |].
      { intros rr Hin. apply Hr. cbn [flat_map]. apply in_or_app. right; exact Hin. }
      exists w2, wc2. unfold bind. rewrite A, A2.
      split; [reflexivity|]. split; [exact B2|]. split; [lia | congruence].
  Qed.
  Lemma all_fine n : obj_fine n.
  Proof.
    induction n as [|n IHn]; intros name r w wc Hf Hn Hr.
    - pose proof (fine_room wc Hf). lia.
    - cbn [write_obj]. destruct r as [r|].
      + cbn [wg_cache]. destruct (wcache_find r wc) as [i|] eqn:Ef.
        * unfold wgl. cbn [nwprims wp_ref nw_ref wg_s wg_cache]. do 2 eexists. split; [reflexivity|].
          split; [exact Hf|]. split; [lia|]. split; [reflexivity | eexists; reflexivity].
        * specialize (Hr r eq_refl). unfold g_graph at 1. destruct (G r) as [x|] eqn:Ex; [|contradiction].
          destruct (Hops r x Ex) as [Hc Hg]. destruct (class_of_type (c_type C x)) as [cls|] eqn:Ecls; [|contradiction].
          pose proof (class_facts _ _ Ecls) as (_ & _ & _ & F3 & _).
          pose proof (wcache_find_none _ _ Ef) as Hnin.
          unfold bind at 1, wgl at 1. cbn [nwprims wp_begin nw_begin wg_s wg_cache]. rewrite F3.
          unfold bind at 1, cache_put at 1. cbn [wg_s wg_cache].
          edestruct (ops_fine n IHn (g_ops C G x)) with (wc := (r, nw_idx w) :: wc) as (w' & wc' & A & B & D & E).
          { destruct Hf as [F1 F2]. split; cbn [map fst].
            - constructor; assumption.
            - intros z [<-|Hz]; [apply Hdom; congruence | apply F2, Hz]. }
          { cbn [length]. lia. }
          { exact Hg. }
          { intros rr Hin. apply (Hclosed r). exists x. split; [exact Ex | exact Hin]. }
          unfold bind. rewrite A. unfold wgl. cbn [nwprims wp_end wg_s wg_cache]. unfold nw_end. rewrite E.
          cbn [nw_open]. do 2 eexists. split; [reflexivity|]. split; [exact B|]. cbn [length] in D.
          split; [lia|]. split; [reflexivity | eexists; reflexivity].
      + unfold bind, wgl. cbn [nwprims wp_begin nw_begin wp_end wg_s wg_cache]. unfold nw_end. cbn [nw_open].
        do 2 eexists. split; [reflexivity|]. split; [exact Hf|]. split; [lia|].
        split; [reflexivity | eexists; reflexivity].
  Qed.
End Finite.

(** A finite graph without dangling references, whose objects load what they save, has a
    content. *)
Theorem content_total C G f name root (dom : list oid) :
  graph_ok C G f -> (forall r, G r <> None -> In r dom) -> (forall a b, refers C G a b -> G b <> None) ->
  (forall r, root = Some r -> G r <> None) ->
  exists nd w wc, content C G (S (length dom)) name root = Some (nd, w, wc).
Proof.
  intros HG Hdom Hcl Hroot.
  assert (Hops : forall r x, G r = Some x ->
    class_of_type (c_type C x) <> None /\ forallb wgood (g_ops C G x) = true).
  { intros r x Hx. destruct (HG r x Hx) as [(_ & Hc & Ho) _]. split; [exact Hc|].
    destruct (Ho (fun r => r) (g_flags C G) [] (fun _ _ _ _ H => H) (fun _ _ => eq_refl)) as (p & _ & Hf).
    apply flat_good in Hf; [|constructor; [reflexivity | constructor]]. inversion Hf; assumption. }
  destruct (all_fine C G dom Hdom Hcl Hops (S (length dom)) name root nw_empty []) as (w' & wc' & A & B & D & E & nd & F).
  - split; [constructor | intros z []].
  - cbn [length]. lia.
  - exact Hroot.
  - unfold content. rewrite A. cbn [wg_s wg_cache]. rewrite F. cbn [nw_empty nw_cur app].
    do 3 eexists. reflexivity.
Qed.
