(** Symbol values. *)

From Coq Require Import Lia.
From Verif Require Import MBase LBase MStream MDaedalus MVm LVm SSym LDaedalus.
Local Open Scope N_scope.
Local Open Scope v_scope.
Ltac Zify.zify_post_hook ::= idtac.

(** * One shape for the six accessors *)
Definition fetch_el (k : kind) (x : sym) (idx : N) (n : option inst) : outcome cval :=
  match k with
  | KInt => obind (sym_get_int x idx n) (fun v => Ret (VInt v))
  | KFlt => obind (sym_get_float x idx n) (fun v => Ret (VFloat v))
  | KStr => obind (sym_get_string x idx n) (fun v => Ret (VStr v))
  end.
Definition store_el (v : value) (x : sym) (idx : N) (n : option inst) : outcome (sym * option inst) :=
  match v with
  | XInt z => sym_set_int x z idx n | XFlt b => sym_set_float x b idx n | XStr s => sym_set_string x s idx n
  end.

Definition the_ctx_of (s : vm) (c : option N) : option (option inst) :=
  match c with None => Some None | Some i => option_map Some (nth_N (v_heap s) i) end.

Definition lifted {A} (o : outcome A) (s : vm) : vres A := vlift o s.
Lemma read_eq k i idx c s : read_el k i idx c s =
  match nth_N (v_syms s) i with
  | None => VUndef NullPtr s
  | Some x => match the_ctx_of s c with None => VUndef NullPtr s | Some n => lifted (fetch_el k x idx n) s end
  end.
Proof.
  destruct k; unfold read_el, rd_int, rd_float, rd_string, vbind, the_sym, the_ctx, the_ctx_of, fetch_el, lifted, vlift, vret;
    destruct (nth_N (v_syms s) i); try reflexivity; (destruct c as [c|]; [destruct (nth_N (v_heap s) c); try reflexivity|]);
    cbn [option_map].
  all: match goal with |- context[obind ?m _] => destruct m; reflexivity end.
Qed.
Lemma write_eq v i idx c s : write_el v i idx c s =
  match nth_N (v_syms s) i with
  | None => VUndef NullPtr s
  | Some x => match the_ctx_of s c with
              | None => VUndef NullPtr s
              | Some n =>
                  match store_el v x idx n with
                  | Ret (x', n') => VRet tt (match c, n' with
                                             | Some a, Some m => set_heap (set_N (v_heap s) a m) (set_syms (set_N (v_syms s) i x') s)
                                             | _, _ => set_syms (set_N (v_syms s) i x') s
                                             end)
                  | Throw e => VExc e s
                  | Undef => VUndef ValueUB s
                  | Fuel => VFuel
                  end
              end
  end.
Proof.
  destruct v; unfold write_el, wr_int, wr_float, wr_string, wr_sym, vbind, the_sym, the_ctx, the_ctx_of, store_el, vlift, vret;
    destruct (nth_N (v_syms s) i); try reflexivity; (destruct c as [c|]; [destruct (nth_N (v_heap s) c); try reflexivity|]);
    cbn [option_map].
  all: match goal with |- match (match ?m with Ret _ => _ | _ => _ end) with VRet _ _ => _ | _ => _ end = _ => destruct m as [[x' n']|e| |] end;
    cbn [fst snd]; try reflexivity; try (destruct n'; reflexivity).
Qed.

(** * Errors *)
Definition calm_outcome {A} (o : outcome A) (e : option exn) : Prop :=
  match e with Some e => o = Throw e | None => match o with Throw _ | Fuel => False | _ => True end end.

Lemma member_error x idx idx' sz n (H : is_member x = true) k :
  kind_fits k (s_type x) = true -> s_count x <=? idx = false ->
  calm_outcome (member_at x idx' sz n) (access_error k x idx (Some n)).
Proof.
  intros H1 H2. unfold access_error. rewrite H1, H2, H. cbn [negb]. unfold member_at.
  destruct (s_reg x); [|reflexivity]. destruct (n_type n); [|exact I]. destruct (_ =? _); [exact I|reflexivity].
Qed.
Lemma calm_obind {A B} (m : outcome A) (f : A -> outcome B) e :
  calm_outcome m e -> (forall a, m = Ret a -> calm_outcome (f a) None) -> calm_outcome (obind m f) e.
Proof.
  unfold calm_outcome. destruct e.
  - intros ->. reflexivity.
  - destruct m; cbn; auto. intros _ H. apply (H a eq_refl).
Qed.

Lemma fetch_error k x idx n : stored x -> calm_outcome (fetch_el k x idx n) (access_error k x idx n).
Proof.
  intros S. destruct k; unfold fetch_el.
  - unfold sym_get_int. destruct (negb (_ || _)) eqn:E1.
    { unfold access_error, kind_fits. rewrite E1. reflexivity. }
    apply negb_false_iff in E1. destruct (s_count x <=? idx) eqn:E2.
    { unfold access_error, kind_fits. rewrite E1, E2. reflexivity. }
    destruct (is_member x) eqn:E3.
    { destruct n as [n|]; [|unfold access_error, kind_fits; rewrite E1, E2, E3; reflexivity].
      apply calm_obind; [|intros; exact I].
      apply calm_obind; [apply (member_error x idx idx 4 n E3 KInt); auto|]. intros o _. apply calm_obind; [|intros; exact I].
      unfold mem_word. destruct (n_mem n o) as [[]|]; try exact I. destruct (_ + _ <=? _); exact I. }
    unfold access_error, kind_fits. rewrite E1, E2, E3. cbn [negb].
    destruct S as [S|S]; [|congruence]. apply calm_obind; [|intros; exact I].
    destruct (s_val x); cbn.
    + destruct (nth_N l idx) as [[]|]; exact I.
    + rewrite S in E1. discriminate.
    + rewrite S in E1. discriminate.
    + destruct S as [S _]. unfold kind_fits in S. congruence.
  - unfold sym_get_float. destruct (negb (_ =? _)) eqn:E1.
    { unfold access_error, kind_fits. rewrite E1. reflexivity. }
    apply negb_false_iff in E1. destruct (s_count x <=? idx) eqn:E2.
    { unfold access_error, kind_fits. rewrite E1, E2. reflexivity. }
    destruct (is_member x) eqn:E3.
    { destruct n as [n|]; [|unfold access_error, kind_fits; rewrite E1, E2, E3; reflexivity].
      apply calm_obind; [|intros; exact I].
      apply calm_obind.
      - apply (member_error x idx (u8 idx) 4 n E3 KFlt); auto.
      - intros o _. unfold mem_word. destruct (n_mem n o) as [[]|]; try exact I. destruct (_ + _ <=? _); exact I. }
    unfold access_error, kind_fits. rewrite E1, E2, E3. cbn [negb].
    destruct S as [S|S]; [|congruence]. apply calm_obind; [|intros; exact I]. apply N.eqb_eq in E1.
    destruct (s_val x); cbn.
    + destruct S as [S _]. unfold kind_fits in S. rewrite E1 in S. discriminate.
    + destruct (nth_N l idx) as [[]|]; exact I.
    + rewrite S in E1. discriminate.
    + destruct S as (_ & S & _). unfold kind_fits in S. rewrite E1 in S. discriminate.
  - unfold sym_get_string. destruct (negb (_ =? _)) eqn:E1.
    { unfold access_error, kind_fits. rewrite E1. reflexivity. }
    apply negb_false_iff in E1. destruct (s_count x <=? idx) eqn:E2.
    { unfold access_error, kind_fits. rewrite E1, E2. reflexivity. }
    destruct (is_member x) eqn:E3.
    { destruct n as [n|]; [|unfold access_error, kind_fits; rewrite E1, E2, E3; reflexivity].
      apply calm_obind; [|intros; exact I].
      apply calm_obind; [apply (member_error x idx idx str_size n E3 KStr); auto|]. intros o _.
      unfold mem_str. destruct (n_mem n o) as [[]|]; try exact I. destruct (_ + _ <=? _); exact I. }
    unfold access_error, kind_fits. rewrite E1, E2, E3. cbn [negb].
    destruct S as [S|S]; [|congruence]. apply calm_obind; [|intros; exact I]. apply N.eqb_eq in E1.
    destruct (s_val x); cbn.
    + destruct S as [_ S]. unfold kind_fits in S. rewrite E1 in S. discriminate.
    + rewrite S in E1. discriminate.
    + destruct (nth_N l idx); exact I.
    + destruct S as (_ & _ & S). unfold kind_fits in S. rewrite E1 in S. discriminate.
Qed.

Lemma store_error v x idx n : stored x -> calm_outcome (store_el v x idx n) (access_error (kind_of v) x idx n).
Proof.
  intros S. destruct v; unfold store_el, kind_of.
  - unfold sym_set_int. destruct (negb (_ || _)) eqn:E1.
    { unfold access_error, kind_fits. rewrite E1. reflexivity. }
    apply negb_false_iff in E1. destruct (s_count x <=? idx) eqn:E2.
    { unfold access_error, kind_fits. rewrite E1, E2. reflexivity. }
    destruct (is_member x) eqn:E3.
    { destruct n as [n|]; [|unfold access_error, kind_fits; rewrite E1, E2, E3; reflexivity].
      apply calm_obind; [apply (member_error x idx idx 4 n E3 KInt); auto|]. intros o _. apply calm_obind; [|intros; exact I].
      unfold mem_set_word. destruct (_ || str_near _ _); exact I. }
    unfold access_error, kind_fits. rewrite E1, E2, E3. cbn [negb].
    destruct S as [S|S]; [|congruence].
    destruct (s_val x); cbn.
    + unfold upd_cell. destruct (_ <? _); exact I.
    + rewrite S in E1. discriminate.
    + rewrite S in E1. discriminate.
    + destruct S as [S _]. unfold kind_fits in S. congruence.
  - unfold sym_set_float. destruct (negb (_ =? _)) eqn:E1.
    { unfold access_error, kind_fits. rewrite E1. reflexivity. }
    apply negb_false_iff in E1. destruct (s_count x <=? idx) eqn:E2.
    { unfold access_error, kind_fits. rewrite E1, E2. reflexivity. }
    destruct (is_member x) eqn:E3.
    { destruct n as [n|]; [|unfold access_error, kind_fits; rewrite E1, E2, E3; reflexivity].
      apply calm_obind; [apply (member_error x idx idx 4 n E3 KFlt); auto|]. intros o _. apply calm_obind; [|intros; exact I].
      unfold mem_set_word. destruct (_ || str_near _ _); exact I. }
    unfold access_error, kind_fits. rewrite E1, E2, E3. cbn [negb].
    destruct S as [S|S]; [|congruence]. apply N.eqb_eq in E1.
    destruct (s_val x); cbn.
    + destruct S as [S _]. unfold kind_fits in S. rewrite E1 in S. discriminate.
    + unfold upd_cell. destruct (_ <? _); exact I.
    + rewrite S in E1. discriminate.
    + destruct S as (_ & S & _). unfold kind_fits in S. rewrite E1 in S. discriminate.
  - unfold sym_set_string. destruct (negb (_ =? _)) eqn:E1.
    { unfold access_error, kind_fits. rewrite E1. reflexivity. }
    apply negb_false_iff in E1. destruct (s_count x <=? idx) eqn:E2.
    { unfold access_error, kind_fits. rewrite E1, E2. reflexivity. }
    destruct (is_member x) eqn:E3.
    { destruct n as [n|]; [|unfold access_error, kind_fits; rewrite E1, E2, E3; reflexivity].
      apply calm_obind; [apply (member_error x idx idx str_size n E3 KStr); auto|]. intros o _. apply calm_obind; [|intros; exact I].
      unfold mem_set_str. destruct (n_mem n o) as [[]|]; try exact I. destruct (_ + _ <=? _); exact I. }
    unfold access_error, kind_fits. rewrite E1, E2, E3. cbn [negb].
    destruct S as [S|S]; [|congruence]. apply N.eqb_eq in E1.
    destruct (s_val x); cbn.
    + destruct S as [_ S]. unfold kind_fits in S. rewrite E1 in S. discriminate.
    + rewrite S in E1. discriminate.
    + unfold upd_cell. destruct (_ <? _); exact I.
    + destruct S as (_ & _ & S). unfold kind_fits in S. rewrite E1 in S. discriminate.
Qed.

Lemma access_errors s i x c n :
  nth_N (v_syms s) i = Some x -> stored x -> the_ctx c s = VRet n s ->
  (forall k idx, match access_error k x idx n with
   | Some e => read_el k i idx c s = VExc e s
   | None => exists r, read_el k i idx c s = r /\ match r with VRet _ s' | VUndef _ s' => s' = s | _ => False end
   end) /\
  (forall v idx, match access_error (kind_of v) x idx n with
   | Some e => write_el v i idx c s = VExc e s
   | None => match write_el v i idx c s with VRet _ _ | VUndef _ _ => True | _ => False end
   end).
Proof.
  intros Hx S Hc. assert (Hn : the_ctx_of s c = Some n).
  { unfold the_ctx, the_ctx_of in *. destruct c; [destruct (nth_N (v_heap s) n0)|]; cbn in *; congruence. }
  split.
  - intros k idx. pose proof (fetch_error k x idx n S) as F. rewrite read_eq, Hx, Hn. unfold calm_outcome in F.
    destruct (access_error k x idx n); [rewrite F; reflexivity|].
    eexists. split; [reflexivity|]. unfold lifted, vlift. destruct (fetch_el k x idx n); auto; contradiction.
  - intros v idx. pose proof (store_error v x idx n S) as F. rewrite write_eq, Hx, Hn. unfold calm_outcome in F.
    destruct (access_error (kind_of v) x idx n); [rewrite F; reflexivity|].
    destruct (store_el v x idx n) as [[x' n']|e| |]; auto; contradiction.
Qed.

(** * Members *)
Definition cell_read (k : kind) (n : inst) (o : N) : outcome cval :=
  match k with
  | KInt => obind (mem_word n o) (fun w => Ret (VInt (sint 32 w)))
  | KFlt => obind (mem_word n o) (fun w => Ret (VFloat w))
  | KStr => obind (mem_str n o) (fun w => Ret (VStr w))
  end.
Definition cell_write (v : value) (n : inst) (o : N) : outcome inst :=
  match v with XInt z => mem_set_word n o (uint 32 z) | XFlt b => mem_set_word n o b | XStr s => mem_set_str n o s end.
Definition place_of (x : sym) (idx : N) : N := s_moff x + idx * el_size (s_type x).
Definition bounded (x : sym) : Prop := s_moff x + s_count x * el_size (s_type x) <= 2 ^ 32.

Lemma u32_id n : n < 2 ^ 32 -> u32 n = n.
Proof. apply N.mod_small. Qed.
Lemma place_lt x idx : bounded x -> idx < s_count x -> place_of x idx + el_size (s_type x) <= s_moff x + s_count x * el_size (s_type x).
Proof. unfold place_of. intros _ H. nia. Qed.
Lemma el_size_pos t : 4 <= el_size t.
Proof. unfold el_size. destruct (_ =? _); lia. Qed.
Lemma place_u32 x idx : bounded x -> idx < s_count x -> u32 (place_of x idx) = place_of x idx.
Proof. intros B H. apply u32_id. pose proof (place_lt x idx B H). pose proof (el_size_pos (s_type x)). unfold bounded in B. lia. Qed.
Lemma fits_size k t : kind_fits k t = true -> el_size t = match k with KStr => str_size | _ => 4 end.
Proof.
  unfold kind_fits, el_size, str_size. destruct k; rewrite ?orb_true_iff, ?N.eqb_eq.
  - intros [-> | ->]; reflexivity.
  - intros ->. reflexivity.
  - intros ->. reflexivity.
Qed.

Lemma fetch_member k x idx n : is_member x = true -> bounded x -> (k = KFlt -> idx < 256) ->
  fetch_el k x idx (Some n) =
  match access_error k x idx (Some n) with
  | Some e => Throw e
  | None => match n_type n with None => Undef | Some _ => cell_read k n (place_of x idx) end
  end.
Proof.
  intros M B P. unfold access_error. destruct (kind_fits k (s_type x)) eqn:F.
  2: { destruct k; unfold fetch_el, sym_get_int, sym_get_float, sym_get_string; unfold kind_fits in F; rewrite F; reflexivity. }
  cbn [negb]. destruct (s_count x <=? idx) eqn:C.
  { destruct k; unfold fetch_el, sym_get_int, sym_get_float, sym_get_string; unfold kind_fits in F; rewrite F, C; reflexivity. }
  apply N.leb_gt in C. pose proof (place_u32 x idx B C) as U. unfold place_of in U at 1. rewrite (fits_size _ _ F) in U.
  rewrite M. destruct k; unfold fetch_el, sym_get_int, sym_get_float, sym_get_string; unfold kind_fits in F; rewrite F;
    cbn [negb]; (replace (s_count x <=? idx) with false by (symmetry; apply N.leb_gt; exact C)); rewrite M; unfold member_at.
  - destruct (s_reg x) as [r|]; [|reflexivity]. destruct (n_type n) as [t|]; [|reflexivity]. destruct (r =? t); [|reflexivity]. cbn [obind].
    rewrite U. unfold cell_read. destruct (mem_word n _); reflexivity.
  - replace (u8 idx) with idx by (unfold u8; rewrite N.mod_small; auto; change (2 ^ 8) with 256; auto).
    destruct (s_reg x) as [r|]; [|reflexivity]. destruct (n_type n) as [t|]; [|reflexivity]. destruct (r =? t); [|reflexivity]. cbn [obind].
    rewrite U. reflexivity.
  - destruct (s_reg x) as [r|]; [|reflexivity]. destruct (n_type n) as [t|]; [|reflexivity]. destruct (r =? t); [|reflexivity]. cbn [obind].
    rewrite U. reflexivity.
Qed.
Lemma store_member v x idx n : is_member x = true -> bounded x ->
  store_el v x idx (Some n) =
  match access_error (kind_of v) x idx (Some n) with
  | Some e => Throw e
  | None => match n_type n with
            | None => Undef
            | Some _ => obind (cell_write v n (place_of x idx)) (fun n' => Ret (x, Some n'))
            end
  end.
Proof.
  intros M B. unfold access_error. destruct (kind_fits (kind_of v) (s_type x)) eqn:F.
  2: { destruct v; unfold store_el, sym_set_int, sym_set_float, sym_set_string; unfold kind_fits, kind_of in F; rewrite F; reflexivity. }
  cbn [negb]. destruct (s_count x <=? idx) eqn:C.
  { destruct v; unfold store_el, sym_set_int, sym_set_float, sym_set_string; unfold kind_fits, kind_of in F; rewrite F, C; reflexivity. }
  apply N.leb_gt in C. pose proof (place_u32 x idx B C) as U. unfold place_of in U at 1. rewrite (fits_size _ _ F) in U.
  rewrite M. destruct v; unfold store_el, sym_set_int, sym_set_float, sym_set_string; unfold kind_fits, kind_of in F; rewrite F;
    cbn [negb]; (replace (s_count x <=? idx) with false by (symmetry; apply N.leb_gt; exact C)); rewrite M; unfold member_at.
  all: destruct (s_reg x) as [r|]; [|reflexivity]; destruct (n_type n) as [t|]; [|reflexivity]; destruct (r =? t); [|reflexivity]; cbn [obind];
    cbn [kind_of] in U; rewrite U; reflexivity.
Qed.

Lemma member_none k x idx : is_member x = true -> exists e, fetch_el k x idx None = Throw e.
Proof.
  intros M. destruct k; unfold fetch_el, sym_get_int, sym_get_float, sym_get_string; rewrite M;
    repeat match goal with |- context[if ?b then _ else _] => destruct b end; cbn; eauto.
Qed.
Lemma store_none v x idx : is_member x = true -> exists e, store_el v x idx None = Throw e.
Proof.
  intros M. destruct v; unfold store_el, sym_set_int, sym_set_float, sym_set_string; rewrite M;
    repeat match goal with |- context[if ?b then _ else _] => destruct b end; cbn; eauto.
Qed.

(** Memory. *)
Lemma cell_same v n o n' : value_ok v -> cell_write v n o = Ret n' -> cell_read (kind_of v) n' o = Ret (seen v).
Proof.
  intros V. destruct v; cbn [cell_write kind_of cell_read seen value_ok] in *; unfold mem_set_word, mem_set_str.
  - destruct (n_size n <? o + 4) eqn:E; [discriminate|]. destruct (str_near _ _); [discriminate|]. injection 1 as <-.
    unfold mem_word, put_word. cbn [n_mem n_size]. rewrite N.eqb_refl. apply N.ltb_ge in E.
    replace (o + 4 <=? n_size n) with true by (symmetry; apply N.leb_le; exact E). cbn [obind].
    rewrite sint_uint; [reflexivity|reflexivity|exact V].
  - destruct (n_size n <? o + 4) eqn:E; [discriminate|]. destruct (str_near _ _); [discriminate|]. injection 1 as <-.
    unfold mem_word, put_word. cbn [n_mem n_size]. rewrite N.eqb_refl. apply N.ltb_ge in E.
    replace (o + 4 <=? n_size n) with true by (symmetry; apply N.leb_le; exact E). reflexivity.
  - destruct (n_mem n o) as [[|]|]; try discriminate. destruct (_ <=? _) eqn:E; [|discriminate]. injection 1 as <-.
    unfold mem_str, put_str. cbn [n_mem n_size]. rewrite N.eqb_refl, E. reflexivity.
Qed.
Lemma cell_other v n o n' k o' :
  cell_write v n o = Ret n' ->
  (o + match kind_of v with KStr => str_size | _ => 4 end <= o' \/ o' + match k with KStr => str_size | _ => 4 end <= o) ->
  cell_read k n' o' = cell_read k n o'.
Proof.
  intros W D.
  assert (H : n_size n' = n_size n /\ n_mem n' o' = n_mem n o').
  { destruct v; cbn [cell_write kind_of] in *; unfold mem_set_word, mem_set_str in W.
    - destruct (_ || _); [discriminate|]. injection W as <-. cbn. split; [reflexivity|]. unfold put_word.
      unfold str_size in D. destruct (N.eqb_spec o' o); [destruct k; lia|].
      destruct (N.ltb_spec o (o' + 4)); destruct (N.ltb_spec o' (o + 4)); cbn; auto. destruct k; lia.
    - destruct (_ || _); [discriminate|]. injection W as <-. cbn. split; [reflexivity|]. unfold put_word.
      unfold str_size in D. destruct (N.eqb_spec o' o); [destruct k; lia|].
      destruct (N.ltb_spec o (o' + 4)); destruct (N.ltb_spec o' (o + 4)); cbn; auto. destruct k; lia.
    - destruct (n_mem n o) as [[|]|]; try discriminate. destruct (_ <=? _); [|discriminate]. injection W as <-. cbn.
      split; [reflexivity|]. unfold put_str. unfold str_size in D. destruct (N.eqb_spec o' o); [destruct k; lia|reflexivity]. }
  destruct H as [H1 H2]. destruct k; unfold cell_read, mem_word, mem_str; rewrite H1, H2; reflexivity.
Qed.
Lemma cell_write_type v n o n' : cell_write v n o = Ret n' -> n_type n' = n_type n.
Proof.
  destruct v; cbn [cell_write]; unfold mem_set_word, mem_set_str; try (destruct (_ || _); [discriminate|]); try (injection 1 as <-; reflexivity).
  destruct (n_mem n o) as [[|]|]; try discriminate. destruct (_ <=? _); [|discriminate]. injection 1 as <-. reflexivity.
Qed.

(** * Symbols that are not members *)
Lemma fetch_global k x idx n n' : is_member x = false -> fetch_el k x idx n = fetch_el k x idx n'.
Proof. intros M. destruct k; unfold fetch_el, sym_get_int, sym_get_float, sym_get_string; rewrite M; reflexivity. Qed.

Definition same_attrs (x x' : sym) : Prop := shape1 x' = shape1 x.
Lemma store_global v x idx n x' n' : is_member x = false -> store_el v x idx n = Ret (x', n') ->
  n' = n /\ (exists w, x' = with_val x w) /\
  fetch_el (kind_of v) x' idx n' = Ret (seen v) /\
  (forall k j m, j <> idx \/ k <> kind_of v -> fetch_el k x' j m = fetch_el k x j m).
Proof.
  intros M. destruct v; unfold store_el, sym_set_int, sym_set_float, sym_set_string; rewrite M; cbn [kind_of seen].
  - destruct (negb _) eqn:E1; [discriminate|]. destruct (s_count x <=? idx) eqn:E2; [discriminate|].
    destruct (s_val x) as [l|l|l|l] eqn:E3; try discriminate. unfold upd_cell. destruct (idx <? len l) eqn:E4; [|discriminate].
    injection 1 as <- <-. split; [reflexivity|]. split; [eauto|]. split.
    + unfold fetch_el, sym_get_int. cbn [s_type s_count with_val s_val is_member has_flag s_flags]. rewrite E1, E2.
      change (is_member (with_val x _)) with (is_member x). rewrite M. cbn [s_val with_val]. rewrite nth_set_N, N.eqb_refl, E4. reflexivity.
    + intros k j m H. destruct k; unfold fetch_el, sym_get_int, sym_get_float, sym_get_string;
        cbn [s_type s_count with_val s_val]; change (is_member (with_val x _)) with (is_member x); rewrite M, E3; try reflexivity.
      destruct H as [H|H]; [|congruence]. rewrite nth_set_N. replace (j =? idx) with false by (symmetry; apply N.eqb_neq; auto). reflexivity.
  - destruct (negb _) eqn:E1; [discriminate|]. destruct (s_count x <=? idx) eqn:E2; [discriminate|].
    destruct (s_val x) as [l|l|l|l] eqn:E3; try discriminate. unfold upd_cell. destruct (idx <? len l) eqn:E4; [|discriminate].
    injection 1 as <- <-. split; [reflexivity|]. split; [eauto|]. split.
    + unfold fetch_el, sym_get_float. cbn [s_type s_count with_val s_val]. rewrite E1, E2.
      change (is_member (with_val x _)) with (is_member x). rewrite M. rewrite nth_set_N, N.eqb_refl, E4. reflexivity.
    + intros k j m H. destruct k; unfold fetch_el, sym_get_int, sym_get_float, sym_get_string;
        cbn [s_type s_count with_val s_val]; change (is_member (with_val x _)) with (is_member x); rewrite M, E3; try reflexivity.
      destruct H as [H|H]; [|congruence]. rewrite nth_set_N. replace (j =? idx) with false by (symmetry; apply N.eqb_neq; auto). reflexivity.
  - destruct (negb _) eqn:E1; [discriminate|]. destruct (s_count x <=? idx) eqn:E2; [discriminate|].
    destruct (s_val x) as [l|l|l|l] eqn:E3; try discriminate. unfold upd_cell. destruct (idx <? len l) eqn:E4; [|discriminate].
    injection 1 as <- <-. split; [reflexivity|]. split; [eauto|]. split.
    + unfold fetch_el, sym_get_string. cbn [s_type s_count with_val s_val]. rewrite E1, E2.
      change (is_member (with_val x _)) with (is_member x). rewrite M. rewrite nth_set_N, N.eqb_refl, E4. reflexivity.
    + intros k j m H. destruct k; unfold fetch_el, sym_get_int, sym_get_float, sym_get_string;
        cbn [s_type s_count with_val s_val]; change (is_member (with_val x _)) with (is_member x); rewrite M, E3; try reflexivity.
      destruct H as [H|H]; [|congruence]. rewrite nth_set_N. replace (j =? idx) with false by (symmetry; apply N.eqb_neq; auto). reflexivity.
Qed.

(** * One write *)
Definition plain_el (k : kind) (x : sym) (idx : N) : Prop := k = KFlt -> is_member x = true -> idx < 256.
Lemma vlift_eq {A} (o : outcome A) s : lifted o s = vlift o s.
Proof. reflexivity. Qed.

Lemma restate {A} (o : outcome A) s s' : lifted o s' =
  match lifted o s with VRet v _ => VRet v s' | VExc e _ => VExc e s' | VUndef u _ => VUndef u s' | VFuel => VFuel end.
Proof. destruct o; reflexivity. Qed.

Lemma write_step U s w s' : layout_ok U s -> U (w_sym w) -> value_ok (w_val w) ->
  write_el (w_val w) (w_sym w) (w_idx w) (w_ctx w) s = VRet tt s' ->
  layout_ok U s' /\ (forall i, option_map is_member (nth_N (v_syms s') i) = option_map is_member (nth_N (v_syms s) i)) /\
  forall k i idx c x, U i -> nth_N (v_syms s) i = Some x -> plain_el k x idx -> the_ctx_of s c <> None ->
    read_el k i idx c s' = holds_after k i idx c (is_member x) w (read_el k i idx c s) s'.
Proof.
  destruct w as [v i0 idx0 c0]. cbn [w_val w_sym w_idx w_ctx]. intros L U0 V W. rewrite write_eq in W.
  destruct (nth_N (v_syms s) i0) as [x0|] eqn:X0; [|discriminate].
  destruct (the_ctx_of s c0) as [n0|] eqn:N0; [|discriminate].
  destruct (store_el v x0 idx0 n0) as [[x' n']|e| |] eqn:S; try discriminate.
  pose proof (nth_N_lt _ _ _ X0) as Lt.
  destruct (is_member x0) eqn:M0.
  - (* a member *)
    destruct n0 as [n0|]; [|destruct (store_none v x0 idx0 M0); congruence].
    destruct c0 as [c0|]; [|discriminate N0]. cbn in N0. destruct (nth_N (v_heap s) c0) as [n0'|] eqn:H0; [|discriminate].
    injection N0 as ->. destruct (L _ _ U0 X0 M0) as [B0 D0].
    rewrite store_member in S by auto. destruct (access_error _ _ _ _) eqn:A0; [discriminate|].
    destruct (n_type n0) as [t0|] eqn:T0; [|discriminate].
    destruct (cell_write v n0 (place_of x0 idx0)) as [n1|e| |] eqn:C0; try discriminate. injection S as <- <-.
    injection W as <-.
    set (s' := set_heap (set_N (v_heap s) c0 n1) (set_syms (set_N (v_syms s) i0 x0) s)).
    assert (SY : forall i, nth_N (v_syms s') i = nth_N (v_syms s) i).
    { intros i. cbn. rewrite nth_set_N. destruct (N.eqb_spec i i0) as [->|]; auto. rewrite X0.
      apply N.ltb_lt in Lt. rewrite Lt. reflexivity. }
    assert (I0 : idx0 < s_count x0).
    { unfold access_error in A0. destruct (negb _); [discriminate|]. destruct (s_count x0 <=? idx0) eqn:E; [discriminate|]. apply N.leb_gt in E. exact E. }
    assert (F0 : kind_fits (kind_of v) (s_type x0) = true).
    { unfold access_error in A0. destruct (kind_fits (kind_of v) (s_type x0)); [reflexivity|discriminate]. }
    assert (R0 : s_reg x0 = Some t0).
    { unfold access_error in A0. rewrite F0 in A0. cbn [negb] in A0. replace (s_count x0 <=? idx0) with false in A0 by (symmetry; apply N.leb_gt; exact I0).
      rewrite M0 in A0. destruct (s_reg x0); [|discriminate]. rewrite T0 in A0. destruct (N.eqb_spec n t0); [congruence|discriminate]. }
    split; [|split].
    + intros i x Ui Hx Mx. rewrite SY in Hx. destruct (L i x Ui Hx Mx) as [B D]. split; auto.
      intros j y Uj Hij Hy. rewrite SY in Hy. intros My Ry. apply (D j y); auto.
    + intros i. rewrite SY. reflexivity.
    + intros k i idx c x Ui Hx P Vc. rewrite !read_eq, SY, Hx.
      destruct (is_member x) eqn:Mx.
      2: { (* reading a global *)
        assert (SE : same_el false i idx c i0 idx0 (Some c0) = false).
        { unfold same_el. destruct (N.eqb_spec i i0); [subst; congruence|reflexivity]. }
        unfold holds_after. cbn [w_val w_sym w_idx w_ctx]. rewrite SE.
        assert (CC : match the_ctx_of s c with Some _ => exists m, the_ctx_of s' c = Some m | None => the_ctx_of s' c = None end).
        { destruct c as [c|]; cbn; [|eauto]. rewrite nth_set_N. destruct (N.eqb_spec c c0) as [->|].
          - rewrite H0. apply nth_N_lt, N.ltb_lt in H0. rewrite H0. cbn. eauto.
          - destruct (nth_N (v_heap s) c); cbn; eauto. }
        destruct (the_ctx_of s c); [destruct CC as [m ->]|rewrite CC; reflexivity].
        rewrite (fetch_global k x idx m o) by auto. apply restate. }
      destruct (L i x Ui Hx Mx) as [Bx Dx].
      unfold holds_after. cbn [w_val w_sym w_idx w_ctx].
      destruct c as [c|].
      2: { (* no context *)
        assert (SE : same_el true i idx None i0 idx0 (Some c0) = false) by (unfold same_el; cbn; apply andb_false_r).
        rewrite SE. cbn [the_ctx_of]. apply restate. }
      cbn [the_ctx_of v_heap set_heap s']. rewrite nth_set_N. destruct (N.eqb_spec c c0) as [->|Nc].
      * (* the same instance *)
        rewrite H0. pose proof (nth_N_lt _ _ _ H0) as Lc. apply N.ltb_lt in Lc. rewrite Lc. cbn [option_map].
        rewrite !fetch_member by auto.
        assert (AE : access_error k x idx (Some n1) = access_error k x idx (Some n0)).
        { unfold access_error. rewrite (cell_write_type _ _ _ _ C0). reflexivity. }
        rewrite AE, (cell_write_type _ _ _ _ C0), T0.
        assert (SE : same_el true i idx (Some c0) i0 idx0 (Some c0) = (i =? i0) && (idx =? idx0)).
        { unfold same_el. rewrite N.eqb_refl. cbn. rewrite andb_true_r. reflexivity. }
        rewrite SE. destruct (N.eqb_spec i i0) as [->|Ni]; cbn [andb].
        -- rewrite X0 in Hx. injection Hx as <-. destruct (N.eqb_spec idx idx0) as [->|Nx].
           ++ (* the same element *)
              assert (KK : k = kind_of v \/ kind_fits k (s_type x0) = false).
              { destruct k, v; cbn [kind_of kind_fits] in *; auto; right;
                  try (apply orb_true_iff in F0 as [F0|F0]); apply N.eqb_eq in F0; rewrite F0; reflexivity. }
              destruct KK as [-> |KK].
              ** rewrite A0. rewrite (cell_same _ _ _ _ V C0). destruct v; reflexivity.
              ** assert (Kn : k <> kind_of v) by (intros ->; congruence).
                 unfold access_error. rewrite KK. cbn [negb]. destruct k, v; cbn in Kn; try congruence; reflexivity.
           ++ destruct (access_error k x0 idx (Some n0)) eqn:Ax; [reflexivity|].
              rewrite (cell_other v n0 (place_of x0 idx0) n1 k (place_of x0 idx) C0); [apply restate|].
              assert (Fk : kind_fits k (s_type x0) = true).
              { unfold access_error in Ax. destruct (kind_fits k (s_type x0)); [reflexivity|discriminate]. }
              rewrite <- (fits_size _ _ Fk), <- (fits_size _ _ F0). unfold place_of. nia.
        -- destruct (access_error k x idx (Some n0)) eqn:Ax; [reflexivity|].
           rewrite (cell_other v n0 (place_of x0 idx0) n1 k (place_of x idx) C0); [apply restate|].
           assert (Fk : kind_fits k (s_type x) = true).
           { unfold access_error in Ax. destruct (kind_fits k (s_type x)); [reflexivity|discriminate]. }
           assert (Ik : idx < s_count x).
           { unfold access_error in Ax. rewrite Fk in Ax. cbn [negb] in Ax. destruct (s_count x <=? idx) eqn:E; [discriminate|]. apply N.leb_gt in E. exact E. }
           assert (Rk : s_reg x = Some t0).
           { unfold access_error in Ax. rewrite Fk in Ax. cbn [negb] in Ax. replace (s_count x <=? idx) with false in Ax by (symmetry; apply N.leb_gt; exact Ik).
             rewrite Mx in Ax. destruct (s_reg x); [|discriminate]. rewrite T0 in Ax. destruct (N.eqb_spec n t0); [congruence|discriminate]. }
           rewrite <- (fits_size _ _ Fk), <- (fits_size _ _ F0).
           pose proof (place_lt x idx Bx Ik). pose proof (place_lt x0 idx0 B0 I0).
           assert (Ni' : i0 <> i) by congruence. assert (Rr : s_reg x = s_reg x0) by congruence.
           destruct (D0 i x Ui Ni' Hx Mx Rr) as [D|D]; unfold place_of in *; [left|right]; lia.
      * (* another instance *)
        assert (SE : same_el true i idx (Some c) i0 idx0 (Some c0) = false).
        { unfold same_el. replace (c =? c0) with false by (symmetry; apply N.eqb_neq; exact Nc). cbn. apply andb_false_r. }
        rewrite SE. destruct (option_map Some (nth_N (v_heap s) c)); [apply restate|reflexivity].
  - (* a global *)
    destruct (store_global v x0 idx0 n0 x' n' M0 S) as (-> & (wv & ->) & Sm & Ot).
    assert (HP : forall i, nth_N (v_heap s') i = nth_N (v_heap s) i).
    { intros i. destruct c0 as [c0|]; [|injection W as <-; reflexivity].
      cbn in N0. destruct (nth_N (v_heap s) c0) eqn:H0; [|discriminate]. cbn in N0. injection N0 as <-. injection W as <-.
      cbn. rewrite nth_set_N. destruct (N.eqb_spec i c0) as [->|]; auto. rewrite H0. apply nth_N_lt, N.ltb_lt in H0. rewrite H0. reflexivity. }
    assert (SY : forall i, nth_N (v_syms s') i = if i =? i0 then Some (with_val x0 wv) else nth_N (v_syms s) i).
    { intros i. apply N.ltb_lt in Lt. transitivity (nth_N (set_N (v_syms s) i0 (with_val x0 wv)) i).
      - destruct c0 as [c0|]; [destruct n0|]; injection W as <-; reflexivity.
      - rewrite nth_set_N, Lt. reflexivity. }
    assert (CX : forall c, the_ctx_of s' c = the_ctx_of s c).
    { intros [c|]; cbn; [rewrite HP|]; reflexivity. }
    split; [|split].
    + intros i x Ui Hx Mx. rewrite SY in Hx. destruct (N.eqb_spec i i0) as [->|Ni].
      { injection Hx as <-. change (is_member (with_val x0 wv)) with (is_member x0) in Mx. congruence. }
      destruct (L i x Ui Hx Mx) as [B D]. split; auto. intros j y Uj Hij Hy My. rewrite SY in Hy.
      destruct (N.eqb_spec j i0) as [->|Nj]; [|intros Ry; apply (D j y); auto].
      injection Hy as <-. change (is_member (with_val x0 wv)) with (is_member x0) in My. congruence.
    + intros i. rewrite SY. destruct (N.eqb_spec i i0) as [->|]; [|reflexivity]. rewrite X0. reflexivity.
    + intros k i idx c x Ui Hx P Vc. rewrite !read_eq, SY, CX, Hx. unfold holds_after. cbn [w_val w_sym w_idx w_ctx].
      destruct (N.eqb_spec i i0) as [->|Ni].
      2: { unfold same_el. replace (i =? i0) with false by (symmetry; apply N.eqb_neq; exact Ni). cbn [andb].
           destruct (the_ctx_of s c); [apply restate|reflexivity]. }
      rewrite X0 in Hx. injection Hx as <-. unfold same_el. rewrite M0, N.eqb_refl. cbn [andb negb orb]. rewrite andb_true_r.
      destruct (the_ctx_of s c) as [m|] eqn:Cm.
      * destruct (N.eqb_spec idx idx0) as [->|Nx].
        -- destruct k, v; cbn [kind_of seen] in *;
             solve [rewrite (fetch_global _ _ _ m n0) by exact M0; rewrite Sm; reflexivity
                   |rewrite Ot by (right; discriminate); apply restate].
        -- rewrite Ot by auto. apply restate.
      * congruence.
Qed.

(** * Histories *)
Lemma ctx_valid_step w s s' c :
  write_el (w_val w) (w_sym w) (w_idx w) (w_ctx w) s = VRet tt s' -> the_ctx_of s c <> None -> the_ctx_of s' c <> None.
Proof.
  rewrite write_eq. destruct (nth_N (v_syms s) (w_sym w)); [|discriminate].
  destruct (the_ctx_of s (w_ctx w)); [|discriminate]. destruct (store_el _ _ _ _) as [[x' n']|e| |]; try discriminate.
  intros W V. destruct c as [c|]; [|discriminate]. cbn in *.
  assert (L : len (v_heap s') = len (v_heap s)).
  { destruct (w_ctx w); [destruct n'|]; injection W as <-; cbn; rewrite ?set_N_len; reflexivity. }
  destruct (nth_N (v_heap s) c) eqn:E; [|cbn in V; congruence]. apply nth_N_lt in E. rewrite <- L in E.
  destruct (nth_N_Some _ _ E) as [z ->]. discriminate.
Qed.
Lemma write_exc w s e s' : write_el (w_val w) (w_sym w) (w_idx w) (w_ctx w) s = VExc e s' -> s' = s.
Proof.
  rewrite write_eq. destruct (nth_N (v_syms s) (w_sym w)); [|discriminate].
  destruct (the_ctx_of s (w_ctx w)); [|discriminate]. destruct (store_el _ _ _ _) as [[x' n']|e'| |]; try discriminate.
  injection 1. auto.
Qed.

Lemma replay_spec U k i idx c x ws : forall s r s',
  layout_ok U s -> Forall (fun w => U (w_sym w) /\ value_ok (w_val w)) ws ->
  U i -> option_map is_member (nth_N (v_syms s) i) = Some (is_member x) -> (k = KFlt -> is_member x = true -> idx < 256) ->
  the_ctx_of s c <> None ->
  replay k i idx c (is_member x) ws (read_el k i idx c s) s = Some (r, s') -> read_el k i idx c s' = r.
Proof.
  induction ws as [|w ws IH]; intros s r s' L F Ui Hx P Vc; cbn [replay]; [congruence|].
  inversion F as [|w' ws' [Uw Vw] F']; subst.
  destruct (write_el _ _ _ _ s) as [[] s1|e s1|u s1|] eqn:W; try discriminate.
  - destruct (write_step U s w s1 L Uw Vw W) as (L1 & M1 & R1).
    destruct (nth_N (v_syms s) i) as [y|] eqn:Y; [|discriminate]. cbn in Hx. injection Hx as Hx.
    rewrite <- Hx. rewrite <- (R1 k i idx c y Ui Y); auto.
    + rewrite Hx. apply IH; auto.
      * rewrite M1, Y. cbn. congruence.
      * eapply ctx_valid_step; eauto.
    + intros Hk My. apply P; auto. congruence.
  - apply write_exc in W as ->. apply IH; auto.
Qed.
