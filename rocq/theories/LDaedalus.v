(** Instructions, symbol tables. *)

From Coq Require Import Lia.
From Verif Require Import MBase LBase MStream LStream SStream MVfs MDaedalus SDaedalus.
Local Open Scope N_scope.
Ltac Zify.zify_post_hook ::= idtac.

(* ------------------------------------------------------------------ *)
(** * Instructions *)

Lemma reads_op op : op < 256 -> reads read_ubyte [n2b op] op.
Proof.
  intros H. eapply reads_cast; [apply (reads_ubyte op); change (2 ^ 8) with 256; exact H| |reflexivity].
  reflexivity.
Qed.

Ltac in_cases H := cbn [In] in H; repeat (destruct H as [H|H]; [subst|]); [..|destruct H].

Lemma decode_plain op : op < 256 -> ~ In op [61; 62; 64; 65; 67; 75; 76; 80; 245] -> reads decode [n2b op] (mkI op 0 0 0 0 1).
Proof.
  intros H1 H2. unfold decode. eapply reads_if_last; [apply reads_op, H1|].
  repeat match goal with
  | |- context[op =? ?k] => destruct (N.eqb_spec op k) as [->|]; [exfalso; apply H2; vm_compute; tauto|]
  end. apply reads_ret.
Qed.

Lemma reads_decode i : asm_ok i -> reads decode (asm_bytes i) (asm_instr i).
Proof.
  destruct i as [op|op a|v|op s|s x]; cbn [asm_ok asm_bytes asm_instr].
  - intros [H1 H2]. apply decode_plain; auto.
  - intros [H1 H2]. change (n2b op :: le_enc 4 a) with ([n2b op] ++ le_enc 4 a).
    eapply reads_bind; [apply reads_op; in_cases H1; lia|]. cbv beta.
    replace (_ || _ || _)%bool with true by (in_cases H1; reflexivity).
    eapply reads_if_last; [apply reads_uint; exact H2|]. apply reads_ret.
  - intros H. change (n2b op_PUSHI :: le_enc 4 (uint 32 v)) with ([n2b op_PUSHI] ++ le_enc 4 (uint 32 v)).
    eapply reads_bind; [apply reads_op; reflexivity|]. cbv beta. cbn [N.eqb orb Pos.eqb op_PUSHI op_BL op_BZ op_B].
    eapply reads_if_last; [apply reads_int; exact H|]. apply reads_ret.
  - intros [H1 H2]. change (n2b op :: le_enc 4 s) with ([n2b op] ++ le_enc 4 s).
    eapply reads_bind; [apply reads_op; in_cases H1; lia|]. cbv beta.
    replace ((op =? op_BL) || _ || _)%bool with false by (in_cases H1; reflexivity).
    replace (op =? op_PUSHI) with false by (in_cases H1; reflexivity).
    replace (_ || _ || _ || _)%bool with true by (in_cases H1; reflexivity).
    eapply reads_if_last; [apply reads_uint; exact H2|]. apply reads_ret.
  - intros [H1 H2]. change (n2b op_PUSHVV :: le_enc 4 s ++ [n2b x]) with ([n2b op_PUSHVV] ++ le_enc 4 s ++ [n2b x]).
    eapply reads_bind; [apply reads_op; reflexivity|]. cbv beta.
    cbn [N.eqb orb Pos.eqb op_PUSHVV op_PUSHI op_BL op_BZ op_B op_BE op_PUSHV op_PUSHVI op_GMOVI].
    eapply reads_bind; [apply reads_uint; exact H1|]. cbv beta.
    eapply reads_if_last; [apply reads_op, H2|]. apply reads_ret.
Qed.

Lemma asm_size i : i_size (asm_instr i) = len (asm_bytes i).
Proof. destruct i; reflexivity. Qed.

Lemma assembled_at a i b p : asm_ok i -> len (assemble (a ++ i :: b)) < 2 ^ 32 ->
  instruction_at (len (assemble a)) (mkR (assemble (a ++ i :: b)) p) =
  Ret (asm_instr i, mkR (assemble (a ++ i :: b)) (len (assemble (a ++ [i])))).
Proof.
  intros H1 H2. unfold instruction_at, assemble in *. rewrite !flat_map_app in *. cbn [flat_map] in *.
  assert (L : len (flat_map asm_bytes a ++ asm_bytes i ++ flat_map asm_bytes b) < max_size)
    by (eapply N.lt_trans; [exact H2|reflexivity]).
  unfold bind at 1. rewrite rd_seek_beg by (auto; rewrite len_app; lia). cbv beta.
  rewrite reads_decode by auto. rewrite app_nil_r, len_app. reflexivity.
Qed.

(** Disassembly: whatever is decoded assembles to the bytes it was decoded from. *)
Definition disasm (i : instr) : asm :=
  if (i_op i =? op_BL) || (i_op i =? op_BZ) || (i_op i =? op_B) then AAddr (i_op i) (i_addr i)
  else if i_op i =? op_PUSHI then AImm (i_imm i)
  else if (i_op i =? op_BE) || (i_op i =? op_PUSHV) || (i_op i =? op_PUSHVI) || (i_op i =? op_GMOVI) then ASym (i_op i) (i_symb i)
  else if i_op i =? op_PUSHVV then AElem (i_symb i) (i_idx i)
  else ACode (i_op i).

Lemma every_byte_starts_one b : exists i, asm_ok i /\ hd b (asm_bytes i) = b.
Proof.
  destruct (in_dec N.eq_dec (b2n b) [61; 62; 64; 65; 67; 75; 76; 80; 245]) as [H|H].
  - assert (R : forall op l, b2n b = op -> hd b (n2b op :: l) = b) by (intros ? ? <-; cbn; apply n2b_b2n).
    destruct H as [H|[H|[H|[H|[H|[H|[H|[H|[H|[]]]]]]]]]].
    all: first [exists (AAddr (b2n b) 0); split; [split; [rewrite <- H; vm_compute; tauto|reflexivity]|apply R; reflexivity]
               |exists (ASym (b2n b) 0); split; [split; [rewrite <- H; vm_compute; tauto|reflexivity]|apply R; reflexivity]
               |exists (AImm 0); split; [cbn; lia|apply R; symmetry; exact H]
               |exists (AElem 0 0); split; [split; reflexivity|apply R; symmetry; exact H]].
  - exists (ACode (b2n b)). split; [split; [apply b2n_bound|exact H]|apply n2b_b2n].
Qed.

(* ------------------------------------------------------------------ *)
(** * Lookups *)

Lemma last_nil {A} (P : A -> bool) : last_index P [] None.
Proof. intros x []. Qed.


Lemma nth_N_app_l {A} (l r : list A) i : i < len l -> nth_N (l ++ r) i = nth_N l i.
Proof. intros H. rewrite !nth_N_error. apply nth_error_app1. unfold len in H. lia. Qed.
Lemma nth_N_app_r {A} (l r : list A) i : len l <= i -> nth_N (l ++ r) i = nth_N r (i - len l).
Proof. intros H. rewrite !nth_N_error. rewrite nth_error_app2 by (unfold len in H; lia). f_equal. unfold len. lia. Qed.
Lemma nth_N_0 {A} (x : A) l : nth_N (x :: l) 0 = Some x.
Proof. rewrite nth_N_error. reflexivity. Qed.
Lemma nth_N_S {A} (x : A) l i : nth_N (x :: l) (i + 1) = nth_N l i.
Proof. rewrite !nth_N_error. replace (N.to_nat (i + 1)) with (S (N.to_nat i)) by lia. reflexivity. Qed.

Lemma last_snoc {A} (P : A -> bool) l x r : last_index P l r ->
  last_index P (l ++ [x]) (if P x then Some (len l) else r).
Proof.
  intros H. destruct (P x) eqn:E.
  - split; [exists x; split; auto|].
    + rewrite nth_N_app_r, N.sub_diag by lia. apply nth_N_0.
    + intros j y Hj Hy. apply nth_N_lt in Hy. rewrite len_snoc in Hy. lia.
  - destruct r as [i|].
    + destruct H as [(y & Hy & Py) H]. split.
      * exists y. split; auto. rewrite nth_N_app_l; auto. eapply nth_N_lt, Hy.
      * intros j z Hj Hz. destruct (N.lt_ge_cases j (len l)) as [L|L].
        -- rewrite nth_N_app_l in Hz by auto. eauto.
        -- pose proof Hz as Hz'. apply nth_N_lt in Hz'. rewrite len_snoc in Hz'.
           replace j with (len l) in Hz by lia. rewrite nth_N_app_r, N.sub_diag, nth_N_0 in Hz by lia. congruence.
    + intros y Hy. apply in_app_or in Hy as [Hy|[<-|[]]]; auto.
Qed.

(** The tables built by [load_symbols]. *)
Definition names_of (l : list sym) (i : N) (acc : list (bytes * N)) : list (bytes * N) :=
  snd (fold_left (fun '(i, a) s => (i + 1, (s_name s, i) :: a)) l (i, acc)).
Definition addrs_of (l : list sym) (i : N) (acc : list (N * N)) : list (N * N) :=
  snd (fold_left (fun '(i, a) s => (i + 1, if has_address s then (s_addr s, i) :: a else a)) l (i, acc)).

Lemma load_symbols_tables n : forall i nm ad s l nm' ad' s',
  load_symbols n i nm ad s = Ret (l, nm', ad', s') ->
  len l = N.of_nat n /\ nm' = names_of l i nm /\ ad' = addrs_of l i ad.
Proof.
  induction n as [|n IH]; intros i nm ad s l nm' ad' s'; cbn [load_symbols]; unfold bind, ret.
  - injection 1 as <- <- <- <-. auto.
  - destruct (load_symbol s) as [[x s1]|e| |]; try discriminate. cbv beta iota.
    destruct (load_symbols n _ _ _ s1) as [[[[l1 nm1] ad1] s2]|e| |] eqn:E; try discriminate.
    injection 1 as <- <- <- <-. apply IH in E as (E1 & -> & ->). rewrite len_cons, E1. repeat split. lia.
Qed.

Lemma find_last_names l : forall pre acc n,
  (forall k, last_index (fun s => bytes_eqb (s_name s) (upper k)) pre (find_by_name acc k)) ->
  last_index (fun s => bytes_eqb (s_name s) (upper n)) (pre ++ l) (find_by_name (names_of l (len pre) acc) n).
Proof.
  induction l as [|x l IH]; intros pre acc n H.
  - rewrite app_nil_r. apply H.
  - change (x :: l) with ([x] ++ l). rewrite app_assoc. unfold names_of. cbn [app fold_left].
    specialize (IH (pre ++ [x]) ((s_name x, len pre) :: acc) n). rewrite len_snoc in IH. unfold names_of in IH.
    apply IH. intros k. unfold find_by_name. cbn [find fst].
    specialize (H k). apply last_snoc with (x := x) in H. cbv beta in H.
    destruct (bytes_eqb (s_name x) (upper k)); exact H.
Qed.
Lemma find_last_addrs l : forall pre acc a,
  (forall k, last_index (fun s => has_address s && (s_addr s =? k)) pre (find_by_address acc k)) ->
  last_index (fun s => has_address s && (s_addr s =? a)) (pre ++ l) (find_by_address (addrs_of l (len pre) acc) a).
Proof.
  induction l as [|x l IH]; intros pre acc a H.
  - rewrite app_nil_r. apply H.
  - change (x :: l) with ([x] ++ l). rewrite app_assoc. unfold addrs_of. cbn [app fold_left].
    specialize (IH (pre ++ [x]) (if has_address x then (s_addr x, len pre) :: acc else acc) a).
    rewrite len_snoc in IH. unfold addrs_of in IH. apply IH. intros k.
    specialize (H k). apply last_snoc with (x := x) in H. cbv beta in H.
    unfold find_by_address in *. destruct (has_address x); cbn [find fst andb] in *; [|exact H].
    destruct (s_addr x =? k); exact H.
Qed.

Lemma load_script_lookup s sc s' : load_script s = Ret (sc, s') ->
  (forall n, last_index (fun x => bytes_eqb (s_name x) (upper n)) (sc_syms sc) (find_by_name (sc_names sc) n)) /\
  (forall a, last_index (fun x => has_address x && (s_addr x =? a)) (sc_syms sc) (find_by_address (sc_addrs sc) a)).
Proof.
  unfold load_script, bind, ret.
  destruct (read_ubyte s) as [[v s1]|e| |]; try discriminate. cbv beta iota.
  destruct (read_uint s1) as [[c s2]|e| |]; try discriminate. cbv beta iota.
  destruct (rd_seek _ CUR s2) as [[[] s3]|e| |]; try discriminate. cbv beta iota.
  destruct (load_symbols _ 0 [] [] s3) as [[[[l nm] ad] s4]|e| |] eqn:E; try discriminate. cbv beta iota.
  destruct (read_uint s4) as [[z s5]|e| |]; try discriminate. cbv beta iota.
  destruct (rd_read z s5) as [[code s6]|e| |]; try discriminate. injection 1 as <- <-.
  apply load_symbols_tables in E as (_ & -> & ->). cbn [sc_syms sc_names sc_addrs]. split.
  - intros n. apply (find_last_names l [] [] n). intros k. apply last_nil.
  - intros a. apply (find_last_addrs l [] [] a). intros k. apply last_nil.
Qed.

(* ------------------------------------------------------------------ *)
(** * Parameters and locals *)

Lemma params_exact l f x k : k < s_count x -> nth_N (params_of l f x) k = Some (nth_N l (f + 1 + k)).
Proof.
  intros H. rewrite nth_N_error. unfold params_of. rewrite nth_error_map.
  rewrite (nth_error_nth' _ 0%nat) by (rewrite seq_length; lia). rewrite seq_nth by lia. cbn. do 3 f_equal. lia.
Qed.
Lemma params_count l f x : len (params_of l f x) = s_count x.
Proof. unfold params_of. rewrite len_map. unfold len. rewrite seq_length. lia. Qed.

Lemma locals_from_spec fn : forall l n, locals_from fn l = Some n ->
  (forall k x, nth_error l k = Some x -> (k < n)%nat -> is_local_name fn (s_name x) = true) /\
  (exists x, nth_error l n = Some x /\ is_local_name fn (s_name x) = false).
Proof.
  induction l as [|x l IH]; intros n; cbn [locals_from]; [discriminate|].
  destruct (is_local_name fn (s_name x)) eqn:E.
  - destruct (locals_from fn l) as [m|] eqn:E2; [|discriminate]. injection 1 as <-.
    destruct (IH m eq_refl) as [H1 H2]. split; [|exact H2].
    intros [|k] y; cbn; [congruence|]. intros Hy Hk. apply (H1 k); auto. lia.
  - injection 1 as <-. split; [intros; lia|]. exists x. auto.
Qed.
Lemma locals_from_none fn : forall l, locals_from fn l = None <-> forall x, In x l -> is_local_name fn (s_name x) = true.
Proof.
  induction l as [|x l IH]; cbn [locals_from]; [split; [intros _ y []|reflexivity]|].
  destruct (is_local_name fn (s_name x)) eqn:E.
  - destruct (locals_from fn l); cbn.
    + split; [discriminate|]. intros H. destruct IH as [_ IH]. discriminate IH. intros y Hy. apply H. right. exact Hy.
    + split; auto. intros _ y [<-|Hy]; auto. apply IH; auto.
  - split; [discriminate|]. intros H. rewrite H in E by (left; reflexivity). discriminate.
Qed.
Lemma nth_error_skip {A} (l : list A) a k : nth_error (skipn a l) k = nth_error l (a + k)%nat.
Proof. revert l. induction a as [|a IH]; intros [|x l]; cbn; auto. destruct k; reflexivity. Qed.

(** Exactly the run of symbols with the function's name as prefix, if it ends in the table. *)
Lemma locals_exact l f x : f + 1 + s_count x < 2 ^ 32 ->
  (exists y k, f + 1 + s_count x <= k /\ nth_N l k = Some y /\ is_local_name (s_name x) (s_name y) = false) ->
  exists n, locals_of l f x = map (fun k => f + 1 + s_count x + N.of_nat k) (seq 0 n) /\
    (forall k y, f + 1 + s_count x <= k < f + 1 + s_count x + N.of_nat n -> nth_N l k = Some y ->
       is_local_name (s_name x) (s_name y) = true) /\
    exists y, nth_N l (f + 1 + s_count x + N.of_nat n) = Some y /\ is_local_name (s_name x) (s_name y) = false.
Proof.
  intros H (y & k & Hk & Hy & Ny). unfold locals_of. cbv zeta.
  replace (u32 (f + 1 + s_count x)) with (f + 1 + s_count x) by (unfold u32; rewrite N.mod_small; auto).
  set (first := f + 1 + s_count x) in *.
  assert (S : forall m, nth_error (drop first l) m = nth_N l (first + N.of_nat m)).
  { intros m. rewrite drop_skipn, nth_error_skip, nth_N_error. f_equal. lia. }
  destruct (locals_from (s_name x) (drop first l)) as [n|] eqn:E.
  - exists n. split; [reflexivity|]. apply locals_from_spec in E as [E1 (z & E2 & E3)]. split.
    + intros j z' Hj Hz. apply (E1 (N.to_nat (j - first)) z'); [|lia]. rewrite S. rewrite <- Hz. f_equal. lia.
    + exists z. rewrite <- S. auto.
  - exfalso. rewrite (proj1 (locals_from_none _ _) E) in Ny; [discriminate|].
    apply nth_error_In with (n := N.to_nat (k - first)). rewrite S. rewrite <- Hy. f_equal. lia.
Qed.
