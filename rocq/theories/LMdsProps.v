(** Model scripts: lemmas behind the property theorems. *)
From Coq Require Import Lia.
From Verif Require Import MBase MStream SStream LBase LStream MBoxes SBoxes LBoxes SFormat LFormat MText LText MVfs SVfs LVfs MScript SScript LMds LMdsParse SMorph SMrm LMorph SCompiled LMdsBin LMdsSafe.
Local Open Scope N_scope.
Local Open Scope m_scope.

(* ------------------------------------------------------------------ *)
(** ** Tokens *)
Lemma tokens_end g fuel n : forall t, let f := g ++ [x0a; x0a] in
  len f < max_size -> (length f < fuel)%nat -> rdata (tk_r t) = f -> rpos (tk_r t) <= len f -> len f - rpos (tk_r t) < N.of_nat n ->
  exists l, all_tokens fuel n t = Ret l.
Proof.
  induction n as [|n IH]; intros t f HD HF Hd Hp Hn; [lia|]. cbn [all_tokens].
  destruct (next_ends g HD fuel t Hd Hp HF) as (k & v & t' & R & D' & P' & K1 & K2). rewrite R. cbn [obind fst snd].
  assert (B : k <> TEof -> exists l, all_tokens fuel n t' = Ret l).
  { intros K. specialize (K2 K). apply IH; try assumption. subst f. lia. }
  destruct k; try (destruct (B ltac:(discriminate)) as (l & E); rewrite E; cbn [obind]; eexists; reflexivity).
  eexists. reflexivity.
Qed.

(** Past the end every character is NUL. *)
Lemma line_loops D fuel : len D < max_size -> tk_line fuel (mkR D (len D)) = Fuel.
Proof.
  intros HD. induction fuel as [|fuel IH]; [reflexivity|]. cbn [tk_line]. unfold bind. rewrite read_char_end by exact HD. exact IH.
Qed.
Lemma string_loops D fuel : len D < max_size -> forall acc prev, tk_string_rest fuel x00 acc prev (mkR D (len D)) = Fuel.
Proof.
  intros HD. induction fuel as [|fuel IH]; intros acc prev; [reflexivity|]. cbn [tk_string_rest]. change (beq x00 x22 || beq x00 x0a) with false. cbv iota.
  unfold bind. rewrite read_char_end by exact HD. apply IH.
Qed.
Lemma comment_loops fuel m : tk_next fuel (mkTk (mkR (lit "//") 0) m) = Fuel.
Proof.
  destruct fuel as [|fuel]; [reflexivity|].
  pose proof (line_loops (lit "//") fuel ltac:(reflexivity)) as L. change (len (lit "//")) with 2 in L.
  change (tk_next (S fuel) (mkTk (mkR (lit "//") 0) m)) with ((on_r (tk_line fuel) ;; tk_next fuel) (mkTk (mkR (lit "//") 2) 0)).
  unfold bind at 1. unfold on_r. cbn [tk_r tk_mark]. rewrite L. reflexivity.
Qed.
Lemma quote_loops fuel m : tk_next fuel (mkTk (mkR [x22] 0) m) = Fuel.
Proof.
  destruct fuel as [|fuel]; [reflexivity|].
  pose proof (string_loops [x22] fuel ltac:(reflexivity) [] x00) as L. change (len [x22]) with 1 in L.
  change (tk_next (S fuel) (mkTk (mkR [x22] 0) m)) with ((let* x := on_r (tk_string_rest fuel x00 [] x00) in
    let '(v, prev, last) := x in
    (if beq last x22 then ret tt else on_r (rd_seek (-1) CUR)) ;; ret (TString, if beq prev x29 then removelast v else v)) (mkTk (mkR [x22] 1) 0)).
  unfold bind at 1. unfold on_r at 1. cbn [tk_r tk_mark]. rewrite L. reflexivity.
Qed.
Lemma word_stays fuel m : tk_next (S (S fuel)) (mkTk (mkR (lit "a") 0) m) = Ret ((TKeyword, lit "a"), mkTk (mkR (lit "a") 0) 0).
Proof. vm_compute. reflexivity. Qed.

(* ------------------------------------------------------------------ *)
(** ** Sources with a brace of their own at the end *)
Lemma closed_ends g fuel s f c0 c1 h : f = g ++ [x0a; x0a; x7d; x0a; x0a] -> f = c0 :: c1 :: h -> b2n c1 < 128 ->
  len f < max_size -> (length f < fuel)%nat -> load_ends (of_file (mds_load fuel s) f).
Proof.
  intros Ef Eh Hc Hm HF. unfold of_file, mds_load.
  assert (Eu : le_enc 2 (b2n c0 + 256 * b2n c1) = [c0; c1]).
  { clear. pose proof (le_enc_dec [c0; c1]) as X. cbn [length le_dec] in X. replace (b2n c0 + 256 * b2n c1) with (b2n c0 + 256 * (b2n c1 + 256 * 0)) by lia. exact X. }
  pose proof (b2n_bound c0) as B0.
  assert (H16 : b2n c0 + 256 * b2n c1 < 32768) by lia.
  pose proof (reads_ushort (b2n c0 + 256 * b2n c1) ltac:(change (2 ^ 16) with 65536; lia) [] h I) as E2.
  rewrite Eu in E2. cbn [app] in E2. rewrite <- Eh in E2. specialize (E2 Hm). change (len (@nil byte)) with 0 in E2. change (len [c0; c1]) with 2 in E2.
  unfold bind at 1. rewrite E2.
  assert (L2 : 2 <= len f) by (rewrite Eh; rewrite !len_cons; lia).
  assert (SK : rd_seek (-2) CUR (mkR f (0 + 2)) = Ret (tt, mkR f 0)).
  { unfold rd_seek, seek_internal. cbn [rdata rpos]. rewrite sint_small by (pows; lia).
    assert (X : ssize_add (Z.of_N (0 + 2)) (-2) = Ret 0%Z) by (vm_compute; reflexivity). rewrite X. cbn [obind]. change (uint 64 0) with 0.
    destruct (N.ltb_spec (len f) 0); [lia | reflexivity]. }
  unfold bind at 1. rewrite SK.
  replace ((61440 <=? b2n c0 + 256 * b2n c1) || (b2n c0 + 256 * b2n c1 =? 53248)) with false by lia.
  unfold mds_source. subst f.
  pose proof (script_wp g Hm fuel HF s (mkTk (mkR (g ++ [x0a; x0a; x7d; x0a; x0a]) 0) 0)) as W.
  assert (I0 : inside g (mkTk (mkR (g ++ [x0a; x0a; x7d; x0a; x0a]) 0) 0)) by (split; [reflexivity | cbn [tk_r rpos]; lia]).
  specialize (W I0). unfold wp in W. destruct (p_script fuel s _) as [[s' t']|e| |]; try exact I; exact W.
Qed.

(** ** Number lists *)
Lemma frames_loop n v : frame_list n false (is_of (lit "x")) v = Fuel.
Proof.
  destruct n as [|n]; [reflexivity|]. cbn [frame_list]. cbn [is_of is_eof is_fail orb andb].
  change (is_int (is_of (lit "x")) v) with (0%Z, mkIs (lit "x") false true).
  assert (X : forall m w, frame_list m false (mkIs (lit "x") false true) w = Fuel).
  { induction m as [|m IH]; intros w; [reflexivity|]. cbn [frame_list is_eof is_fail orb andb]. cbn [is_int is_eof is_fail orb is_rest].
    rewrite IH. reflexivity. }
  cbv beta iota. rewrite X. reflexivity.
Qed.

(* ------------------------------------------------------------------ *)
(** ** Deciding that a text is laid out as tokens (for the examples) *)
Definition memb (s : bytes) (c : byte) : bool := existsb (beq c) s.
Lemma memb_in s c : memb s c = true -> In c s.
Proof. unfold memb. intros H. apply existsb_exists in H. destruct H as (x & Hx & E). destruct (beqP c x); [subst; exact Hx | discriminate]. Qed.
Lemma memb_out s c : memb s c = false -> ~ In c s.
Proof.
  unfold memb. intros H Hi. assert (X : existsb (beq c) s = true) by (apply existsb_exists; exists c; split; [exact Hi | apply beq_refl]). congruence.
Qed.
Definition stopsb (s rest : bytes) : bool := match rest with c :: _ => negb (memb s c) | [] => false end.
Lemma stopsb_ok s rest : stopsb s rest = true -> stops s rest.
Proof. unfold stopsb, stops. destruct rest as [|c r]; [discriminate|]. intros H. apply memb_out. destruct (memb s c); [discriminate | reflexivity]. Qed.
Definition unsign (s : bytes) : bool * bytes := match s with c :: r => if beq c x2d then (true, r) else (false, s) | [] => (false, s) end.
Lemma unsign_ok s : s = sign (fst (unsign s)) ++ snd (unsign s).
Proof. destruct s as [|c r]; [reflexivity|]. cbn [unsign]. destruct (beqP c x2d) as [->|]; reflexivity. Qed.
Fixpoint undot (s : bytes) : option (bytes * bytes) :=
  match s with [] => None | c :: r => if beq c x2e then Some ([], r) else option_map (fun x => (c :: fst x, snd x)) (undot r) end.
Lemma undot_ok s a b : undot s = Some (a, b) -> s = a ++ x2e :: b.
Proof.
  revert a b. induction s as [|c r IH]; intros a b; [discriminate|]. cbn [undot]. destruct (beqP c x2e) as [->|].
  - intros H. injection H as <- <-. reflexivity.
  - destruct (undot r) as [[x y]|]; [|discriminate]. cbn. intros H. injection H as <- <-. rewrite (IH x y eq_refl). reflexivity.
Qed.
Definition some_digits (s : bytes) : bool := match s with [] => false | _ => true end && forallb (memb digits) s.
Lemma some_digits_ok s : some_digits s = true -> s <> [] /\ forall x, In x s -> In x digits.
Proof.
  unfold some_digits. destruct s as [|c r]; [discriminate|]. cbn [andb]. intros H. split; [discriminate|]. intros x Hx.
  rewrite forallb_forall in H. apply memb_in, H, Hx.
Qed.
Definition lexemeb (k : token) (v t rest : bytes) : bool :=
  match k with
  | TKeyword => bytes_eqb v t && match v with c :: w => memb word_starts c && forallb (memb word_chars) w | [] => false end && stopsb word_chars rest
  | TInteger => bytes_eqb v t && some_digits (snd (unsign v)) && stopsb (digits ++ lit ".") rest
  | TFloat => bytes_eqb v t && match undot (snd (unsign v)) with Some (a, b) => some_digits a && forallb (memb digits) b | None => false end &&
              stopsb (digits ++ lit ".") rest
  | TString => bytes_eqb (x22 :: v ++ [x22]) t && negb (memb v x22) && negb (memb v x0a) && negb (memb v x29)
  | TLbrace => bytes_eqb v [] && bytes_eqb t (lit "{")
  | TRbrace => bytes_eqb v [] && bytes_eqb t (lit "}")
  | TColon => bytes_eqb v [] && bytes_eqb t (lit ":")
  | _ => false
  end.
Lemma negb_out s c : negb (memb s c) = true -> ~ In c s.
Proof. intros H. apply memb_out. destruct (memb s c); [discriminate | reflexivity]. Qed.
Lemma lexemeb_ok k v t rest : lexemeb k v t rest = true -> lexeme k v t rest.
Proof.
  unfold lexemeb. destruct k; intros H; try discriminate; repeat (apply andb_prop in H as [H ?]);
    repeat match goal with X : bytes_eqb _ _ = true |- _ => apply bytes_eqb_spec in X; try subst end.
  - destruct t as [|c w]; [discriminate|]. apply andb_prop in H1 as [H1 H2]. apply lex_word; [apply memb_in, H1 | | apply stopsb_ok, H0].
    intros x Hx. rewrite forallb_forall in H2. apply memb_in, H2, Hx.
  - apply some_digits_ok in H1 as [N1 N2]. rewrite (unsign_ok t). apply lex_int; [exact N1 | exact N2 | apply stopsb_ok, H0].
  - destruct (undot (snd (unsign t))) as [[a b]|] eqn:E; [|discriminate]. apply undot_ok in E. apply andb_prop in H1 as [H1 H2].
    apply some_digits_ok in H1 as [N1 N2]. rewrite (unsign_ok t), E. apply lex_float; [exact N1 | exact N2 | | apply stopsb_ok, H0].
    intros x Hx. rewrite forallb_forall in H2. apply memb_in, H2, Hx.
  - apply lex_string. split; [apply negb_out; assumption|]. split; [apply negb_out; assumption|].
    intros (a & ws & -> & _). apply (negb_out _ _ H0). apply in_or_app. right. left. reflexivity.
  - apply lex_rbrace.
  - apply lex_lbrace.
  - apply lex_colon.
Qed.
(** Tokens, each with the blanks before it and its text. *)
Definition items := list (bytes * token * bytes * bytes).
Fixpoint print (l : items) (rest : bytes) : bytes := match l with [] => rest | (b, k, v, t) :: l' => b ++ t ++ print l' rest end.
Definition item_toks (l : items) : toks := map (fun x => let '(b, k, v, t) := x in (k, v)) l.
Fixpoint items_ok (l : items) (rest : bytes) : bool :=
  match l with
  | [] => true
  | (b, k, v, t) :: l' => forallb (memb (spaces ++ lit "();")) b && lexemeb k v t (print l' rest) && items_ok l' rest
  end.
Lemma items_text l rest : items_ok l rest = true -> text_of (item_toks l) (print l rest) rest.
Proof.
  induction l as [|[[[b k] v] t] l IH]; intros H; [apply text_nil|]. cbn [items_ok] in H. apply andb_prop in H as [H H2]. apply andb_prop in H as [H H1].
  cbn [item_toks map print]. apply text_cons; [|apply lexemeb_ok, H1 | apply IH, H2].
  induction b as [|c b IHb]; [apply blank_nil|]. cbn [forallb] in H. apply andb_prop in H as [Ha Hb]. apply blank_char; [apply memb_in, Ha | apply IHb, Hb].
Qed.
Lemma cat_one (P Q : lang) t l : P [t] -> Q l -> (cat P Q) (t :: l).
Proof. intros H1 H2. exists [t], l. split; [exact H1|]. split; [exact H2 | reflexivity]. Qed.
Lemma cat_zero (P Q : lang) l : P [] -> Q l -> (cat P Q) l.
Proof. intros H1 H2. exists [], l. split; [exact H1|]. split; [exact H2 | reflexivity]. Qed.
Lemma cat_last (P Q : lang) l : P l -> Q [] -> (cat P Q) l.
Proof. intros H1 H2. exists l, []. split; [exact H1|]. split; [exact H2 | symmetry; apply app_nil_r]. Qed.
Lemma cat_cat (P Q R : lang) l : (cat P (cat Q R)) l -> (cat (cat P Q) R) l.
Proof.
  intros (a & bc & H1 & (b & c & H2 & H3 & ->) & ->). exists (a ++ b), c. split; [|split; [exact H3 | apply app_assoc]].
  exists a, b. split; [exact H1|]. split; [exact H2 | reflexivity].
Qed.
Lemma cat_at n (P Q : lang) l : P (firstn n l) -> Q (skipn n l) -> (cat P Q) l.
Proof. intros H1 H2. exists (firstn n l), (skipn n l). split; [exact H1|]. split; [exact H2 | symmetry; apply firstn_skipn]. Qed.
Lemma enum_at k c cs n l : g_command c n (firstn k l) -> g_enum cs (skipn k l) -> meets n (skipn k l) -> g_enum (c :: cs) l.
Proof. intros H1 H2 H3. rewrite <- (firstn_skipn k l). exact (enum_cons c cs n _ _ H1 H2 H3). Qed.
Lemma plain_text s : forallb (fun c => negb (beq c x00 || beq c x0d || beq c x0a)) s = true -> no_eol s.
Proof.
  intros H. rewrite forallb_forall in H. unfold no_eol. rewrite Forall_forall. intros c Hc. specialize (H c Hc).
  destruct (beqP c x00); [discriminate|]. destruct (beqP c x0d); [discriminate|]. destruct (beqP c x0a); [discriminate|]. repeat split; assumption.
Qed.

(* ------------------------------------------------------------------ *)
Lemma load_comment_loops fuel s : of_file (mds_load fuel s) (lit "//") = Fuel.
Proof.
  unfold of_file. change (mds_load fuel s (mkR (lit "//") 0)) with (mds_source fuel s (mkR (lit "//") 0)).
  unfold mds_source, p_script, p_expect_word, p_expect, p_maybe. unfold bind at 1 2 3 4. rewrite comment_loops. reflexivity.
Qed.
Lemma both_load fuel l f1 f2 : source_file l f1 -> compiled_file (flat_map top_commands l) f2 -> Forall command_kept (flat_map top_commands l) ->
  len f1 < max_size -> len f2 < max_size -> (S (length f1) < fuel)%nat ->
  exists m, of_file (mds_load fuel mscript_new) f1 = Ret m /\ of_file (mds_load fuel mscript_new) f2 = Ret m.
Proof.
  intros H1 H2 H3 H4 H5 H6. eexists. split; [apply (mds_load_source fuel _ l f1 H1 H3 H4 H6) | apply (mds_load_compiled fuel mscript_new _ f2 H2 eq_refl H5)].
Qed.
