(** Loading compiled scripts. *)

From Coq Require Import Lia.
From Verif Require Import MBase LBase MStream LStream LStreamHist SStream MVfs MDaedalus SDaedalus LDaedalus.
Local Open Scope N_scope.
Ltac Zify.zify_post_hook ::= idtac.

Lemma props_parts c t f : c < 4096 -> t < 16 -> f < 64 ->
  let p := c + 4096 * t + 65536 * f in
  p < 2 ^ 32 /\ N.land p 4095 = c /\ N.land (N.shiftr p 12) 15 = t /\ N.land (N.shiftr p 16) 63 = f.
Proof.
  intros H1 H2 H3 p. assert (P : p = 4096 * (t + 16 * f) + c) by (unfold p; lia).
  assert (Q : p = 65536 * f + (c + 4096 * t)) by (unfold p; lia). split; [unfold p; lia|].
  change 4095 with (N.ones 12). change 15 with (N.ones 4). change 63 with (N.ones 6).
  rewrite !N.land_ones, !N.shiftr_div_pow2. change (2 ^ 12) with 4096. change (2 ^ 4) with 16. change (2 ^ 16) with 65536. change (2 ^ 6) with 64.
  split; [symmetry; apply N.mod_unique with (t + 16 * f); lia|].
  replace (p / 4096) with (t + 16 * f) by (apply N.div_unique with c; lia).
  replace (p / 65536) with f by (apply N.div_unique with (c + 4096 * t); lia).
  split; [symmetry; apply N.mod_unique with f; lia|apply N.mod_small; lia].
Qed.

Lemma land19 p : p < 2 ^ 19 -> N.land p 524287 = p.
Proof. intros H. change 524287 with (N.ones 19). rewrite N.land_ones. apply N.mod_small, H. Qed.
Lemma land24 p : p < 2 ^ 19 -> N.land p 16777215 = p.
Proof. intros H. change 16777215 with (N.ones 24). rewrite N.land_ones. apply N.mod_small. eapply N.lt_trans; [exact H|reflexivity]. Qed.

Lemma len_words l : len (flat_map (le_enc 4) l) = 4 * len l.
Proof. induction l as [|x l IH]; [reflexivity|]. cbn [flat_map]. rewrite len_app, len_le_enc, IH, len_cons. lia. Qed.

Lemma words_at l : forall i x, nth_error l i = Some x -> f32 x ->
  le_dec (take 4 (drop (4 * N.of_nat i) (flat_map (le_enc 4) l))) = x.
Proof.
  induction l as [|y l IH]; intros [|i] x; cbn [nth_error flat_map]; try discriminate.
  - injection 1 as ->. intros H. change (4 * N.of_nat 0) with 0. rewrite drop_0, take_app_exact by (rewrite len_le_enc; reflexivity).
    apply le_dec_enc_small. exact H.
  - intros H1 H2. replace (4 * N.of_nat (S i)) with (len (le_enc 4 y) + 4 * N.of_nat i) by (rewrite len_le_enc; lia).
    rewrite N.add_comm, <- drop_drop, drop_app_exact by reflexivity. apply IH; auto.
Qed.

Lemma nth_error_ext' {A} (l l' : list A) : (forall i, nth_error l i = nth_error l' i) -> l = l'.
Proof.
  revert l'. induction l as [|x l IH]; intros [|y l'] H; [reflexivity|discriminate (H 0%nat)|discriminate (H 0%nat)|].
  f_equal; [specialize (H 0%nat); cbn in H; congruence|]. apply IH. intros i. apply (H (S i)).
Qed.

Lemma cells_words l : Forall f32 l -> cells (len l) (flat_map (le_enc 4) l) = map Some l.
Proof.
  intros F. unfold cells. assert (E : N.to_nat (len l) = length l) by (unfold len; lia). rewrite E.
  apply nth_error_ext'. intros i. rewrite !nth_error_map.
  destruct (nth_error l i) as [x|] eqn:H.
  - assert (L : (i < length l)%nat) by (apply nth_error_Some; congruence).
    rewrite (nth_error_nth' _ 0%nat) by (rewrite seq_length; exact L). rewrite seq_nth by exact L. cbn [option_map plus].
    replace (_ <=? _) with true by (symmetry; apply N.leb_le; rewrite len_words; unfold len; lia).
    rewrite (words_at l i x H); [reflexivity|]. rewrite Forall_forall in F. apply F. eapply nth_error_In, H.
  - assert (L : (length l <= i)%nat) by (apply nth_error_None; exact H).
    replace (nth_error (seq 0 (length l)) i) with (@None nat) by (symmetry; apply nth_error_None; rewrite seq_length; exact L). reflexivity.
Qed.

Lemma words_ints l : flat_map (fun v => le_enc 4 (uint 32 v)) l = flat_map (le_enc 4) (map (uint 32) l).
Proof. induction l; cbn [flat_map map]; congruence. Qed.

Lemma cells_ints l : Forall (fun v => - 2 ^ 31 <= v < 2 ^ 31)%Z l ->
  map (option_map (sint 32)) (cells (len l) (flat_map (fun v => le_enc 4 (uint 32 v)) l)) = map Some l.
Proof.
  intros F. rewrite words_ints. replace (len l) with (len (map (uint 32) l)) by apply len_map.
  rewrite cells_words.
  - rewrite !map_map. apply map_ext_in. intros v Hv. cbn [option_map]. rewrite Forall_forall in F. specialize (F v Hv).
    rewrite sint_uint; [reflexivity|reflexivity|exact F].
  - apply Forall_forall. intros x Hx. apply in_map_iff in Hx as (v & <- & _). apply uint_bound.
Qed.

Lemma reads_words n l : n = len l * 4 -> reads (rd_read n) (flat_map (le_enc 4) l) (flat_map (le_enc 4) l).
Proof. intros ->. replace (len l * 4) with (len (flat_map (le_enc 4) l)) by (rewrite len_words; lia). apply reads_raw. Qed.

Lemma flag_bit f k : negb (N.land f (2 ^ k) =? 0) = N.testbit f k.
Proof.
  destruct (N.testbit f k) eqn:E.
  - destruct (N.eqb_spec (N.land f (2 ^ k)) 0) as [H|]; [|reflexivity].
    assert (T : N.testbit (N.land f (2 ^ k)) k = true) by (rewrite N.land_spec, E, N.pow2_bits_true; reflexivity).
    rewrite H, N.bits_0 in T. discriminate.
  - replace (N.land f (2 ^ k)) with 0; [reflexivity|]. symmetry. apply N.bits_inj_0. intros j. rewrite N.land_spec.
    destruct (N.eq_dec j k) as [->|H]; [rewrite E; reflexivity|]. rewrite N.pow2_bits_false by congruence. apply andb_false_r.
Qed.

Definition name_head (o : option bytes) : bytes * bool :=
  match o with
  | None => ([], false)
  | Some [] => ([], false)
  | Some (b :: r) => if beq b xff then (x24 :: r, true) else (b :: r, false)
  end.

Lemma reads_symbol c : csym_ok c -> parent_clear c -> reads load_symbol (csym_bytes c) (meaning c).
Proof.
  intros (N1 & V & C & T & F & PL & PF & PA & B) PC. unfold load_symbol, csym_bytes.
  apply (reads_cast _ _ ((match c_name c with None => le_enc 4 0 | Some _ => le_enc 4 1 end) ++
     (match c_name c with None => [] | Some n => n ++ [x0a] end) ++
     le_enc 4 (c_vary c) ++ le_enc 4 (c_count c + 4096 * c_type c + 65536 * c_flags c) ++
     flat_map (le_enc 4) (c_pos c) ++ body_bytes (c_body c) ++ le_enc 4 (c_parent c)) _ (meaning c) _); [|destruct (c_name c); [rewrite <- !app_assoc|]; reflexivity|reflexivity].
  eapply reads_bind with (a := match c_name c with None => 0 | Some _ => 1 end).
  { destruct (c_name c); apply reads_uint; reflexivity. }
  cbv beta. eapply reads_bind with (a := name_head (c_name c)).
  { destruct (c_name c) as [n|] eqn:En; cbn [N.eqb]; [|apply reads_ret].
    eapply reads_if_last; [apply reads_line_nows; [apply N1; reflexivity|reflexivity]|]. cbv beta.
    destruct n as [|b r]; cbn [name_head]; [apply reads_ret|]. destruct (beq b xff); apply reads_ret. }
  cbv beta. eapply reads_bind; [apply reads_uint; exact V|]. cbv beta.
  destruct (props_parts (c_count c) (c_type c) (c_flags c) C T F) as (P0 & P1 & P2 & P3).
  eapply reads_bind; [apply reads_uint; exact P0|]. cbv beta zeta. rewrite P1, P2, P3.
  change F_MEMBER with (2 ^ 2). change F_CONST with (2 ^ 0). rewrite !flag_bit. fold (c_member c) (c_const c).
  destruct (c_pos c) as [|p1 [|p2 [|p3 [|p4 [|p5 [|? ?]]]]]] eqn:EP; try discriminate PL. cbn [flat_map].
  rewrite Forall_forall in PF. assert (Q : forall p, In p [p1; p2; p3; p4; p5] -> p < 2 ^ 32 /\ p < 2 ^ 19).
  { intros p Hp. split; [eapply N.lt_trans; [apply PF, Hp|reflexivity]|apply PF, Hp]. }
  rewrite <- !app_assoc.
  eapply reads_bind; [apply reads_uint; apply Q; cbn; tauto|]. cbv beta.
  eapply reads_bind; [apply reads_uint; apply Q; cbn; tauto|]. cbv beta.
  eapply reads_bind; [apply reads_uint; apply Q; cbn; tauto|]. cbv beta.
  eapply reads_bind; [apply reads_uint; apply Q; cbn; tauto|]. cbv beta.
  eapply reads_bind; [apply reads_uint; apply Q; cbn; tauto|]. cbv beta. cbn [app].
  rewrite !land19, !land24 by (apply Q; cbn; tauto).
  eapply reads_bind with (a := (c_value c, match c_body c with CAddr a => a | _ => none32 end, match c_body c with CClass o => o | _ => (-1)%Z end)).
  { unfold body_ok in B. unfold c_value. destruct (c_member c) eqn:EM.
    - rewrite B. apply reads_ret.
    - assert (CT : c_type c = 0 \/ c_type c = 1 \/ c_type c = 2 \/ c_type c = 3 \/ c_type c = 4 \/ c_type c = 5 \/ c_type c = 6 \/ c_type c = 7 \/
                   c_type c = 8 \/ c_type c = 9 \/ c_type c = 10 \/ c_type c = 11 \/ c_type c = 12 \/ c_type c = 13 \/ c_type c = 14 \/ c_type c = 15) by lia.
      destruct CT as [CT|[CT|[CT|[CT|[CT|[CT|[CT|[CT|CT]]]]]]]].
      + rewrite CT in B |- *. rewrite B. apply reads_ret.
      + rewrite CT in B |- *. destruct B as (l & -> & L & FF). cbn [N.eqb Pos.eqb T_FLOAT body_bytes].
        eapply reads_if_last; [apply reads_words; rewrite L; reflexivity|]. cbv beta. rewrite <- L, cells_words by exact FF. apply reads_ret.
      + rewrite CT in B |- *. destruct B as (l & -> & L & FF). cbn [N.eqb Pos.eqb T_FLOAT T_INT body_bytes].
        eapply reads_if_last; [rewrite words_ints; apply reads_words; rewrite len_map, L; reflexivity|]. cbv beta. rewrite <- words_ints.
        rewrite <- L, cells_ints by exact FF. apply reads_ret.
      + rewrite CT in B |- *. destruct B as (l & -> & L & FF). cbn [N.eqb Pos.eqb T_FLOAT T_INT T_STRING body_bytes].
        eapply reads_if_last; [apply reads_repM with (l := l)|cbv beta; apply reads_ret].
        * rewrite <- L. unfold len. lia.
        * intros x Hx. apply reads_line_nows; [|reflexivity]. rewrite Forall_forall in FF. apply FF, Hx.
      + rewrite CT in B |- *. destruct B as (o & -> & L). cbn [N.eqb Pos.eqb T_FLOAT T_INT T_STRING T_CLASS body_bytes].
        eapply reads_if_last; [apply reads_int; exact L|]. apply reads_ret.
      + rewrite CT in B |- *. destruct B as (a & -> & L). cbn [N.eqb Pos.eqb T_FLOAT T_INT T_STRING T_CLASS T_INSTANCE T_FUNCTION body_bytes].
        eapply reads_if_last; [apply reads_uint; exact L|]. destruct (c_const c); apply reads_ret.
      + rewrite CT in B |- *. destruct B as (a & -> & L). cbn [N.eqb Pos.eqb T_FLOAT T_INT T_STRING T_CLASS T_INSTANCE T_FUNCTION T_PROTOTYPE body_bytes].
        eapply reads_if_last; [apply reads_uint; exact L|]. apply reads_ret.
      + rewrite CT in B |- *. destruct B as (a & -> & L). cbn [N.eqb Pos.eqb T_FLOAT T_INT T_STRING T_CLASS T_INSTANCE T_FUNCTION T_PROTOTYPE body_bytes].
        eapply reads_if_last; [apply reads_uint; exact L|]. apply reads_ret.
      + assert (BN : c_body c = CNone) by (destruct CT as [CT|[CT|[CT|[CT|[CT|[CT|[CT|CT]]]]]]]; rewrite CT in B; exact B).
        rewrite BN. destruct CT as [CT|[CT|[CT|[CT|[CT|[CT|[CT|CT]]]]]]]; rewrite CT; apply reads_ret. }
  cbv beta iota zeta. rewrite <- (app_nil_r (le_enc 4 (c_parent c))).
  eapply reads_bind; [apply reads_uint; exact PA|]. cbv beta.
  change (@nil byte) with (@nil byte ++ []). eapply reads_bind with (a := c_parent c).
  { destruct (N.eqb_spec (c_type c) T_STRING) as [ET|_]; [|apply reads_ret].
    destruct (c_member c) eqn:EM; [apply reads_ret|]. destruct (c_const c) eqn:EC; [|apply reads_ret]. cbn [andb negb].
    rewrite (PC ET EM EC). apply reads_ret. }
  cbv beta. eapply reads_cast; [apply reads_ret|reflexivity|]. unfold meaning. rewrite EP.
  destruct (c_name c) as [[|b r]|]; cbn [name_head fst snd]; try reflexivity. destruct (beq b xff); reflexivity.
Qed.

(** * Whole scripts *)
Lemma reads_symbols l : forall i nm ad, Forall (fun c => csym_ok c /\ parent_clear c) l ->
  reads (load_symbols (length l) i nm ad) (flat_map csym_bytes l)
        (map meaning l, names_of (map meaning l) i nm, addrs_of (map meaning l) i ad).
Proof.
  induction l as [|c l IH]; intros i nm ad H; cbn [load_symbols length flat_map map]; [apply reads_ret|].
  inversion H as [|? ? [H1 H2] H3]; subst. eapply reads_bind; [apply reads_symbol; auto|]. cbv beta.
  eapply reads_if_last; [apply IH; exact H3|]. cbv beta iota. apply reads_ret.
Qed.

Lemma reads_skip bs n : n = len bs -> reads (rd_seek (Z.of_N n) CUR) bs tt.
Proof.
  intros -> pre post _ L. unfold rd_seek, seek_internal. cbn [rdata rpos obind]. rewrite !len_app in *. rewrite max_size_val in L.
  rewrite sint_small by (pows; lia). rewrite ssize_add_ok by (pows; lia). cbn [obind].
  replace (Z.of_N (len pre) + Z.of_N (len bs))%Z with (Z.of_N (len pre + len bs)) by lia.
  rewrite uint_small by (pows; lia). rewrite N2Z.id.
  replace (_ <? _) with false by (symmetry; apply N.ltb_ge; lia). reflexivity.
Qed.

(** What a compiled script means. *)
Definition script_meaning (l : list csym) (code : bytes) : script :=
  mkScript (map meaning l) (names_of (map meaning l) 0 []) (addrs_of (map meaning l) 0 []) (r_from code).

Lemma reads_script version order l code :
  Forall (fun c => csym_ok c /\ parent_clear c) l -> len order = len l -> len l < 2 ^ 32 -> len code < 2 ^ 32 ->
  reads load_script (script_bytes version order l code) (script_meaning l code).
Proof.
  intros H1 H2 H3 H4. unfold load_script, script_bytes.
  change (version :: ?x) with ([version] ++ x).
  eapply reads_bind.
  { eapply reads_cast; [apply (reads_op (b2n version)), b2n_bound|rewrite n2b_b2n; reflexivity|reflexivity]. }
  cbv beta. eapply reads_bind; [apply reads_uint; exact H3|]. cbv beta.
  eapply reads_bind; [apply reads_skip; rewrite len_words; lia|]. cbv beta.
  replace (N.to_nat (len l)) with (length l) by (unfold len; lia).
  eapply reads_bind; [apply reads_symbols; exact H1|]. cbv beta iota.
  eapply reads_bind; [apply reads_uint; exact H4|]. cbv beta.
  eapply reads_if_last; [apply reads_raw|]. cbv beta. rewrite N.sub_diag. change (zeros 0) with (@nil byte). rewrite app_nil_r.
  apply reads_ret.
Qed.
