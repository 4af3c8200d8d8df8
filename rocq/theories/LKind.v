(** Files of another kind are refused. *)

From Coq Require Import String Lia ZifyN ZifyBool ZifyNat.
From Verif Require Import MBase MStream SStream LBase LStream LText LFormat MBoxes MModel MTexture MText MClasses MArchive MVfs SFormat SKind.
Local Open Scope N_scope.
Local Open Scope m_scope.

(** ** Lines *)
Lemma read_char_spec s : r_ok s ->
  read_char s = match drop (rpos s) (rdata s) with
                | [] => Ret (x00, s)
                | c :: _ => Ret (c, mkR (rdata s) (rpos s + 1)) end.
Proof.
  intros Hs. destruct s as [d p]. destruct Hs as [Hp Hl]. cbn [rdata rpos] in *.
  destruct (drop p d) as [|x post] eqn:Ed.
  - assert (p = len d) as ->.
    { pose proof (len_drop p d) as H. rewrite Ed, len_nil in H. lia. }
    apply (read_char_end d Hl).
  - assert (El : take p d ++ x :: post = d) by (rewrite <- Ed; apply take_drop).
    pose proof (read_char_at (take p d) x post) as R. rewrite El in R. specialize (R Hl).
    rewrite len_take, N.min_l in R by lia. exact R.
Qed.
Lemma until_first : forall fuel s, r_ok s -> (N.to_nat (len (rdata s) - rpos s) < fuel)%nat ->
  exists c p, read_until_eol fuel s = Ret ((first_line (drop (rpos s) (rdata s)), c), mkR (rdata s) p) /\
    rpos s <= p <= len (rdata s).
Proof.
  induction fuel as [|fuel IH]; intros s Hs Hf; [lia|]. cbn [read_until_eol]. unfold bind at 1. rewrite read_char_spec by exact Hs.
  destruct (drop (rpos s) (rdata s)) as [|x post] eqn:Ed.
  { replace (beq x00 x00) with true by reflexivity. cbn [orb first_line]. exists x00, (rpos s). split; [destruct s; reflexivity|]. destruct Hs. lia. }
  assert (Hlt : rpos s < len (rdata s)).
  { pose proof (len_drop (rpos s) (rdata s)) as H. rewrite Ed, len_cons in H. lia. }
  cbn [first_line]. destruct (beq x x00 || beq x x0d || beq x x0a) eqn:Eb.
  { exists x, (rpos s + 1). split; [reflexivity|]. lia. }
  assert (Hs1 : r_ok (mkR (rdata s) (rpos s + 1))) by (destruct Hs; split; cbn [rdata rpos]; lia).
  destruct (IH (mkR (rdata s) (rpos s + 1)) Hs1) as (c & p & E & Hp); cbn [rdata rpos] in *; [lia|].
  assert (Hd : drop (rpos s + 1) (rdata s) = post).
  { rewrite N.add_comm, <- drop_drop, Ed, drop_skipn. reflexivity. }
  rewrite Hd in E. unfold bind. rewrite E. exists c, p. split; [reflexivity|lia].
Qed.
Lemma line_first b s : r_ok s -> exists s', read_line b s = Ret (first_line (drop (rpos s) (rdata s)), s').
Proof.
  intros Hs. pose proof (fw_line b s Hs) as F. unfold read_line, read_line_then_ignore in *.
  destruct (until_first (S (N.to_nat (len (rdata s) - rpos s))) s Hs ltac:(lia)) as (c & p & E1 & Hp).
  unfold bind in *. rewrite E1 in *. cbn [fst snd] in *. rewrite r_eof_at in *.
  destruct ((match (if b then ws_chars else []) with [] => true | _ => false end) || beq c x00 || (len (rdata s) <=? p)) eqn:Ec.
  { eexists. reflexivity. }
  destruct (skip_run _ _ _) as [[c2 s2]| | |] eqn:Es.
  - destruct s2 as [d2 p2]. rewrite r_eof_at in *. destruct ((len d2 <=? p2) && beq c2 x00); [eexists; reflexivity|].
    destruct (rd_seek (-1) CUR (mkR d2 p2)) as [[u s3]| | |] eqn:E3; [eexists; reflexivity| |contradiction|contradiction].
    exfalso. unfold rd_seek, seek_internal in E3. cbn [rdata rpos] in E3. unfold ssize_add in E3.
    repeat match type of E3 with context [if ?x then _ else _] => destruct x end; cbn [obind] in E3;
    repeat match type of E3 with context [if ?x then _ else _] => destruct x end; discriminate.
  - exfalso. destruct (skip_run_fw (S (N.to_nat (len (rdata s) - rpos s))) (if b then ws_chars else []) (mkR (rdata s) p)) as (c2 & q & E2 & _).
    { destruct Hs. split; cbn [rdata rpos]; lia. } { cbn [rdata rpos]. lia. } rewrite E2 in Es. discriminate.
  - contradiction.
  - contradiction.
Qed.
Lemma first_line_lf l r : no_eol l -> first_line (l ++ x0a :: r) = l.
Proof.
  induction l as [|c l IH]; intros H; [reflexivity|]. inversion H as [|? ? (H0 & H1 & H2) Hl]; subst. cbn [first_line app].
  apply beq_false in H0, H1, H2. rewrite H0, H1, H2. cbn [orb]. rewrite IH by exact Hl. reflexivity.
Qed.

(** ** Fonts and textures *)
Lemma fonts_refused b : len b < max_size -> first_line b <> lit "1" -> font_load (r_from b) = Throw ParserError.
Proof.
  intros Hl H. unfold font_load, bind at 1.
  destruct (line_first true (r_from b)) as (s' & ->). { split; cbn [rdata rpos r_from]; [lia|exact Hl]. }
  cbn [r_from rpos rdata]. rewrite drop_0.
  destruct (bytes_eqb (first_line b) (lit "1")) eqn:E; [|reflexivity]. apply bytes_eqb_spec in E. contradiction.
Qed.
Lemma fixed_spec n s : r_ok s -> n <= 2 ^ 63 -> rd_fixed n s =
  Ret (pad_to n (take n (drop (rpos s) (rdata s))), mkR (rdata s) (rpos s + N.min n (len (rdata s) - rpos s))).
Proof.
  intros Hs Hn. unfold rd_fixed, bind. rewrite rd_read_spec by assumption. unfold ret. do 3 f_equal.
  rewrite <- len_drop. rewrite !take_firstn. unfold len. 
  destruct (N.le_gt_cases n (N.of_nat (length (drop (rpos s) (rdata s))))) as [H|H].
  - rewrite N.min_l by exact H. reflexivity.
  - rewrite N.min_r by lia. rewrite !firstn_all2 by lia. reflexivity.
Qed.

Lemma pad_short n b : len b < n -> exists l, pad_to n b = b ++ x00 :: l.
Proof.
  intros H. unfold pad_to, zeros. destruct (N.to_nat (n - len b)) as [|k] eqn:E; [lia|]. cbn [repeat]. eexists. reflexivity.
Qed.
(** A word read from the data without a zero byte stands there. *)
Lemma fixed_stands w n p b : len w = n -> ~ In x00 w -> pad_to n (take n (drop p b)) = w -> stands w p b.
Proof.
  intros Hw H0 E. unfold stands. rewrite Hw.
  destruct (N.le_gt_cases n (len (take n (drop p b)))) as [H|H].
  - unfold pad_to in E. replace (n - len (take n (drop p b))) with 0 in E by lia. unfold zeros in E. cbn [N.to_nat repeat] in E.
    rewrite app_nil_r in E. exact E.
  - exfalso. destruct (pad_short n _ H) as (l & El). rewrite El in E. apply H0. rewrite <- E. apply in_or_app. right. left. reflexivity.
Qed.
Lemma textures_refused t b : len b < max_size -> ~ stands (lit "ZTEX") 0 b -> tex_load t (r_from b) = Throw ParserError.
Proof.
  intros Hl H. unfold tex_load, bind at 1, read_string. cbn [N.ltb N.compare Pos.compare Pos.compare_cont max_size].
  replace (4 <? max_size) with true by reflexivity.
  rewrite fixed_spec; [|split; cbn [rdata rpos r_from]; [lia|exact Hl]|pows; lia]. cbn [rdata rpos r_from].
  destruct (bytes_eqb _ (lit "ZTEX")) eqn:E; [|reflexivity]. exfalso. apply bytes_eqb_spec in E. apply H.
  apply (fixed_stands _ 4); [reflexivity | | exact E]. intros [X|[X|[X|[X|[]]]]]; discriminate.
Qed.
Lemma versions_refused t v post : len (lit "ZTEX" ++ v ++ post) < max_size -> len v = 4 -> v <> zeros 4 ->
  tex_load t (r_from (lit "ZTEX" ++ v ++ post)) = Throw ParserError.
Proof.
  intros Hl Hv H. unfold tex_load, bind at 1.
  pose proof (reads_string (lit "ZTEX") [] (v ++ post)) as R. specialize (R I Hl). rewrite app_nil_l in R. unfold r_from.
  change (len (lit "ZTEX")) with 4 in R. change (len (@nil byte)) with 0 in R. rewrite R.
  replace (bytes_eqb (lit "ZTEX") (lit "ZTEX")) with true by reflexivity. cbn [negb]. unfold bind at 1.
  unfold read_uint, bind at 1. rewrite fixed_spec; [|split; cbn [rdata rpos]; [|exact Hl]|pows; lia].
  2:{ rewrite len_app. change (len (lit "ZTEX")) with 4. lia. }
  cbn [rdata rpos]. change (0 + 4) with (len (lit "ZTEX")). 
  replace (drop (len (lit "ZTEX")) (lit "ZTEX" ++ v ++ post)) with (v ++ post) by (symmetry; apply drop_app_exact; reflexivity).
  replace (take 4 (v ++ post)) with v by (symmetry; apply take_app_exact; symmetry; exact Hv).
  unfold pad_to. rewrite Hv. cbn [N.sub zeros N.to_nat repeat]. change (zeros (4 - 4)) with (@nil byte). rewrite app_nil_r. unfold ret.
  destruct (le_dec v =? 0) eqn:E; [|reflexivity]. exfalso. apply N.eqb_eq in E. apply H.
  destruct v as [|a [|b0 [|c [|d [|e v]]]]]; try (unfold len in Hv; cbn [length] in Hv; lia).
  cbn [le_dec] in E. change (zeros 4) with [x00; x00; x00; x00].
  assert (Z : forall x, b2n x = 0 -> x = x00) by (intros x Hx; rewrite <- (n2b_b2n x), Hx; reflexivity).
  repeat f_equal; apply Z; lia.
Qed.

(** ** Archives *)
Lemma starts_begins p s : starts_with p s = true -> SKind.begins p s.
Proof.
  revert s. induction p as [|x p IH]; intros s H; [exists s; reflexivity|]. destruct s as [|y s]; [discriminate|].
  cbn [starts_with] in H. apply andb_true_iff in H as [H1 H2]. apply beq_spec in H1. subst y.
  destruct (IH s H2) as [r ->]. exists r. reflexivity.
Qed.
Lemma first_of {B} (k : bytes -> rd B) s : r_ok s -> exists s', bind (read_line true) k s = k (first_line (drop (rpos s) (rdata s))) s'.
Proof. intros Hs. destruct (line_first true s Hs) as (s' & E). exists s'. unfold bind. rewrite E. reflexivity. Qed.
Lemma magic_refused b : len b < max_size -> first_line b <> lit "ZenGin Archive" -> ar_open (r_from b) = Throw ParserError.
Proof.
  intros Hl H. unfold ar_open, bind at 1, head_load.
  match goal with |- context [bind (read_line true) ?k (r_from b)] => destruct (first_of k (r_from b)) as (s' & E) end.
  { split; cbn [rdata rpos r_from]; [lia|exact Hl]. }
  rewrite E. cbn [r_from rpos rdata]. rewrite drop_0. destruct (bytes_eqb (first_line b) (lit "ZenGin Archive")) eqn:E1; [|reflexivity].
  apply bytes_eqb_spec in E1. contradiction.
Qed.
Definition shown (rest : bytes) : Prop := match rest with [] => False | c :: _ => ~ In c ws_chars /\ c <> x00 end.
Lemma visible_shown l rest : visible l -> shown (l ++ rest).
Proof.
  intros [H1 H2]. destruct l as [|c l]; [destruct H2|]. inversion H1 as [|? ? (H0 & _) _]; subst. split; assumption.
Qed.
Lemma line_step {B} (k : bytes -> rd B) l rest pre : no_eol l -> shown rest -> len (pre ++ (l ++ [x0a]) ++ rest) < max_size ->
  bind (read_line true) k (mkR (pre ++ (l ++ [x0a]) ++ rest) (len pre)) =
  k l (mkR ((pre ++ l ++ [x0a]) ++ rest) (len (pre ++ l ++ [x0a]))).
Proof.
  intros Hl Hr Hlen. unfold bind, read_line.
  pose proof (read_line_skip ws_chars l x0a [] rest pre) as R. rewrite app_nil_l, len_nil, N.add_0_r in R.
  rewrite <- !app_assoc in *. cbn [app] in *. rewrite R.
  - f_equal. f_equal. rewrite !len_app, len_cons, len_nil. lia.
  - discriminate.
  - exact Hl.
  - right. reflexivity.
  - constructor.
  - destruct rest as [|c r]; [exact I|]. destruct Hr as [H1 H2]. split; [|intros E; contradiction].
    destruct (in_chars ws_chars c) eqn:E; [|reflexivity]. exfalso. apply H1.
    unfold in_chars in E. apply andb_true_iff in E as [_ E]. apply existsb_exists in E as (x & Hx & E). apply beq_spec in E. subst x. exact Hx.
  - exact Hlen.
Qed.
Lemma last_step {B} (k : bytes -> rd B) l rest pre : no_eol l -> len (pre ++ (l ++ [x0a]) ++ rest) < max_size ->
  exists s', bind (read_line true) k (mkR (pre ++ (l ++ [x0a]) ++ rest) (len pre)) = k l s'.
Proof.
  intros Hl Hlen. destruct (first_of k (mkR (pre ++ (l ++ [x0a]) ++ rest) (len pre))) as (s' & ->).
  { split; cbn [rdata rpos]; [rewrite len_app; lia|exact Hlen]. }
  exists s'. cbn [rdata rpos]. rewrite (drop_app_exact (len pre) pre _ eq_refl), <- app_assoc. cbn [app]. rewrite first_line_lf by exact Hl. reflexivity.
Qed.
Ltac visible_lit := split; [repeat constructor; discriminate | vm_compute; intuition discriminate].
Lemma vis_magic : visible (lit "ZenGin Archive"). Proof. visible_lit. Qed.
Lemma vis_ver : visible (lit "ver 1"). Proof. visible_lit. Qed.
Lemma no_eol_app a b : no_eol a -> no_eol b -> no_eol (a ++ b).
Proof. apply Forall_app_2 || (intros; apply Forall_app; split; assumption). Qed.

Lemma text_cons l ls rest : text (l :: ls) ++ rest = (l ++ [x0a]) ++ text ls ++ rest.
Proof. unfold text. cbn [flat_map]. symmetry. apply app_assoc. Qed.
Lemma text_step {B} (k : bytes -> rd B) l l2 ls rest pre : visible l -> visible l2 -> len (pre ++ text (l :: l2 :: ls) ++ rest) < max_size ->
  exists pre', bind (read_line true) k (mkR (pre ++ text (l :: l2 :: ls) ++ rest) (len pre)) =
  k l (mkR (pre' ++ text (l2 :: ls) ++ rest) (len pre')) /\ len (pre' ++ text (l2 :: ls) ++ rest) < max_size.
Proof.
  intros [Hl _] H2 Hlen. exists (pre ++ l ++ [x0a]). rewrite text_cons in *. split.
  - apply line_step; [exact Hl| |exact Hlen]. rewrite text_cons, <- app_assoc. apply visible_shown. exact H2.
  - rewrite !len_app in *. lia.
Qed.
Lemma text_last {B} (k : bytes -> rd B) l ls rest pre : visible l -> len (pre ++ text (l :: ls) ++ rest) < max_size ->
  exists s', bind (read_line true) k (mkR (pre ++ text (l :: ls) ++ rest) (len pre)) = k l s'.
Proof. intros [Hl _] Hlen. rewrite text_cons in *. apply last_step; assumption. Qed.

(** What stands for the lines of a header. *)
Definition h_magic := lit "ZenGin Archive".
Ltac norm_lists := change (@nil (list byte)) with (@nil bytes) in *; change (@cons (list byte)) with (@cons bytes) in *.
Ltac hstep := norm_lists; match goal with
  | |- context [bind (read_line true) ?k (mkR (?pre ++ text (?l :: ?l2 :: ?ls) ++ ?rest) (len ?pre))] =>
      let p := fresh "p" in let E := fresh "E" in let L := fresh "L" in
      destruct (text_step k l l2 ls rest pre) as (p & E & L); [assumption|assumption|assumption|]; rewrite E; clear E; cbv beta
  end.
Ltac hlast := norm_lists; match goal with
  | |- context [bind (read_line true) ?k (mkR (?pre ++ text (?l :: ?ls) ++ ?rest) (len ?pre))] =>
      let s := fresh "s" in let E := fresh "E" in
      destruct (text_last k l ls rest pre) as (s & E); [assumption|assumption|]; rewrite E; clear E; cbv beta
  end.
Lemma not_begins p l : ~ SKind.begins p l -> starts_with p l = false.
Proof. intros H. destruct (starts_with p l) eqn:E; [|reflexivity]. apply starts_begins in E. contradiction. Qed.
Lemma open_throw b e : head_load (mkR b 0) = Throw e -> ar_open (r_from b) = Throw e.
Proof. intros H. unfold ar_open, bind at 1, r_from. rewrite H. reflexivity. Qed.
Lemma version_line_refused l rest : len (text [h_magic; l] ++ rest) < max_size -> visible l -> ~ SKind.begins (lit "ver ") l ->
  ar_open (r_from (text [h_magic; l] ++ rest)) = Throw ParserError.
Proof.
  intros Hlen Hv Hb. apply open_throw. pose proof vis_magic. fold h_magic in *.
  change (mkR (text [h_magic; l] ++ rest) 0) with (mkR ([] ++ text [h_magic; l] ++ rest) (len (@nil byte))).
  change (text [h_magic; l] ++ rest) with ([] ++ text [h_magic; l] ++ rest) in Hlen.
  unfold head_load. fold h_magic. hstep. rewrite bytes_eqb_refl. cbn [negb]. hlast. rewrite not_begins by exact Hb. reflexivity.
Qed.
Lemma vis_pre p l : visible p -> no_eol l -> visible (p ++ l).
Proof.
  intros [H1 H2] H3. split; [apply no_eol_app; assumption|]. destruct p as [|c p]; [destruct H2|]. exact H2.
Qed.
Lemma no_eol_digits s : forallb is_digit s = true -> no_eol s.
Proof.
  intros H. apply Forall_forall. intros c Hc. rewrite forallb_forall in H. specialize (H c Hc).
  repeat split; intros ->; discriminate H.
Qed.
Lemma no_eol_decz z : no_eol (decz z).
Proof.
  unfold decz. destruct (z <? 0)%Z.
  - apply Forall_cons; [repeat split; discriminate|]. apply no_eol_digits, dec_digits.
  - apply no_eol_digits, dec_digits.
Qed.
Lemma other_versions_refused z rest : len (text [h_magic; lit "ver " ++ decz z] ++ rest) < max_size -> (- 2 ^ 31 <= z < 2 ^ 31)%Z -> z <> 1%Z ->
  ar_open (r_from (text [h_magic; lit "ver " ++ decz z] ++ rest)) = Throw ParserError.
Proof.
  intros Hlen Hz H1. apply open_throw. pose proof vis_magic. fold h_magic in *.
  assert (V : visible (lit "ver " ++ decz z)) by (apply vis_pre; [visible_lit|apply no_eol_decz]).
  remember (lit "ver " ++ decz z) as l eqn:El.
  change (mkR (text [h_magic; l] ++ rest) 0) with (mkR ([] ++ text [h_magic; l] ++ rest) (len (@nil byte))).
  change (text [h_magic; l] ++ rest) with ([] ++ text [h_magic; l] ++ rest) in Hlen.
  unfold head_load. fold h_magic. hstep. rewrite bytes_eqb_refl. cbn [negb]. hlast.
  rewrite El. replace (starts_with (lit "ver ") (lit "ver " ++ decz z)) with true by reflexivity. cbn [negb].
  replace (after x20 (lit "ver " ++ decz z)) with (decz z) by reflexivity.
  rewrite stoi_decz by exact Hz. unfold lift, bind. rewrite (proj2 (Z.eqb_neq z 1) H1). reflexivity.
Qed.
Lemma head_ver_ok {B} (k : Z -> rd B) s : bind (lift (stoi (after x20 (lit "ver 1")))) k s = k 1%Z s.
Proof. reflexivity. Qed.
Lemma save_line_refused a f l rest : len (text [h_magic; lit "ver 1"; a; f; l] ++ rest) < max_size ->
  visible a -> visible f -> visible l -> ~ SKind.begins (lit "saveGame ") l ->
  ar_open (r_from (text [h_magic; lit "ver 1"; a; f; l] ++ rest)) = Throw ParserError.
Proof.
  intros Hlen Ha Hf Hl Hb. apply open_throw. pose proof vis_magic. fold h_magic in *. pose proof vis_ver.
  match goal with |- context [mkR ?b 0] => change (mkR b 0) with (mkR ([] ++ b) (len (@nil byte))); change b with ([] ++ b) in Hlen end.
  unfold head_load. fold h_magic. hstep. rewrite bytes_eqb_refl. cbn [negb]. hstep.
  change (starts_with (lit "ver ") (lit "ver 1")) with true. cbn [negb]. rewrite head_ver_ok. cbn [Z.eqb Pos.eqb negb].
  hstep. hstep. hlast. rewrite not_begins by exact Hb. reflexivity.
Qed.
Lemma vis_save b : visible (if b : bool then lit "saveGame 1" else lit "saveGame 0").
Proof. destruct b; visible_lit. Qed.
Lemma head_save_ok {B} (b : bool) (k : Z -> rd B) s : bind (lift (stoi (after x20 (if b then lit "saveGame 1" else lit "saveGame 0")))) k s = k (if b then 1 else 0)%Z s.
Proof. destruct b; reflexivity. Qed.
Lemma end_line_refused a f (sv : bool) l rest : len (text [h_magic; lit "ver 1"; a; f; if sv then lit "saveGame 1" else lit "saveGame 0"; l] ++ rest) < max_size ->
  visible a -> visible f -> visible l -> ~ SKind.begins (lit "date ") l -> ~ SKind.begins (lit "user ") l -> l <> lit "END" ->
  ar_open (r_from (text [h_magic; lit "ver 1"; a; f; if sv then lit "saveGame 1" else lit "saveGame 0"; l] ++ rest)) = Throw ParserError.
Proof.
  intros Hlen Ha Hf Hl Hb Hu He. apply open_throw. pose proof vis_magic. fold h_magic in *. pose proof vis_ver. pose proof (vis_save sv).
  match goal with |- context [mkR ?b 0] => change (mkR b 0) with (mkR ([] ++ b) (len (@nil byte))); change b with ([] ++ b) in Hlen end.
  unfold head_load. fold h_magic. hstep. rewrite bytes_eqb_refl. cbn [negb]. hstep.
  change (starts_with (lit "ver ") (lit "ver 1")) with true. cbn [negb]. rewrite head_ver_ok. cbn [Z.eqb Pos.eqb negb].
  hstep. hstep. hstep. replace (starts_with (lit "saveGame ") (if sv then lit "saveGame 1" else lit "saveGame 0")) with true by (destruct sv; reflexivity).
  cbn [negb]. rewrite head_save_ok. hlast. rewrite (not_begins _ _ Hb). unfold bind at 1, ret at 1. cbn [snd].
  rewrite (not_begins _ _ Hu). unfold bind at 1, ret at 1. cbn [snd].
  destruct (bytes_eqb l (lit "END")) eqn:E; [apply bytes_eqb_spec in E; contradiction|reflexivity].
Qed.
Lemma end_after_refused a f (sv : bool) d u l rest :
  len (text [h_magic; lit "ver 1"; a; f; if sv then lit "saveGame 1" else lit "saveGame 0"; lit "date " ++ d; lit "user " ++ u; l] ++ rest) < max_size ->
  visible a -> visible f -> no_eol d -> no_eol u -> visible l -> l <> lit "END" ->
  ar_open (r_from (text [h_magic; lit "ver 1"; a; f; if sv then lit "saveGame 1" else lit "saveGame 0"; lit "date " ++ d; lit "user " ++ u; l] ++ rest)) = Throw ParserError.
Proof.
  intros Hlen Ha Hf Hd Hu Hl He. apply open_throw. pose proof vis_magic. fold h_magic in *. pose proof vis_ver. pose proof (vis_save sv).
  assert (visible (lit "date " ++ d)) by (apply vis_pre; [visible_lit|assumption]).
  assert (visible (lit "user " ++ u)) by (apply vis_pre; [visible_lit|assumption]).
  match goal with |- context [mkR ?b 0] => change (mkR b 0) with (mkR ([] ++ b) (len (@nil byte))); change b with ([] ++ b) in Hlen end.
  unfold head_load. fold h_magic. hstep. rewrite bytes_eqb_refl. cbn [negb]. hstep.
  change (starts_with (lit "ver ") (lit "ver 1")) with true. cbn [negb]. rewrite head_ver_ok. cbn [Z.eqb Pos.eqb negb].
  hstep. hstep. hstep. replace (starts_with (lit "saveGame ") (if sv then lit "saveGame 1" else lit "saveGame 0")) with true by (destruct sv; reflexivity).
  cbn [negb]. rewrite head_save_ok. hstep. 
  replace (starts_with (lit "date ") (lit "date " ++ d)) with true by reflexivity.
  unfold bind at 1. hstep. unfold ret at 1. cbn [snd].
  replace (starts_with (lit "user ") (lit "user " ++ u)) with true by reflexivity.
  unfold bind at 1. hlast. unfold ret at 1. cbn [snd].
  destruct (bytes_eqb l (lit "END")) eqn:E; [apply bytes_eqb_spec in E; contradiction|reflexivity].
Qed.
(** The object count, in the text and the binary format. *)
Lemma count_line_refused a f (sv : bool) l rest : In f [lit "ASCII"; lit "BINARY"] ->
  len (text [h_magic; lit "ver 1"; a; f; if sv then lit "saveGame 1" else lit "saveGame 0"; lit "END"; l] ++ rest) < max_size ->
  visible a -> visible l -> ~ SKind.begins (lit "objects ") l ->
  ar_open (r_from (text [h_magic; lit "ver 1"; a; f; if sv then lit "saveGame 1" else lit "saveGame 0"; lit "END"; l] ++ rest)) = Throw ParserError.
Proof.
  intros Hf Hlen Ha Hl Hb. pose proof vis_magic. fold h_magic in *. pose proof vis_ver. pose proof (vis_save sv).
  assert (visible f) by (destruct Hf as [<-|[<-|[]]]; visible_lit). assert (visible (lit "END")) by visible_lit.
  unfold r_from.
  match goal with |- context [mkR ?b 0] => change (mkR b 0) with (mkR ([] ++ b) (len (@nil byte))); change b with ([] ++ b) in Hlen end.
  unfold ar_open, bind at 1, head_load. fold h_magic. hstep. rewrite bytes_eqb_refl. cbn [negb]. hstep.
  change (starts_with (lit "ver ") (lit "ver 1")) with true. cbn [negb]. rewrite head_ver_ok. cbn [Z.eqb Pos.eqb negb].
  hstep. hstep. hstep. replace (starts_with (lit "saveGame ") (if sv then lit "saveGame 1" else lit "saveGame 0")) with true by (destruct sv; reflexivity).
  cbn [negb]. rewrite head_save_ok. hstep. change (starts_with (lit "date ") (lit "END")) with false. unfold bind at 1, ret at 1. cbn [snd].
  change (starts_with (lit "user ") (lit "END")) with false. unfold bind at 1, ret at 1. cbn [snd]. rewrite bytes_eqb_refl. cbn [negb].
  unfold ret at 1. destruct Hf as [<-|[<-|[]]].
  - replace (bytes_eqb (lit "ASCII") (lit "ASCII")) with true by reflexivity. cbn [ah_format]. unfold bind at 1, objects_header. hlast.
    rewrite not_begins by exact Hb. reflexivity.
  - replace (bytes_eqb (lit "BINARY") (lit "ASCII")) with false by reflexivity. replace (bytes_eqb (lit "BINARY") (lit "BINARY")) with true by reflexivity.
    cbn [ah_format]. unfold bind at 1, objects_header. hlast. rewrite not_begins by exact Hb. reflexivity.
Qed.

(** ** Disks *)
Lemma string_spec n s : r_ok s -> n <= 256 -> read_string n s =
  Ret (pad_to n (take n (drop (rpos s) (rdata s))), mkR (rdata s) (rpos s + N.min n (len (rdata s) - rpos s))).
Proof.
  intros Hs Hn. unfold read_string. rewrite (proj2 (N.ltb_lt n max_size)); [apply fixed_spec; [exact Hs|]|]; pows; lia.
Qed.
Lemma uint_ret s : r_ok s -> exists n s', read_uint s = Ret (n, s') /\ r_ok s'.
Proof.
  intros Hs. unfold read_uint, bind. rewrite fixed_spec by (exact Hs || (pows; lia)). unfold ret. eexists _, _. split; [reflexivity|].
  destruct Hs as [H1 H2]. split; cbn [rdata rpos]; [lia|exact H2].
Qed.
Lemma disks_refused fuel k pol nm t l b : len b < max_size -> ~ (exists s, In s disk_signatures /\ stands s 256 b) ->
  mount_disk fuel k pol (NDir nm t l) b = Throw VfsBrokenDisk.
Proof.
  intros Hl Hn. unfold mount_disk. unfold bind at 1. rewrite string_spec by ((split; cbn [r_from rdata rpos]; [lia|exact Hl]) || lia).
  cbn [r_from rdata rpos]. rewrite N.sub_0_r, N.add_0_l.
  assert (Hs : r_ok (mkR b (N.min 256 (len b)))) by (split; cbn [rdata rpos]; [lia|exact Hl]).
  unfold bind at 1. rewrite string_spec by (exact Hs || lia). cbn [rdata rpos].
  assert (Ht : drop (N.min 256 (len b)) b = drop 256 b).
  { destruct (N.le_gt_cases 256 (len b)); [rewrite N.min_l by lia; reflexivity|]. rewrite N.min_r by lia. rewrite !drop_all by lia. reflexivity. }
  rewrite Ht.
  assert (Ho : forall w, In w disk_signatures -> bytes_eqb (pad_to 16 (take 16 (drop 256 b))) w = false).
  { intros w Hw. destruct (bytes_eqb _ w) eqn:E; [|reflexivity]. apply bytes_eqb_spec in E. exfalso. apply Hn. exists w. split; [exact Hw|].
    apply (fixed_stands w 16); [| |exact E]; destruct Hw as [<-|[<-|[<-|[]]]]; try reflexivity; vm_compute; intuition discriminate. }
  set (s2 := mkR b (N.min 256 (len b) + N.min 16 (len b - N.min 256 (len b)))).
  assert (H2 : r_ok s2) by (split; cbn [s2 rdata rpos]; [lia|exact Hl]). clearbody s2.
  Ltac one_uint := match goal with H : r_ok ?s |- context [bind read_uint ?k ?s] =>
    let n := fresh "n" in let s' := fresh "s" in let E := fresh in let H' := fresh "Hs" in
    destruct (uint_ret s H) as (n & s' & E & H'); unfold bind at 1; rewrite E; clear E H end.
  do 6 one_uint.
  change sig_tool with (lit "PSVDSC_V2.00" ++ [x1a; x1a; x1a; x1a]). unfold sig_g1, sig_g2.
  rewrite !Ho by (unfold disk_signatures; cbn [map In]; auto). reflexivity.
Qed.

(** ** Numbers beyond the range *)
Lemma huge_version_throws z rest : len (text [h_magic; lit "ver " ++ decz z] ++ rest) < max_size -> (2 ^ 31 <= z)%Z ->
  ar_open (r_from (text [h_magic; lit "ver " ++ decz z] ++ rest)) = Throw OutOfRange.
Proof.
  intros Hlen Hz. apply open_throw. pose proof vis_magic. fold h_magic in *.
  assert (V : visible (lit "ver " ++ decz z)) by (apply vis_pre; [visible_lit|apply no_eol_decz]).
  remember (lit "ver " ++ decz z) as l eqn:El.
  change (mkR (text [h_magic; l] ++ rest) 0) with (mkR ([] ++ text [h_magic; l] ++ rest) (len (@nil byte))).
  change (text [h_magic; l] ++ rest) with ([] ++ text [h_magic; l] ++ rest) in Hlen.
  unfold head_load. fold h_magic. hstep. rewrite bytes_eqb_refl. cbn [negb]. hlast.
  rewrite El. replace (starts_with (lit "ver ") (lit "ver " ++ decz z)) with true by reflexivity. cbn [negb].
  replace (after x20 (lit "ver " ++ decz z)) with (decz z) by reflexivity.
  assert (Es : stoi (decz z) = Throw OutOfRange).
  { unfold stoi. rewrite <- (app_nil_r (decz z)), scan_int_decz by exact I.
    replace (z <? 2 ^ 31)%Z with false by (symmetry; apply Z.ltb_ge; exact Hz). rewrite andb_false_r. reflexivity. }
  rewrite Es. reflexivity.
Qed.
