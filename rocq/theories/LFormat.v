(** Lemmas shared by the file formats: chunk sequences, forward readers. *)

From Coq Require Import Lia ZifyN ZifyBool ZifyNat.
From Verif Require Import MBase MStream SStream MBoxes SBoxes MModel SFormat LBase LStream LStreamHist LBoxes.
Local Open Scope N_scope.

(** ** Chunk sequences that end with a callback returning true *)
Definition reads_part {A} (r : rd A) (bs : bytes) (a : A) : Prop :=
  forall pre post, len (pre ++ bs ++ post) < max_size ->
    exists q, r (mkR (pre ++ bs ++ post) (len pre)) = Ret (a, mkR (pre ++ bs ++ post) q) /\
      q <= len (pre ++ bs ++ post).

Lemma reads_part_of {A} (r : rd A) bs a : reads r bs a -> reads_part r bs a.
Proof. intros H pre post Hl. eexists. split; [apply H; [exact I | exact Hl]|]. lens. lia. Qed.

Lemma reads_part_ret {A} bs (a : A) : reads_part (ret a) bs a.
Proof. intros pre post Hl. eexists. split; [reflexivity|]. lens. lia. Qed.

Inductive chunk_run {A} (cb : N -> A -> rd (bool * A)) : A -> list chunk -> A -> Prop :=
| run_last a c a' : chunk_ok c -> reads_part (cb (fst c) a) (snd c) (true, a') -> chunk_run cb a [c] a'
| run_more a c a1 c2 cs a' : chunk_ok c -> reads_part (cb (fst c) a) (snd c) (false, a1) ->
    chunk_run cb a1 (c2 :: cs) a' -> chunk_run cb a (c :: c2 :: cs) a'.

Lemma read_chunked_run {A} (cb : N -> A -> rd (bool * A)) a cs a' : chunk_run cb a cs a' ->
  forall fuel, (length cs <= fuel)%nat -> reads (read_chunked fuel cb a) (flat_map chunk_bytes cs) a'.
Proof.
  intros H. induction H as [a [ty p] a' [Hty Hp] Hr | a [ty p] a1 c2 cs a' [Hty Hp] Hr Hrun IH];
    intros fuel Hf pre post _ Hl; cbn [fst snd] in *;
    (destruct fuel as [|fuel]; [cbn [length] in Hf; lia|]).
  - cbn [flat_map] in *. rewrite app_nil_r in *. unfold chunk_bytes in *. cbn [fst snd] in *.
    set (data := pre ++ (le_enc 2 ty ++ le_enc 4 (len p) ++ p) ++ post) in *.
    assert (Ed : data = pre ++ le_enc 2 ty ++ (le_enc 4 (len p) ++ p ++ post))
      by (unfold data; rewrite <- !app_assoc; reflexivity).
    cbn [read_chunked]. unfold bind at 1.
    pose proof (reads_ushort ty Hty pre (le_enc 4 (len p) ++ p ++ post) I) as R1.
    rewrite <- Ed in R1. rewrite R1 by exact Hl. clear R1. unfold bind at 1.
    pose proof (reads_uint (len p) Hp (pre ++ le_enc 2 ty) (p ++ post) I) as R2.
    assert (Ed2 : data = (pre ++ le_enc 2 ty) ++ le_enc 4 (len p) ++ p ++ post)
      by (rewrite Ed, <- !app_assoc; reflexivity).
    rewrite <- Ed2 in R2. rewrite len_app in R2. rewrite R2 by exact Hl. clear R2.
    unfold bind at 1. unfold rd_tell at 1. cbn [rpos].
    assert (Ed3 : data = ((pre ++ le_enc 2 ty) ++ le_enc 4 (len p)) ++ p ++ post)
      by (rewrite Ed, <- !app_assoc; reflexivity).
    destruct (Hr ((pre ++ le_enc 2 ty) ++ le_enc 4 (len p)) post) as (q & Eq & Hq); [rewrite <- Ed3; exact Hl|].
    rewrite <- Ed3 in Eq, Hq. rewrite !len_app in Eq. unfold bind at 1. rewrite Eq. clear Eq.
    assert (Hdl : len data = len pre + (6 + len p + len post)) by (unfold data; lens; lia).
    assert (Et : sint 64 (u64 (len pre + len (le_enc 2 ty) + len (le_enc 4 (len p)) + len p)) = Z.of_N (len pre + 6 + len p)).
    { rewrite !len_le_enc. rewrite u64_small by (pows; lia). rewrite sint_small by (pows; lia). lia. }
    rewrite Et. unfold bind at 1. rewrite rd_seek_beg by (lia || exact Hl).
    unfold ret; cbn [fst snd]. do 3 f_equal. lens. lia.
  - cbn [flat_map] in IH |- *. cbn [flat_map] in Hl. fold (flat_map chunk_bytes cs) in *.
    set (rest := chunk_bytes c2 ++ flat_map chunk_bytes cs) in *.
    assert (Hrl : 6 <= len rest). { unfold rest, chunk_bytes. lens. lia. }
    set (data := pre ++ (chunk_bytes (ty, p) ++ rest) ++ post) in *.
    assert (Hdl : len data = len pre + (6 + len p + len rest + len post)).
    { unfold data, chunk_bytes; cbn [fst snd]. lens. lia. }
    assert (Ed : data = pre ++ le_enc 2 ty ++ (le_enc 4 (len p) ++ p ++ rest ++ post))
      by (unfold data, chunk_bytes; cbn [fst snd]; rewrite <- !app_assoc; reflexivity).
    cbn [read_chunked]. unfold bind at 1.
    pose proof (reads_ushort ty Hty pre (le_enc 4 (len p) ++ p ++ rest ++ post) I) as R1.
    rewrite <- Ed in R1. rewrite R1 by exact Hl. clear R1. unfold bind at 1.
    pose proof (reads_uint (len p) Hp (pre ++ le_enc 2 ty) (p ++ rest ++ post) I) as R2.
    assert (Ed2 : data = (pre ++ le_enc 2 ty) ++ le_enc 4 (len p) ++ p ++ rest ++ post)
      by (rewrite Ed, <- !app_assoc; reflexivity).
    rewrite <- Ed2 in R2. rewrite len_app in R2. rewrite R2 by exact Hl. clear R2.
    unfold bind at 1. unfold rd_tell at 1. cbn [rpos].
    assert (Ed3 : data = ((pre ++ le_enc 2 ty) ++ le_enc 4 (len p)) ++ p ++ rest ++ post)
      by (rewrite Ed, <- !app_assoc; reflexivity).
    destruct (Hr ((pre ++ le_enc 2 ty) ++ le_enc 4 (len p)) (rest ++ post)) as (q & Eq & Hq); [rewrite <- Ed3; exact Hl|].
    rewrite <- Ed3 in Eq, Hq. rewrite !len_app in Eq. unfold bind at 1. rewrite Eq. clear Eq.
    assert (Et : sint 64 (u64 (len pre + len (le_enc 2 ty) + len (le_enc 4 (len p)) + len p)) = Z.of_N (len pre + 6 + len p)).
    { rewrite !len_le_enc. rewrite u64_small by (pows; lia). rewrite sint_small by (pows; lia). lia. }
    rewrite Et. unfold bind at 1. rewrite rd_seek_beg by (lia || exact Hl).
    cbn [fst snd]. unfold bind at 1. rewrite r_eof_at.
    destruct (N.leb_spec (len data) (len pre + 6 + len p)) as [Hx|_]; [lia|].
    assert (Ed4 : data = (pre ++ chunk_bytes (ty, p)) ++ rest ++ post)
      by (unfold data; rewrite <- !app_assoc; reflexivity).
    assert (El : len pre + 6 + len p = len (pre ++ chunk_bytes (ty, p))).
    { unfold chunk_bytes; cbn [fst snd]. lens. lia. }
    rewrite El.
    pose proof (IH fuel ltac:(cbn [length] in *; lia) (pre ++ chunk_bytes (ty, p)) post I) as E.
    rewrite <- Ed4 in E. rewrite E by exact Hl. do 3 f_equal. unfold chunk_bytes; cbn [fst snd]. lens. lia.
Qed.

(** Loaders that compute their fuel from what is left of the buffer. *)
Lemma read_chunked_run_left {A} (cb : N -> A -> rd (bool * A)) a cs a' : chunk_run cb a cs a' ->
  reads (fun s => read_chunked (S (N.to_nat (len (rdata s) - rpos s))) cb a s) (flat_map chunk_bytes cs) a'.
Proof.
  intros H pre post HP Hl. cbn [rdata rpos].
  apply (read_chunked_run cb a cs a' H); [|exact HP|exact Hl].
  assert (G : len cs <= len (flat_map chunk_bytes cs)).
  { clear. induction cs as [|c cs IH]; [reflexivity|]. cbn [flat_map]. unfold chunk_bytes at 1. lens. lia. }
  assert (len (pre ++ flat_map chunk_bytes cs ++ post) - len pre >= len cs) by (lens; lia).
  unfold len in *. lia.
Qed.

(** ** Forward readers *)
Lemma fw_ret {A} (a : A) : forward (ret a).
Proof. intros s Hs. cbn. repeat split; try apply Hs. reflexivity. Qed.
Lemma fw_throw {A} e : forward (@throw rstate A e).
Proof. intros s Hs. exact I. Qed.
Lemma fw_bind {A B} (m : rd A) (k : A -> rd B) : forward m -> (forall a, forward (k a)) -> forward (bind m k).
Proof.
  intros Hm Hk s Hs. unfold bind. specialize (Hm s Hs). destruct (m s) as [[a s1]| | |]; try exact Hm.
  destruct Hm as (D & Hs1 & Hp). specialize (Hk a s1 Hs1). destruct (k a s1) as [[b s2]| | |]; try exact Hk.
  destruct Hk as (D2 & Hs2 & Hp2). split; [congruence|]. split; [exact Hs2|]. lia.
Qed.
Lemma fw_if {A} (b : bool) (m k : rd A) : forward m -> forward k -> forward (if b then m else k).
Proof. destruct b; auto. Qed.
Lemma fw_repM {A} n (m : rd A) : forward m -> forward (repM n m).
Proof.
  intros H. induction n as [|n IH]; cbn [repM]; [apply fw_ret|].
  apply fw_bind; [exact H|]. intros a. apply fw_bind; [exact IH|]. intros. apply fw_ret.
Qed.
Lemma fw_mapM {A B} (f : A -> rd B) l : (forall a, forward (f a)) -> forward (mapM f l).
Proof.
  intros H. induction l as [|x l IH]; cbn [mapM]; [apply fw_ret|].
  apply fw_bind; [apply H|]. intros a. apply fw_bind; [exact IH|]. intros. apply fw_ret.
Qed.
Lemma fw_read n : n <= 2 ^ 63 -> forward (rd_read n).
Proof.
  intros Hn s Hs. destruct (rd_read_safe n s Hs Hn) as [b ->]. destruct Hs. cbn [rdata rpos].
  split; [reflexivity|]. split; [split; cbn [rdata rpos]; lia|]. lia.
Qed.
Lemma fw_fixed n : n <= 2 ^ 63 -> forward (rd_fixed n).
Proof. intros Hn. apply fw_bind; [apply fw_read, Hn|]. intros. apply fw_ret. Qed.
Lemma fw_fixed_map {A} n (f : bytes -> A) : n <= 2 ^ 63 -> forward (bind (rd_fixed n) (fun b => ret (f b))).
Proof. intros Hn. apply fw_bind; [apply fw_fixed, Hn|]. intros. apply fw_ret. Qed.
Lemma fw_char : forward read_char. Proof. apply fw_fixed_map. discriminate. Qed.
Lemma fw_ubyte : forward read_ubyte. Proof. apply fw_fixed_map. discriminate. Qed.
Lemma fw_ushort : forward read_ushort. Proof. apply fw_fixed_map. discriminate. Qed.
Lemma fw_uint : forward read_uint. Proof. apply fw_fixed_map. discriminate. Qed.
Lemma fw_float : forward read_float. Proof. apply fw_uint. Qed.
Lemma fw_byte : forward read_byte. Proof. apply fw_bind; [apply fw_ubyte|]. intros; apply fw_ret. Qed.
Lemma fw_short : forward read_short. Proof. apply fw_bind; [apply fw_ushort|]. intros; apply fw_ret. Qed.
Lemma fw_int : forward read_int. Proof. apply fw_bind; [apply fw_uint|]. intros; apply fw_ret. Qed.
Lemma fw_vec2 : forward read_vec2. Proof. apply fw_fixed_map. discriminate. Qed.
Lemma fw_vec3 : forward read_vec3. Proof. apply fw_fixed_map. discriminate. Qed.
Lemma fw_mat3 : forward read_mat3. Proof. apply fw_fixed_map. discriminate. Qed.
Lemma fw_mat4 : forward read_mat4. Proof. apply fw_fixed_map. discriminate. Qed.
Lemma fw_string n : n < max_size -> forward (read_string n).
Proof.
  intros Hn. unfold read_string. destruct (N.ltb_spec n max_size); [|lia]. apply fw_fixed. pows. lia.
Qed.
Lemma fw_eof : forward rd_eof.
Proof. intros s Hs. cbn. repeat split; try apply Hs. reflexivity. Qed.
Lemma fw_tell : forward rd_tell.
Proof. intros s Hs. cbn. repeat split; try apply Hs. reflexivity. Qed.

(** Reading one character: it moves by one, or gives NUL at the end. *)
Lemma read_char_cases s : r_ok s ->
  (exists c, read_char s = Ret (c, mkR (rdata s) (rpos s + 1)) /\ rpos s < len (rdata s)) \/
  (read_char s = Ret (x00, s) /\ rpos s = len (rdata s)).
Proof.
  intros [Hp Hl]. destruct s as [d p]. cbn [rdata rpos] in *.
  destruct (N.eq_dec p (len d)) as [->|Hn].
  - right. split; [apply read_char_end, Hl | reflexivity].
  - left. destruct (drop p d) as [|c post] eqn:E.
    { exfalso. pose proof (len_drop p d). rewrite E, len_nil in H. lia. }
    exists c. split; [|lia].
    rewrite <- (take_drop p d) at 1. rewrite E.
    replace p with (len (take p d)) at 2 by (rewrite len_take; lia).
    assert (El : take p d ++ c :: post = d) by (rewrite <- E; apply take_drop).
    rewrite read_char_at by (rewrite El; exact Hl). rewrite El, len_take, N.min_l by lia. reflexivity.
Qed.

Lemma read_until_eol_fw : forall fuel s, r_ok s -> (N.to_nat (len (rdata s) - rpos s) < fuel)%nat ->
  exists l c p, read_until_eol fuel s = Ret ((l, c), mkR (rdata s) p) /\ rpos s <= p <= len (rdata s).
Proof.
  induction fuel as [|fuel IH]; intros s Hs Hf; [lia|].
  cbn [read_until_eol]. unfold bind at 1.
  destruct (read_char_cases s Hs) as [(c & E & Hlt) | (E & He)]; rewrite E.
  - destruct (beq c x00 || beq c x0d || beq c x0a).
    { exists [], c, (rpos s + 1). split; [reflexivity|]. lia. }
    destruct (IH (mkR (rdata s) (rpos s + 1))) as (l & c' & p & E2 & Hp).
    { destruct Hs. split; cbn [rdata rpos]; lia. }
    { cbn [rdata rpos]. lia. }
    unfold bind at 1. rewrite E2. cbn [rdata rpos fst snd] in *. exists (c :: l), c', p. split; [reflexivity|]. lia.
  - replace (beq x00 x00) with true by reflexivity. cbn [orb]. exists [], x00, (rpos s).
    split; [destruct s; reflexivity|]. destruct Hs. lia.
Qed.

Lemma skip_run_fw : forall fuel chars s, r_ok s -> (N.to_nat (len (rdata s) - rpos s) < fuel)%nat ->
  exists c p, skip_run fuel chars s = Ret (c, mkR (rdata s) p) /\
    (rpos s < p <= len (rdata s) \/ (c = x00 /\ p = len (rdata s))).
Proof.
  induction fuel as [|fuel IH]; intros chars s Hs Hf; [lia|].
  cbn [skip_run]. unfold bind at 1.
  destruct (read_char_cases s Hs) as [(c & E & Hlt) | (E & He)]; rewrite E.
  - destruct (negb (beq c x00) && existsb (beq c) chars).
    + destruct (IH chars (mkR (rdata s) (rpos s + 1))) as (c' & p & E2 & Hp).
      { destruct Hs. split; cbn [rdata rpos]; lia. }
      { cbn [rdata rpos]. lia. }
      rewrite E2. cbn [rdata rpos] in *. exists c', p. split; [reflexivity|]. destruct Hp as [Hp|Hp]; [left; lia | right; exact Hp].
    + exists c, (rpos s + 1). split; [reflexivity|]. left. lia.
  - replace (beq x00 x00) with true by reflexivity. cbn [negb andb]. exists x00, (rpos s).
    split; [destruct s; reflexivity|]. right. auto.
Qed.

Lemma fw_line_ignore chars : forward (read_line_then_ignore chars).
Proof.
  intros s Hs. unfold read_line_then_ignore. set (fuel := S (N.to_nat (len (rdata s) - rpos s))).
  unfold bind at 1.
  destruct (read_until_eol_fw fuel s Hs) as (l & c & p & E & Hp); [unfold fuel; lia|]. rewrite E.
  unfold bind at 1. rewrite r_eof_at. cbn [fst snd].
  assert (G : forall q, rpos s <= q <= len (rdata s) ->
     rdata (mkR (rdata s) q) = rdata s /\ r_ok (mkR (rdata s) q) /\ rpos s <= rpos (mkR (rdata s) q)).
  { intros q Hq. destruct Hs. repeat split; cbn [rdata rpos]; lia. }
  destruct (N.leb_spec (len (rdata s)) p) as [He|He].
  - rewrite !orb_true_r. apply G. lia.
  - rewrite orb_false_r. destruct ((match chars with [] => true | _ => false end) || beq c x00).
    { apply G. lia. }
    unfold bind at 1.
    destruct (skip_run_fw fuel chars (mkR (rdata s) p)) as (c2 & q & E2 & Hq).
    { destruct Hs. split; cbn [rdata rpos]; lia. }
    { cbn [rdata rpos]. unfold fuel. lia. }
    cbn [rdata rpos] in *. rewrite E2. unfold bind at 1. rewrite r_eof_at.
    destruct Hq as [Hq | (-> & ->)].
    + destruct ((len (rdata s) <=? q) && beq c2 x00); [apply G; cbn [rdata rpos]; lia|].
      unfold bind. rewrite rd_seek_back by (destruct Hs; lia). apply G. cbn [rdata rpos]. lia.
    + replace (len (rdata s) <=? len (rdata s)) with true by (symmetry; apply N.leb_le; lia).
      cbn [andb beq Byte.eqb]. replace (beq x00 x00) with true by reflexivity. apply G. cbn [rdata rpos]. lia.
Qed.
Lemma fw_line b : forward (read_line b).
Proof. apply fw_line_ignore. Qed.
Lemma fw_fuel {A} (f : nat -> rd A) :
  (forall n s, r_ok s -> (N.to_nat (len (rdata s) - rpos s) < n)%nat ->
     match f n s with
     | Ret (_, s') => rdata s' = rdata s /\ r_ok s' /\ rpos s <= rpos s'
     | Throw _ => True | Undef => False | Fuel => False end) ->
  forward (fun s => f (S (N.to_nat (len (rdata s) - rpos s))) s).
Proof. intros H s Hs. apply H; [exact Hs | lia]. Qed.
Lemma fw_chunked {A} (cb : N -> A -> rd (bool * A)) a : (forall ty a, forward (cb ty a)) ->
  forward (fun s => read_chunked (S (N.to_nat (len (rdata s) - rpos s))) cb a s).
Proof.
  intros H. apply (fw_fuel (fun n => read_chunked n cb a)). intros n s Hs Hn.
  apply read_chunked_terminates; [intros ty b t Ht; apply H, Ht | exact Hs | exact Hn].
Qed.

Create HintDb forward.
Global Hint Resolve fw_ret fw_throw fw_char fw_ubyte fw_ushort fw_uint fw_float fw_byte fw_short fw_int fw_vec2 fw_vec3
  fw_mat3 fw_mat4 fw_eof fw_tell fw_line : forward.
Ltac fstep := first
  [ solve [eauto with forward]
  | match goal with |- forward (bind _ _) => apply fw_bind; [|intros] end
  | match goal with |- forward (if _ then _ else _) => apply fw_if end
  | match goal with |- forward (repM _ _) => apply fw_repM end
  | match goal with |- forward (match ?x with _ => _ end) => destruct x end ].
Ltac fsteps := repeat fstep.

Lemma fw_date : forward date_load. Proof. unfold date_load. fsteps. Qed.
Lemma fw_aabb : forward aabb_load. Proof. unfold aabb_load. fsteps. Qed.
Global Hint Resolve fw_date fw_aabb : forward.

(** ** Lists with a count *)
Lemma reads_count {A} (f : rd A) (enc : A -> bytes) l n : n = len l ->
  (forall x, In x l -> reads f (enc x) x) -> reads (repM (N.to_nat n) f) (flat_map enc l) l.
Proof. intros -> H. apply reads_repM; [unfold len; lia | exact H]. Qed.

Lemma u16_small n : n < 2 ^ 16 -> u16 n = n.
Proof. intros. unfold u16. apply N.mod_small. assumption. Qed.
Lemma u32_small n : n < 2 ^ 32 -> u32 n = n.
Proof. intros. unfold u32. apply N.mod_small. assumption. Qed.
Lemma u8_small n : n < 2 ^ 8 -> u8 n = n.
Proof. intros. unfold u8. apply N.mod_small. assumption. Qed.
