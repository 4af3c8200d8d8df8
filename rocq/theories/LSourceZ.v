(** Lemmas: code that only reads. *)

From Coq Require Import Lia ZifyN ZifyBool ZifyNat.
From Verif Require Import MBase MStream SStream MTexture MSource MSourceTex SSource SSourceTex SFormat LBase LStream LFormat LSource LSourceX LSourceY.
Local Open Scope N_scope.

Lemma reads_file {A} (p : rprog A) : only_reads p -> forall data pos hit, inside_file data pos hit p.
Proof.
  induction p as [r|[n|off w| |] k IH]; intros H data pos hit; try exact I; try contradiction H.
  destruct H as [Hn H]. split; [exact Hn|]. apply IH, H.
Qed.
Lemma reads_stream {A} string data : len data < max_size -> forall (p : rprog A), only_reads p -> forall pos bad, pos <= len data -> (bad = true -> pos = len data) ->
  value (prun is_step p (mkIS string data pos bad bad)) = value (prun r_step p (mkR data pos)).
Proof.
  intros Hl. induction p as [[a|e| |]|[n|off w| |] k IH]; intros H pos bad Hp Hb; try reflexivity; try contradiction H.
  destruct H as [Hn H]. cbn [prun r_step]. unfold bind at 1. rewrite rd_read_spec; [|split; assumption|pows; lia]. cbn [ret obind fst snd cursor_step rdata rpos].
  cbn [is_step]. destruct bad.
  - cbn [orb obind fst snd]. rewrite (Hb eq_refl). cbn [rdata rpos]. replace (N.min n (len data - len data)) with 0 by lia. rewrite (take_0 (drop (len data) data)).
    rewrite N.add_0_r. apply IH; [apply H|lia|reflexivity].
  - cbn [orb obind fst snd]. rewrite take_inside.
    assert (E : len (take (N.min n (len data - pos)) (drop pos data)) = N.min n (len data - pos)) by (lens; lia). rewrite E.
    apply IH; [apply H|lia|lia].
Qed.
Lemma reads_same {A} (p : rprog A) data : len data < max_size -> only_reads p ->
  from_file p data = from_memory p data /\ forall string, from_stream string p data = from_memory p data.
Proof.
  intros Hl H. split; [apply file_same; [exact Hl|apply reads_file, H]|]. intros string. unfold from_stream, from_memory, is_open, r_from.
  apply reads_stream; [exact Hl|exact H|lia|discriminate].
Qed.

(** Textures. *)
Lemma reads_bind {A B} (p : rprog A) (f : A -> rprog B) : only_reads p -> (forall a, only_reads (f a)) -> only_reads (pbind p f).
Proof.
  intros Hp Hf. induction p as [[a|e| |]|[n|off w| |] k IH]; try contradiction Hp; try exact I; [apply Hf|].
  destruct Hp as [Hn Hp]. split; [exact Hn|]. intros r. apply IH, Hp.
Qed.
Lemma reads_get {A} n (f : bytes -> A) : n < 2 ^ 63 -> only_reads (pget n f).
Proof. intros H. split; [exact H|]. intros; exact I. Qed.
Lemma reads_rep {A} n (p : rprog A) : only_reads p -> only_reads (prep n p).
Proof. intros H. induction n as [|n IH]; [exact I|]. cbn [prep]. apply reads_bind; [exact H|intros]. apply reads_bind; [exact IH|intros; exact I]. Qed.
Lemma reads_map {A B} (f : A -> rprog B) l : (forall a, only_reads (f a)) -> only_reads (pmap f l).
Proof. intros H. induction l as [|a l IH]; [exact I|]. cbn [pmap]. apply reads_bind; [apply H|intros]. apply reads_bind; [exact IH|intros; exact I]. Qed.
Lemma size_small fmt w h l : mipmap_size fmt w h l < 2 ^ 63.
Proof.
  assert (U : forall x, u32 x < 2 ^ 63) by (intros x; unfold u32; eapply N.lt_trans; [apply N.mod_lt; discriminate|reflexivity]).
  unfold mipmap_size. cbv zeta. repeat match goal with |- (if ?c then _ else _) < _ => destruct c end; try apply U; reflexivity.
Qed.
Lemma reads_tex t : only_reads (ptex_load t).
Proof.
  unfold ptex_load, puint. apply reads_bind; [apply reads_get; reflexivity|intros sig]. destruct (negb _); [exact I|].
  apply reads_bind; [apply reads_get; reflexivity|intros v]. destruct (negb _); [exact I|].
  do 7 (apply reads_bind; [apply reads_get; reflexivity|intros]).
  apply reads_bind; [destruct (_ =? _); [apply reads_rep; unfold pcolor, pubyte; do 4 (apply reads_bind; [apply reads_get; reflexivity|intros]); exact I|exact I]|intros].
  apply reads_bind; [apply reads_map; intros; apply reads_get, size_small|intros; exact I].
Qed.

Lemma agree_raw fuel n : agree fuel (praw n) (rd_fixed n).
Proof.
  intros s Hs Hf. unfold praw. rewrite (agree_get fuel n (fun b => b) s Hs Hf). unfold bind, ret. destruct (rd_fixed n s) as [[a s']| | |]; reflexivity.
Qed.
Lemma agree_map fuel {A B} (f : A -> rprog B) g l : (forall a, agree fuel (f a) (g a)) -> (forall a, forward (g a)) -> agree fuel (pmap f l) (mapM g l).
Proof.
  intros H Hm. induction l as [|a l IH]; [apply agree_ret|]. cbn [pmap mapM].
  apply agree_bind; [apply H|apply Hm|intros b]. apply agree_bind; [exact IH|apply fw_mapM, Hm|intros; apply agree_ret].
Qed.
Lemma agree_throw fuel {A} e : agree fuel (PEnd (Throw e) : rprog A) (throw e).
Proof. intros s Hs Hf. reflexivity. Qed.
Lemma agree_u fuel : agree fuel puint read_uint. Proof. apply agree_get. Qed.
Lemma agree_ub fuel : agree fuel pubyte read_ubyte. Proof. apply agree_get. Qed.
Lemma agree_color fuel : agree fuel pcolor color_load.
Proof. unfold pcolor, color_load. do 4 (apply agree_bind; [apply agree_ub|apply fw_ubyte|intros]). apply agree_ret. Qed.
Lemma fw_color : forward color_load.
Proof. unfold color_load. do 4 (apply fw_bind; [apply fw_ubyte|intros]). apply fw_ret. Qed.
Lemma agree_tex fuel t : agree fuel (ptex_load t) (tex_load t).
Proof.
  unfold ptex_load, tex_load. apply agree_bind; [|apply fw_string; rewrite max_size_val; reflexivity|intros sig].
  { unfold read_string. replace (4 <? max_size) with true by (rewrite max_size_val; reflexivity). apply agree_raw. }
  destruct (negb _); [apply agree_throw|].
  apply agree_bind; [apply agree_u|apply fw_uint|intros v]. destruct (negb _); [apply agree_throw|].
  do 7 (apply agree_bind; [apply agree_u|apply fw_uint|intros]). cbv zeta.
  apply agree_bind.
  - destruct (_ =? _); [apply agree_rep; [apply agree_color|apply fw_color]|apply agree_ret].
  - apply fw_if; [apply fw_repM, fw_color|apply fw_ret].
  - intros pal. apply agree_bind.
    + apply agree_map; [intros; apply agree_raw|intros; apply fw_fixed, N.lt_le_incl, size_small].
    + apply fw_mapM. intros; apply fw_fixed, N.lt_le_incl, size_small.
    + intros; apply agree_ret.
Qed.
Lemma texture_anywhere t data : len data < max_size ->
  from_memory (ptex_load t) data = of_file (tex_load t) data /\ from_file (ptex_load t) data = of_file (tex_load t) data /\
  forall string, from_stream string (ptex_load t) data = of_file (tex_load t) data.
Proof.
  intros Hl. destruct (reads_same (ptex_load t) data Hl (reads_tex t)) as [F S].
  assert (M : from_memory (ptex_load t) data = of_file (tex_load t) data).
  { unfold from_memory, of_file, r_from. rewrite (agree_tex (Datatypes.S (N.to_nat (len data))) t (mkR data 0)); [|split; cbn [rdata rpos]; [lia|exact Hl]|cbn [rdata]; lia].
    destruct (tex_load t (mkR data 0)) as [[a s]|e| |]; reflexivity. }
  split; [exact M|]. split; [rewrite F; exact M|]. intros string. rewrite S. exact M.
Qed.
