(** Textures and fonts written to files and streams. *)

From Coq Require Import Lia ZifyN ZifyBool ZifyNat.
From Verif Require Import MBase MStream SStream MModel MTexture STexture MSink MSinkTex SSink SFormat LBase LStream LFormat LModel LTexture LSource LSourceX LSink.
Local Open Scope N_scope.

Section Room.
Variable room : N.
Hypothesis Hr : room < max_size.

Lemma appends_color c : appends room (qcolor c) (color_enc c).
Proof. unfold qcolor, color_enc. repeat (apply appends_seq; [exact Hr|apply (appends_put room Hr)|]). apply (appends_put room Hr). Qed.
Lemma appends_tex t : appends room (qtex_save t) (tex_bytes t).
Proof.
  unfold qtex_save, tex_bytes. do 9 (apply appends_seq; [exact Hr|apply (appends_put room Hr)|]). apply appends_seq; [exact Hr| |].
  - destruct (tx_format t =? P8); [apply appends_iter; [exact Hr|]; intros; apply appends_color|apply appends_nil].
  - apply appends_iter; [exact Hr|]. intros. apply (appends_put room Hr).
Qed.
Lemma appends_font f : len (fo_glyphs f) < 2 ^ 32 -> appends room (qfont_save f) (font_bytes f).
Proof.
  intros Hl. unfold qfont_save, font_bytes, font_tail, glyph_bytes. rewrite (u32_small _ Hl).
  do 2 (apply appends_seq; [exact Hr|apply (appends_line room Hr)|]). do 2 (apply appends_seq; [exact Hr|apply (appends_put room Hr)|]).
  repeat (apply appends_seq; [exact Hr|apply appends_iter; [exact Hr|]; intros; apply (appends_put room Hr)|]).
  apply appends_iter; [exact Hr|]. intros. apply (appends_put room Hr).
Qed.
End Room.

Lemma texture_sinks t room : room < max_size -> exists bs, (len bs < max_size -> file_of (tex_save t) = Ret bs) /\
  (len bs <= room -> to_vector (qtex_save t) = Ret (tt, bs) /\ to_file (qtex_save t) = Ret (tt, bs) /\
   forall string, to_stream string room true (qtex_save t) = Ret (tt, bs)).
Proof.
  intros Hr. exists (tex_bytes t). split; [apply file_writes, tex_writes|]. apply (appends_all room Hr), appends_tex, Hr.
Qed.
Lemma font_sinks f room : len (fo_glyphs f) < 2 ^ 32 -> room < max_size -> exists bs, (len bs < max_size -> file_of (font_save f) = Ret bs) /\
  (len bs <= room -> to_vector (qfont_save f) = Ret (tt, bs) /\ to_file (qfont_save f) = Ret (tt, bs) /\
   forall string, to_stream string room true (qfont_save f) = Ret (tt, bs)).
Proof.
  intros Hf Hr. exists (font_bytes f). split; [apply file_writes, font_writes, Hf|]. apply (appends_all room Hr), appends_font; assumption.
Qed.
Lemma quiet_tex t : quiet (qtex_save t).
Proof.
  unfold qtex_save, qseq. do 9 (apply quiet_bind; [intros n; exact I|intros _]).
  apply quiet_bind; [|intros _; apply quiet_iter; intros x n; exact I].
  destruct (_ =? _); [|exact I]. apply quiet_iter. intros c. unfold qcolor, qseq. repeat (apply quiet_bind; [intros n; exact I|intros _]). intros n. exact I.
Qed.
Lemma quiet_font f : quiet (qfont_save f).
Proof.
  unfold qfont_save, qline, qseq. repeat first [intros n; exact I | apply quiet_iter; intros x | apply quiet_bind; [|intros _]].
Qed.
Lemma lost_saves : (forall string room t, to_stream string room false (qtex_save t) = Ret (tt, [])) /\
  (forall string room f, to_stream string room false (qfont_save f) = Ret (tt, [])).
Proof.
  split; intros k room x; unfold to_stream, os_open; cbn [negb].
  - destruct (quiet_failed _ (quiet_tex x) k room [] 0) as [[] E]. rewrite E. reflexivity.
  - destruct (quiet_failed _ (quiet_font x) k room [] 0) as [[] E]. rewrite E. reflexivity.
Qed.
