(** Which exceptions loading throws: the statements, and witnesses of foreign exceptions. *)

From Coq Require Import String Lia.
From Verif Require Import MBase MStream SStream LBase MBoxes MTexture MModel MText MClasses MArchive SArchive.
From Verif Require Import MVob MVobs MNpc MCutscene MMaterial MWorld MLib MMesh MBsp MMrm MSave MLevel SKind SThrows LKind LThrows LArchEndX.
Local Open Scope N_scope.

Lemma fonts_textures_throw : throws_only [ParserError] font_load /\ forall t, throws_only [ParserError] (tex_load t).
Proof.
  split; [|intros t]; intros s e H; [apply (on_font (fun e => In e [ParserError])) in H|apply (on_tex_load (fun e => In e [ParserError])) in H];
    try exact H; left; reflexivity.
Qed.
Lemma never_throw : (forall h, throws_only [] (hier_load h)) /\ (forall t v, throws_only [] (bsp_load t v)) /\
  (forall po ro a, throws_only [] (ani_load po ro a)).
Proof.
  split; [|split]; intros; intros s e H; [apply (on_hier (fun _ => False)) in H|apply (on_bsp (fun _ => False)) in H|apply (on_ani (fun _ => False)) in H]; destruct H.
Qed.
Lemma meshes_throw : (forall m wide, throws_only [ParserError; OutOfRange] (mesh_load m wide)) /\
  (forall m, throws_only [ParserError; OutOfRange] (mrm_load m)) /\ (forall k, throws_only [ParserError; OutOfRange] (skin_load k)) /\
  (forall m, throws_only [ParserError; OutOfRange] (mm_load m)) /\ (forall h m, throws_only [ParserError; OutOfRange] (model_load h m)) /\
  (forall m, throws_only [ParserError; OutOfRange] (morph_load m)).
Proof.
  assert (H1 : In ParserError [ParserError; OutOfRange]) by (left; reflexivity).
  assert (H2 : In OutOfRange [ParserError; OutOfRange]) by (right; left; reflexivity).
  repeat split; intros.
  - exact (on_mesh (fun e => In e [ParserError; OutOfRange]) H1 H2 m wide).
  - exact (on_mrm (fun e => In e [ParserError; OutOfRange]) H1 H2 m).
  - exact (on_skin (fun e => In e [ParserError; OutOfRange]) H1 H2 k).
  - exact (on_mm (fun e => In e [ParserError; OutOfRange]) H1 H2 m).
  - exact (on_model (fun e => In e [ParserError; OutOfRange]) H1 H2 h m).
  - exact (on_morph (fun e => In e [ParserError; OutOfRange]) H1 H2 m).
Qed.
Lemma archives_throw : throws_only [ParserError; OutOfRange] ar_open /\
  forall c n b h r e, ar_open (mkR b 0) = Ret (h, r) -> load_archive (c_load (library c)) (c_flags (library c)) n b = Throw e ->
    In e [ParserError; OtherExn] \/ (e = OutOfRange /\ ah_format h = AAscii).
Proof.
  split.
  - apply (on_open (fun e => In e [ParserError; OutOfRange])); cbn [In]; auto.
  - intros c n b h r e Ho H.
    apply (on_archive (fun e => In e [ParserError; OtherExn] \/ (e = OutOfRange /\ ah_format h = AAscii))) with (h := h) (r := r) in H;
      [exact H | cbn [In]; auto | cbn [In]; auto | exact Ho | intros E; right; split; [reflexivity | exact E]].
Qed.
Lemma worlds_throw : forall c n x h0, throws_only [ParserError; OtherExn; OutOfRange] (load_level c n x h0).
Proof. intros. apply (on_level (fun e => In e [ParserError; OtherExn; OutOfRange])); cbn [In]; auto. Qed.

Definition length_file : bytes :=
  top_lines "BINARY" ++ count_lines ++ bin_obj 100 "n" "zCWayNet" ++ le_enc 4 1 ++ le_enc 4 (2 ^ 32 - 1).
Lemma length_throws : exists b head r, ar_open (mkR b 0) = Ret (head, r) /\
  forall c n, load_archive (c_load (library c)) (c_flags (library c)) (S n) b = Throw OtherExn.
Proof. exists length_file. do 2 eexists. split; [vm_compute; reflexivity|]. intros c n. vm_compute. reflexivity. Qed.

(** Whatever loads an archive opens it first. *)
Lemma opening_throws b e : ar_open (r_from b) = Throw e ->
  (forall c n, load_archive (c_load (library c)) (c_flags (library c)) n b = Throw e) /\
  (forall c n x, load_savedat c n x b = Throw e) /\ (forall c n, load_saveinfo c n b = Throw e) /\
  (forall c n x h0, load_level c n x h0 (r_from b) = Throw e) /\ (forall n, determine_version n (r_from b) = Throw e) /\
  (forall pack depth n x h0, load_any pack depth n x h0 (r_from b) = Throw e).
Proof.
  intros H. unfold r_from in *. repeat split; intros.
  - unfold load_archive. rewrite H. reflexivity.
  - unfold load_savedat, load_top. rewrite H. reflexivity.
  - unfold load_saveinfo, load_top. rewrite H. reflexivity.
  - unfold load_level. rewrite H. reflexivity.
  - unfold determine_version. rewrite H. reflexivity.
  - unfold load_any, bind at 1, rd_tell. unfold bind, determine_version. rewrite H. reflexivity.
Qed.
