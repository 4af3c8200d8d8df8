(** Chunks of unknown types are passed over. *)

From Coq Require Import Lia ZifyN ZifyBool ZifyNat.
From Verif Require Import MBase MStream SStream LBase LStream SFormat LFormat MBoxes MModel MTexture MText MClasses MArchive MMaterial MMesh MBsp MMrm SUnknown.
From Verif Require MScript.
Local Open Scope N_scope.
Local Open Scope m_scope.

Lemma bind_same {A B} (m : rd A) (k1 k2 : A -> rd B) s :
  bind m k1 s <> Fuel -> (forall a s', m s = Ret (a, s') -> k1 a s' <> Fuel -> k2 a s' = k1 a s') -> bind m k2 s = bind m k1 s.
Proof. intros H1 H. unfold bind in *. destruct (m s) as [[a s']| | |]; try reflexivity. apply H; [reflexivity|exact H1]. Qed.
Ltac same x := apply bind_same; [match goal with H : _ <> Fuel |- _ => exact H end | match goal with H : _ <> Fuel |- _ => let s' := fresh "s" in let H' := fresh "H" in intros x s' _ H'; clear H; rename H' into H end].
Lemma chunked_more {A} (cb : N -> A -> rd (bool * A)) : forall n m a s, (n <= m)%nat ->
  read_chunked n cb a s <> Fuel -> read_chunked m cb a s = read_chunked n cb a s.
Proof.
  induction n as [|n IH]; intros m a s Hm H; [exfalso; apply H; reflexivity|]. destruct m as [|m]; [lia|].
  cbn [read_chunked] in *. do 5 (let x := fresh "r" in same x).
  match goal with |- (if fst ?r then _ else _) _ = _ => destruct (fst r); [reflexivity|] end.
  same e. destruct e; [reflexivity|]. apply IH; [lia|exact H].
Qed.
Lemma chunked_t_more {A} (cb : N -> N -> A -> rd (bool * N * A)) : forall n m a s, (n <= m)%nat ->
  read_chunked_t n cb a s <> Fuel -> read_chunked_t m cb a s = read_chunked_t n cb a s.
Proof.
  induction n as [|n IH]; intros m a s Hm H; [exfalso; apply H; reflexivity|]. destruct m as [|m]; [lia|].
  cbn [read_chunked_t] in *. do 3 (let x := fresh "r" in same x).
  same q; destruct q as [[d t] a'].
  same z. destruct d; [reflexivity|].
  same e. destruct e; [reflexivity|]. apply IH; [lia|exact H].
Qed.

(** The head of a chunk *)
Lemma chunk_head {B} ty p pre post (k : N -> N -> N -> rd B) : ty < 2 ^ 16 -> len p < 2 ^ 32 ->
  len (pre ++ chunk_bytes (ty, p) ++ post) < max_size ->
  (let* t := read_ushort in let* n := read_uint in let* h := rd_tell in k t n h) (mkR (pre ++ chunk_bytes (ty, p) ++ post) (len pre)) =
  k ty (len p) (len pre + 6) (mkR (pre ++ chunk_bytes (ty, p) ++ post) (len pre + 6)).
Proof.
  intros Hty Hp Hl. unfold chunk_bytes in *. cbn [fst snd] in *.
  set (data := pre ++ (le_enc 2 ty ++ le_enc 4 (len p) ++ p) ++ post) in *.
  assert (Ed : data = pre ++ le_enc 2 ty ++ (le_enc 4 (len p) ++ p ++ post)) by (unfold data; rewrite <- !app_assoc; reflexivity).
  unfold bind at 1.
  pose proof (reads_ushort ty Hty pre (le_enc 4 (len p) ++ p ++ post) I) as R1.
  rewrite <- Ed in R1. rewrite R1 by exact Hl. clear R1. unfold bind at 1.
  pose proof (reads_uint (len p) Hp (pre ++ le_enc 2 ty) (p ++ post) I) as R2.
  assert (Ed2 : data = (pre ++ le_enc 2 ty) ++ le_enc 4 (len p) ++ p ++ post) by (rewrite Ed, <- !app_assoc; reflexivity).
  rewrite <- Ed2 in R2. rewrite len_app in R2. rewrite R2 by exact Hl. clear R2.
  unfold bind at 1. unfold rd_tell at 1. cbn [rpos]. rewrite !len_le_enc. 
  replace (len pre + N.of_nat 2 + N.of_nat 4) with (len pre + 6) by lia. reflexivity.
Qed.
Lemma chunk_target ty p pre post : len p < 2 ^ 32 -> len (pre ++ chunk_bytes (ty, p) ++ post) < max_size ->
  len (pre ++ chunk_bytes (ty, p)) = len pre + 6 + len p /\
  rd_seek (sint 64 (u64 (len pre + 6 + len p))) BEG (mkR (pre ++ chunk_bytes (ty, p) ++ post) (len pre + 6)) =
  Ret (tt, mkR (pre ++ chunk_bytes (ty, p) ++ post) (len (pre ++ chunk_bytes (ty, p)))).
Proof.
  intros Hp Hl. assert (E : len (pre ++ chunk_bytes (ty, p)) = len pre + 6 + len p) by (unfold chunk_bytes; cbn [fst snd]; lens; lia).
  split; [exact E|]. rewrite E. 
  assert (Hd : len pre + 6 + len p <= len (pre ++ chunk_bytes (ty, p) ++ post)) by (rewrite <- E, app_assoc, (len_app (pre ++ _)); lia).
  rewrite u64_small by (pows; lia). rewrite sint_small by (pows; lia). rewrite rd_seek_beg by (lia || exact Hl). repeat f_equal; lia.
Qed.
Lemma eof_here b p : rd_eof (mkR b p) = Ret (len b <=? p, mkR b p).
Proof. reflexivity. Qed.

Section Generic.
  Context {A : Type} (cb : N -> A -> rd (bool * A)) (known : list N).
  Hypothesis unknown : forall ty a, ~ In ty known -> cb ty a = ret (false, a).
  Lemma chunked_step n ty p pre post a : ty < 2 ^ 16 -> len p < 2 ^ 32 -> ~ In ty known ->
    len (pre ++ chunk_bytes (ty, p) ++ post) < max_size ->
    read_chunked (S n) cb a (mkR (pre ++ chunk_bytes (ty, p) ++ post) (len pre)) =
    (let* e := rd_eof in if e then ret a else read_chunked n cb a)
      (mkR (pre ++ chunk_bytes (ty, p) ++ post) (len (pre ++ chunk_bytes (ty, p)))).
  Proof using unknown.
    intros Hty Hp Hu Hl. cbn [read_chunked]. 
    rewrite (chunk_head ty p pre post (fun t n h => let target := u64 (h + n) in let* r := cb t a in
       rd_seek (sint 64 target) BEG ;; if fst r then ret (snd r) else let* e := rd_eof in if e then ret (snd r) else read_chunked _ cb (snd r))) by assumption.
    cbv zeta. rewrite unknown by exact Hu. unfold bind at 1, ret at 1. cbn [fst snd]. unfold bind at 1.
    destruct (chunk_target ty p pre post Hp Hl) as [_ ->]. reflexivity.
  Qed.
  Lemma chunked_passes a : passes_over (fun s => read_chunked (S (N.to_nat (len (rdata s) - rpos s))) cb a s) a known.
  Proof using unknown.
    split.
    - intros ty p pre post Hty Hp Hu Hpost Hl Hf. cbn [rdata rpos] in *. rewrite chunked_step by assumption. unfold bind at 1. rewrite eof_here.
      assert (E : len (pre ++ chunk_bytes (ty, p)) = len pre + 6 + len p) by (unfold chunk_bytes; cbn [fst snd]; lens; lia).
      assert (E2 : len (pre ++ chunk_bytes (ty, p) ++ post) = len pre + 6 + len p + len post) by (rewrite app_assoc, (len_app (pre ++ _)), E; reflexivity).
      assert (1 <= len post) by (destruct post; [congruence|rewrite len_cons; lia]).
      rewrite (proj2 (N.leb_gt _ _)) by lia. apply chunked_more; [lia|exact Hf].
    - intros ty p pre Hty Hp Hu Hl. cbn [rdata rpos]. rewrite <- (app_nil_r (chunk_bytes (ty, p))) in Hl. rewrite <- (app_nil_r (chunk_bytes (ty, p))) at 1 2 3.
      rewrite chunked_step by assumption. unfold bind at 1. rewrite eof_here, app_nil_r, N.leb_refl. reflexivity.
  Qed.
End Generic.
Section GenericT.
  Context {A : Type} (cb : N -> N -> A -> rd (bool * N * A)) (known : list N).
  Hypothesis unknown : forall ty fin a, ~ In ty known -> cb ty fin a = ret (false, fin, a).
  Lemma chunked_t_step n ty p pre post a : ty < 2 ^ 16 -> len p < 2 ^ 32 -> ~ In ty known ->
    len (pre ++ chunk_bytes (ty, p) ++ post) < max_size ->
    read_chunked_t (S n) cb a (mkR (pre ++ chunk_bytes (ty, p) ++ post) (len pre)) =
    (let* e := rd_eof in if e then ret a else read_chunked_t n cb a)
      (mkR (pre ++ chunk_bytes (ty, p) ++ post) (len (pre ++ chunk_bytes (ty, p)))).
  Proof using unknown.
    intros Hty Hp Hu Hl. cbn [read_chunked_t].
    rewrite (chunk_head ty p pre post (fun t n h => let* r := cb t (u64 (h + n)) a in let '(done, target, a') := r in
       rd_seek (sint 64 target) BEG ;; if done then ret a' else let* e := rd_eof in if e then ret a' else read_chunked_t _ cb a')) by assumption.
    rewrite unknown by exact Hu. unfold bind at 1, ret at 1. unfold bind at 1.
    destruct (chunk_target ty p pre post Hp Hl) as [_ ->]. reflexivity.
  Qed.
  Lemma chunked_t_passes a : passes_over (fun s => read_chunked_t (S (N.to_nat (len (rdata s) - rpos s))) cb a s) a known.
  Proof using unknown.
    split.
    - intros ty p pre post Hty Hp Hu Hpost Hl Hf. cbn [rdata rpos] in *. rewrite chunked_t_step by assumption. unfold bind at 1. rewrite eof_here.
      assert (E : len (pre ++ chunk_bytes (ty, p)) = len pre + 6 + len p) by (unfold chunk_bytes; cbn [fst snd]; lens; lia).
      assert (E2 : len (pre ++ chunk_bytes (ty, p) ++ post) = len pre + 6 + len p + len post) by (rewrite app_assoc, (len_app (pre ++ _)), E; reflexivity).
      assert (1 <= len post) by (destruct post; [congruence|rewrite len_cons; lia]).
      rewrite (proj2 (N.leb_gt _ _)) by lia. apply chunked_t_more; [lia|exact Hf].
    - intros ty p pre Hty Hp Hu Hl. cbn [rdata rpos]. rewrite <- (app_nil_r (chunk_bytes (ty, p))) in Hl. rewrite <- (app_nil_r (chunk_bytes (ty, p))) at 1 2 3.
      rewrite chunked_t_step by assumption. unfold bind at 1. rewrite eof_here, app_nil_r, N.leb_refl. reflexivity.
  Qed.
End GenericT.
Lemma passes_map {A B} (f : A -> B) (load : rd A) a known : passes_over load a known ->
  passes_over (fun s => bind load (fun r => ret (f r)) s) (f a) known.
Proof.
  intros [H1 H2]. split.
  - intros ty p pre post Hty Hp Hu Hpost Hl Hf. unfold bind in *. rewrite H1; try assumption; [reflexivity|].
    intros E. apply Hf. rewrite E. reflexivity.
  - intros ty p pre Hty Hp Hu Hl. unfold bind. rewrite H2 by assumption. reflexivity.
Qed.

Ltac unk := let ty := fresh "ty" in intros ty; intros; 
  repeat match goal with |- context [N.eqb ty ?v] =>
    let E := fresh in destruct (N.eqb_spec ty v) as [E|E]; [exfalso; match goal with Hu : ~ In _ _ |- _ => apply Hu; rewrite E; vm_compute; auto 25 end|] end; reflexivity.
Lemma hier_passes h : passes_over (hier_load h) h skeleton_chunks.
Proof. apply (chunked_passes hier_chunk). unfold hier_chunk. unk. Qed.
Lemma bsp_passes t v : passes_over (bsp_load t v) t bsp_chunk_types.
Proof. apply (chunked_passes (bsp_chunk _)). unfold bsp_chunk. unk. Qed.
Lemma mesh_passes m wide : passes_over (mesh_load m wide) m mesh_chunk_types.
Proof.
  apply (passes_map snd (fun s => read_chunked (S (N.to_nat (len (rdata s) - rpos s))) (mesh_chunk wide) (0, m) s) (0, m)).
  apply (chunked_passes (mesh_chunk wide)). unfold mesh_chunk. intros ty [v x]. revert ty. unk.
Qed.
Lemma mrm_passes m : passes_over (mrm_load m) m mrm_chunk_types.
Proof. apply (chunked_passes mrm_chunk). unfold mrm_chunk. unk. Qed.
Lemma skin_passes k : passes_over (skin_load k) k skin_chunk_types.
Proof. apply (chunked_passes skin_chunk). unfold skin_chunk. unk. Qed.
Lemma mm_passes m : passes_over (mm_load m) m model_mesh_chunks.
Proof.
  apply (passes_map snd (fun s => read_chunked_t (S (N.to_nat (len (rdata s) - rpos s))) mm_chunk ([], m) s) ([], m)).
  apply (chunked_t_passes mm_chunk). unfold mm_chunk. intros ty fin [v x]. revert ty. unk.
Qed.
Lemma morph_passes m : passes_over (morph_load m) m morph_chunk_types.
Proof. apply (chunked_passes morph_chunk). unfold morph_chunk. unk. Qed.
Lemma ani_passes po ro a : passes_over (ani_load po ro a) a animation_chunks.
Proof. apply (chunked_passes (ani_chunk po ro)). unfold ani_chunk. unk. Qed.
Lemma mds_passes x : passes_over (MScript.mds_binary x) x script_chunk_types.
Proof.
  apply (passes_map fst (fun s => read_chunked (S (N.to_nat (len (rdata s) - rpos s))) MScript.b_chunk (x, 2 ^ 32 - 1) s) (x, 2 ^ 32 - 1)).
  apply (chunked_passes MScript.b_chunk). unfold MScript.b_chunk. intros ty [v i]. cbv zeta. revert ty. unk.
Qed.
Lemma mesh_parts_pass : (forall m, passes_over (mrm_load m) m mrm_chunk_types) /\ (forall k, passes_over (skin_load k) k skin_chunk_types) /\
  (forall m, passes_over (mm_load m) m model_mesh_chunks) /\ (forall m, passes_over (morph_load m) m morph_chunk_types).
Proof. exact (conj mrm_passes (conj skin_passes (conj mm_passes morph_passes))). Qed.
