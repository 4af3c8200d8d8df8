(** Which exceptions loading throws. *)

From Coq Require Import Lia.
From Verif Require Import MBase MStream SStream LBase LStream MBoxes MTexture MModel MText MClasses MArchive SArchive.
From Verif Require Import MVob MVobs MNpc MCutscene MMaterial MWorld MLib MMesh MBsp MMrm MLevel SThrows.
Local Open Scope N_scope.
Local Open Scope m_scope.

(** ** Readers *)
Definition only (E : exn -> Prop) {S A} (m : M S A) : Prop := forall s e, m s = Throw e -> E e.
Definition honly (E : exn -> Prop) {A} (o : outcome A) : Prop := forall e, o = Throw e -> E e.
Section Core.
Variable E : exn -> Prop.
Let only_in {S A} (m : M S A) : Prop := only E m.
Let honly_in {A} (o : outcome A) : Prop := honly E o.
Lemma only_ret {S A} (a : A) : @only_in S A (ret a). Proof. intros s e H. discriminate. Qed.
Lemma only_undef {S A} : @only_in S A undef. Proof. intros s e H. discriminate. Qed.
Lemma only_fuel {S A} : @only_in S A fuelout. Proof. intros s e H. discriminate. Qed.
Lemma only_throw {S A} x : E x -> @only_in S A (throw x). Proof. intros Hx s e [= <-]. exact Hx. Qed.
Lemma only_bind {S A B} (m : M S A) (k : A -> M S B) : only_in m -> (forall a, only_in (k a)) -> only_in (bind m k).
Proof. intros Hm Hk s e H. unfold bind in H. destruct (m s) as [[a s1]|x| |] eqn:Em; [exact (Hk a s1 e H)|injection H as <-; exact (Hm s x Em)|discriminate|discriminate]. Qed.
Lemma only_lift {S A} (o : outcome A) : honly_in o -> @only_in S A (lift o).
Proof. intros Ho s e H. unfold lift in H. destruct o as [a|x| |]; try discriminate. injection H as <-. apply Ho. reflexivity. Qed.
Lemma only_rep {S A} n (m : M S A) : only_in m -> only_in (repM n m).
Proof. intros H. induction n as [|n IH]; cbn [repM]; [apply only_ret|]. apply only_bind; [exact H|]. intros a. apply only_bind; [exact IH|]. intros l. apply only_ret. Qed.
Lemma only_mapM {S A B} (f : A -> M S B) l : (forall a, only_in (f a)) -> only_in (mapM f l).
Proof. intros H. induction l as [|a l IH]; cbn [mapM]; [apply only_ret|]. apply only_bind; [apply H|]. intros b. apply only_bind; [exact IH|]. intros bs. apply only_ret. Qed.
Lemma honly_ret {A} (a : A) : honly_in (Ret a). Proof. discriminate. Qed.
Lemma honly_undef {A} : @honly_in A Undef. Proof. discriminate. Qed.
Lemma honly_bind {A B} (o : outcome A) (k : A -> outcome B) : honly_in o -> (forall a, honly_in (k a)) -> honly_in (obind o k).
Proof. intros Ho Hk e H. destruct o as [a|x| |]; cbn [obind] in H; [exact (Hk a e H)|injection H as <-; apply Ho; reflexivity|discriminate|discriminate]. Qed.
Lemma only_read n : only_in (rd_read n).
Proof. intros s e H. unfold rd_read in H. cbv zeta in H. destruct (len (rdata s) <? rpos s + _); discriminate. Qed.
Lemma only_seek o w : only_in (rd_seek o w).
Proof.
  intros s e H. unfold rd_seek in H. unfold seek_internal, ssize_add in H.
  destruct w; cbn [obind] in H; repeat match type of H with context [if ?b then _ else _] => destruct b; cbn [obind] in H end; discriminate.
Qed.
Lemma only_tell : only_in rd_tell. Proof. discriminate. Qed.
Lemma only_eof : only_in rd_eof. Proof. discriminate. Qed.
Lemma only_fun {S A} (f : S -> M S A) : (forall s, only_in (f s)) -> only_in (fun s => f s s).
Proof. intros H s e Hs. exact (H s s e Hs). Qed.
Lemma only_until n : only_in (read_until_eol n).
Proof.
  induction n as [|n IH]; cbn [read_until_eol]; [apply only_fuel|]. apply only_bind; [|intros c].
  - apply only_bind; [apply only_bind; [apply only_read|intros; apply only_ret]|intros; apply only_ret].
  - destruct (_ || _ || _)%bool; [apply only_ret|]. apply only_bind; [exact IH|]. intros. apply only_ret.
Qed.

Lemma only_skip_run n cs : only_in (skip_run n cs).
Proof.
  induction n as [|n IH]; cbn [skip_run]; [apply only_fuel|]. apply only_bind; [|intros c].
  - apply only_bind; [apply only_bind; [apply only_read|intros; apply only_ret]|intros; apply only_ret].
  - destruct (_ && _)%bool; [exact IH|apply only_ret].
Qed.
Lemma only_if {S A} (b : bool) (x y : M S A) : only_in x -> only_in y -> only_in (if b then x else y).
Proof. destruct b; auto. Qed.
Lemma only_line_ignore cs : only_in (read_line_then_ignore cs).
Proof.
  intros s. unfold read_line_then_ignore. set (n := S _). clearbody n. revert s. change (only E (let* r := read_until_eol n in let* e := rd_eof in
   if (match cs with [] => true | _ => false end) || beq (snd r) x00 || e then ret (fst r)
   else let* c := skip_run n cs in let* e := rd_eof in if e && beq c x00 then ret (fst r) else rd_seek (-1) CUR ;; ret (fst r))).
  apply only_bind; [apply only_until|intros r]. apply only_bind; [apply only_eof|intros e]. apply only_if; [apply only_ret|].
  apply only_bind; [apply only_skip_run|intros c]. apply only_bind; [apply only_eof|intros e']. apply only_if; [apply only_ret|].
  apply only_bind; [apply only_seek|intros; apply only_ret].
Qed.
Lemma only_chunked {A} (cb : N -> A -> rd (bool * A)) : (forall ty a, only_in (cb ty a)) -> forall n a, only_in (read_chunked n cb a).
Proof.
  intros H. induction n as [|n IH]; intros a; cbn [read_chunked]; [apply only_fuel|].
  apply only_bind; [apply only_bind; [apply only_bind; [apply only_read|intros; apply only_ret]|intros; apply only_ret]|intros ty].
  apply only_bind; [apply only_bind; [apply only_bind; [apply only_read|intros; apply only_ret]|intros; apply only_ret]|intros sz].
  apply only_bind; [apply only_tell|intros h]. apply only_bind; [apply H|intros r]. apply only_bind; [apply only_seek|intros _].
  apply only_if; [apply only_ret|]. apply only_bind; [apply only_eof|intros e]. apply only_if; [apply only_ret|apply IH].
Qed.
Lemma only_chunked_t {A} (cb : N -> N -> A -> rd (bool * N * A)) : (forall ty f a, only_in (cb ty f a)) -> forall n a, only_in (read_chunked_t n cb a).
Proof.
  intros H. induction n as [|n IH]; intros a; cbn [read_chunked_t]; [apply only_fuel|].
  apply only_bind; [apply only_bind; [apply only_bind; [apply only_read|intros; apply only_ret]|intros; apply only_ret]|intros ty].
  apply only_bind; [apply only_bind; [apply only_bind; [apply only_read|intros; apply only_ret]|intros; apply only_ret]|intros sz].
  apply only_bind; [apply only_tell|intros h]. apply only_bind; [apply H|intros [[d t] a']]. apply only_bind; [apply only_seek|intros _].
  apply only_if; [apply only_ret|]. apply only_bind; [apply only_eof|intros e]. apply only_if; [apply only_ret|apply IH].
Qed.
Lemma only_left {A} (m : nat -> rd A) : (forall n, only_in (m n)) -> only_in (fun s => m (S (N.to_nat (len (rdata s) - rpos s))) s).
Proof. intros H s e Hs. exact (H _ s e Hs). Qed.
(** ** Number texts *)
Lemma honly_stoi s : E ParserError -> E OutOfRange -> honly_in (stoi s).
Proof. intros H1 H2 e H. unfold stoi in H. destruct (scan_int s) as [[z r]|]; [destruct (_ && _)%bool; [discriminate|]|]; injection H as <-; assumption. Qed.
Lemma honly_stoul s : E ParserError -> E OutOfRange -> honly_in (stoul s).
Proof. intros H1 H2 e H. unfold stoul in H. destruct (scan_int s) as [[z r]|]; [destruct (_ <? _)%Z; [discriminate|]|]; injection H as <-; assumption. Qed.
End Core.

Create HintDb only.
Ltac ostep := first
  [ solve [auto 3 with only nocore] |
  lazymatch goal with
  | |- only _ (ret _) => apply only_ret
  | |- only _ undef => apply only_undef
  | |- only _ fuelout => apply only_fuel
  | |- only _ (throw _) => apply only_throw; assumption
  | |- only _ (bind _ _) => apply only_bind; [|intros]
  | |- only _ (repM _ _) => apply only_rep
  | |- only _ (mapM _ _) => apply only_mapM; intros
  | |- only _ (rd_fixed _) => unfold rd_fixed
  | |- only _ (read_line _) => unfold read_line
  | |- only _ (let _ := _ in _) => cbv zeta
  | |- only _ (match ?x with _ => _ end) => destruct x
  end ].
Ltac onlys := repeat ostep.
Global Hint Resolve only_read only_seek only_tell only_eof only_line_ignore : only.
Lemma on_read_char E : only E (read_char). Proof. unfold read_char. onlys. Qed.
Global Hint Resolve on_read_char : only.
Lemma on_read_ubyte E : only E (read_ubyte). Proof. unfold read_ubyte. onlys. Qed.
Global Hint Resolve on_read_ubyte : only.
Lemma on_read_ushort E : only E (read_ushort). Proof. unfold read_ushort. onlys. Qed.
Global Hint Resolve on_read_ushort : only.
Lemma on_read_uint E : only E (read_uint). Proof. unfold read_uint. onlys. Qed.
Global Hint Resolve on_read_uint : only.
Lemma on_read_byte E : only E (read_byte). Proof. unfold read_byte. onlys. Qed.
Global Hint Resolve on_read_byte : only.
Lemma on_read_short E : only E (read_short). Proof. unfold read_short. onlys. Qed.
Global Hint Resolve on_read_short : only.
Lemma on_read_int E : only E (read_int). Proof. unfold read_int. onlys. Qed.
Global Hint Resolve on_read_int : only.
Lemma on_read_float E : only E (read_float). Proof. unfold read_float. onlys. Qed.
Global Hint Resolve on_read_float : only.
Lemma on_read_vec2 E : only E (read_vec2). Proof. unfold read_vec2. onlys. Qed.
Global Hint Resolve on_read_vec2 : only.
Lemma on_read_vec3 E : only E (read_vec3). Proof. unfold read_vec3. onlys. Qed.
Global Hint Resolve on_read_vec3 : only.
Lemma on_read_mat3 E : only E (read_mat3). Proof. unfold read_mat3. onlys. Qed.
Global Hint Resolve on_read_mat3 : only.
Lemma on_read_mat4 E : only E (read_mat4). Proof. unfold read_mat4. onlys. Qed.
Global Hint Resolve on_read_mat4 : only.
Lemma on_read_string E n : only E (read_string n). Proof. unfold read_string. onlys. Qed.
Global Hint Resolve on_read_string : only.
Lemma on_date_load E : only E (date_load). Proof. unfold date_load. onlys. Qed.
Global Hint Resolve on_date_load : only.
Lemma on_aabb_load E : only E (aabb_load). Proof. unfold aabb_load. onlys. Qed.
Global Hint Resolve on_aabb_load : only.
(** ** Archives *)
Lemma on_rdl E {A} (m : rd A) : only E m -> only E (rdl m).
Proof. intros H s e Hs. unfold rdl in Hs. destruct (m (ra_r s)) as [[a r]|x| |] eqn:Em; try discriminate. injection Hs as <-. exact (H _ _ Em). Qed.
Lemma on_rgl E {St Ob A} (m : M St A) : only E m -> only E (@rgl St Ob A m).
Proof. intros H s e Hs. unfold rgl in Hs. destruct (m (rg_s s)) as [[a r]|x| |] eqn:Em; try discriminate. injection Hs as <-. exact (H _ _ Em). Qed.
Lemma on_r_back E n : only E (r_back n). Proof. apply only_seek. Qed.
Lemma on_top E : only E top_end. Proof. intros s e H. unfold top_end in H. destruct (ra_ends s); discriminate. Qed.
Lemma on_pop E : only E pop_end. Proof. intros s e H. unfold pop_end in H. destruct (ra_ends s); discriminate. Qed.
Global Hint Resolve on_r_back on_top on_pop : only.
(** What the readers of a format throw. *)
Definition thrown (f : fmt) (e : exn) : Prop := e = ParserError \/ (f = AAscii /\ e = OutOfRange).
Section Formats.
Variable E : exn -> Prop.
Hypothesis HP : E ParserError.
Lemma on_bin_read k : only E (bin_read k).
Proof using. destruct k; cbn [bin_read]; onlys. Qed.
Lemma on_meta t : only E (bs_meta t). Proof using HP. unfold bs_meta. onlys. Qed.
Lemma on_meta_len t : only E (bs_meta_len t). Proof using HP. unfold bs_meta_len. apply only_bind; [apply on_meta|intros; apply on_read_ushort]. Qed.
Lemma on_sized {A} t n (m : rd A) : only E m -> only E (bs_sized t n m).
Proof using HP. intros H. unfold bs_sized. apply only_bind; [apply on_meta_len|intros l]. onlys. Qed.
Lemma on_bs_read k : only E (bs_read k).
Proof using HP.
  destruct k; cbn [bs_read]; try (apply on_sized; onlys);
    (apply only_bind; [first [apply on_meta_len | apply on_meta] | intros; onlys]).
Qed.
Lemma on_entry t : only E (as_entry t). Proof using HP. unfold as_entry. cbv zeta. onlys. Qed.
Lemma on_hex k s : honly E (hex_strict k s).
Proof using.
  revert s. induction k as [|k IH]; intros s; cbn [hex_strict]; [apply honly_ret|]. destruct s as [|a [|b s]]; try apply honly_undef.
  destruct (hex_byte a b); [|apply honly_undef]. apply honly_bind; [apply IH|intros; apply honly_ret].
Qed.
Section Text.
Hypothesis HO : E OutOfRange.
Lemma on_stof s : honly E (stof s).
Proof using HP HO.
  intros e H. unfold stof in H. 
  repeat match type of H with
  | context [match ?x with _ => _ end] => destruct x; try discriminate
  end; try (injection H as <-; assumption).
Qed.
Lemma on_as_read k : only E (as_read k).
Proof using HP HO.
  destruct k; cbn [as_read]; try apply on_entry; (apply only_bind; [apply on_entry|intros t]); cbv zeta; try apply only_ret;
    try (apply only_lift, honly_stoi; assumption); try (apply only_lift, on_stof; assumption);
    try (apply only_bind; [apply only_lift, honly_stoul; assumption|intros; apply only_ret]).
  - onlys.
  - apply only_if; [apply only_throw; exact HP|]. apply only_bind; [apply only_lift, on_hex|intros; apply only_ret].
  - onlys.
Qed.
End Text.
Lemma on_ar_read f k : (f = AAscii -> E OutOfRange) -> only E (ar_read f k).
Proof using HP. intros H. destruct f; cbn [ar_read]; apply on_rdl; [apply on_bin_read|apply on_bs_read|apply on_as_read, H; reflexivity]. Qed.
Lemma on_bin_begin : only E bin_begin.
Proof using.
  unfold bin_begin. repeat first [apply on_rdl | ostep]. intros s e H. discriminate.
Qed.
Lemma on_atoi s : honly E (atoi s).
Proof using. intros e H. unfold atoi in H. destruct (scan_int s) as [[z r]|]; [destruct (_ && _)%bool|]; discriminate. Qed.
Lemma on_bs_head l : honly E (bs_head l).
Proof using.
  unfold bs_head. destruct l as [|c l]; [apply honly_ret|]. destruct (negb (beq c x5b)); [apply honly_ret|].
  destruct (tokens bs_delim l []) as [|a [|b [|v [|i t]]]]; try apply honly_ret.
  apply honly_bind; [apply on_atoi|intros]. apply honly_bind; [apply on_atoi|intros]. apply honly_ret.
Qed.
Lemma on_bs_begin : only E bs_begin.
Proof using. unfold bs_begin. repeat first [apply only_lift, on_bs_head | ostep]. Qed.
Lemma on_as_begin : only E as_begin.
Proof using. unfold as_begin. onlys. Qed.
Lemma on_ar_begin f : only E (ar_begin f).
Proof using. destruct f; cbn [ar_begin]; [apply on_bin_begin|apply on_rdl, on_bs_begin|apply on_rdl, on_as_begin]. Qed.
Lemma on_ar_end f : only E (ar_end f).
Proof using. destruct f; cbn [ar_end]; [unfold bin_end|apply on_rdl; unfold bs_end|apply on_rdl; unfold as_end]; repeat first [apply on_rdl | ostep]. Qed.
Lemma on_skip_entry f : only E (ar_skip_entry f).
Proof using HP.
  destruct f; cbn [ar_skip_entry]; [apply only_throw, HP|apply on_rdl; unfold bs_skip_entry|apply on_rdl; unfold as_skip_entry];
  repeat first [apply only_if | ostep].
Qed.
Lemma on_skip_loop f n : forall l, only E (skip_loop n f l).
Proof using HP.
  induction n as [|n IH]; intros l; cbn [skip_loop]; [apply only_fuel|]. apply only_bind; [apply on_ar_begin|intros b].
  apply only_bind; [|intros l'; apply only_if; [apply IH|apply only_ret]]. destruct b; [apply only_ret|].
  apply only_bind; [apply on_ar_end|intros e]. apply only_if; [apply only_ret|]. apply only_bind; [apply on_skip_entry|intros; apply only_ret].
Qed.
Lemma on_ar_skip f b : only E (ar_skip f b).
Proof using HP.
  destruct f; cbn [ar_skip]; [unfold bin_skip; repeat first [apply on_rdl | ostep]|intros s; apply on_skip_loop|intros s; apply on_skip_loop].
Qed.

(** ** Programs *)
Inductive ponly {A} : prog oid A -> Prop :=
| ponly_ret a : ponly (PRet a)
| ponly_throw e : E e -> ponly (PThrow e)
| ponly_undef : ponly PUndef
| ponly_fuel : ponly PFuel
| ponly_read k c : (forall v, ponly (c v)) -> ponly (PRead k c)
| ponly_obj c : (forall o, ponly (c o)) -> ponly (PObj c)
| ponly_begin c : (forall o, ponly (c o)) -> ponly (PBegin c)
| ponly_end c : (forall o, ponly (c o)) -> ponly (PEnd c)
| ponly_skip b p : ponly p -> ponly (PSkip b p).
Lemma ponly_bind {A B} (p : prog oid A) (k : A -> prog oid B) : ponly p -> (forall a, ponly (k a)) -> ponly (pbind p k).
Proof using. intros H Hk. induction H; cbn [pbind]; try (constructor; assumption). apply Hk. Qed.
Lemma ponly_rep {A} n (p : prog oid A) : ponly p -> ponly (p_rep n p).
Proof using. intros H. induction n as [|n IH]; cbn [p_rep]; [constructor|]. apply ponly_bind; [exact H|]. intros a. apply ponly_bind; [exact IH|]. intros l. constructor. Qed.
Lemma ponly_lift {A} (o : outcome A) : honly E o -> ponly (p_lift o).
Proof using. intros H. destruct o; cbn [p_lift]; constructor. apply H. reflexivity. Qed.
Lemma ponly_raw {A} n (m : rd A) : only E m -> ponly (p_raw n m).
Proof using.
  intros Hm. unfold p_raw, p_rd. cbn [pbind]. constructor. intros b. apply ponly_lift. intros e He. unfold from_raw in He.
  destruct (m (mkR b 0)) as [[a s]|x| |] eqn:Em; try discriminate. injection He as <-. exact (Hm _ _ Em).
Qed.
Lemma on_runp {Ob A} f (fl : Ob -> Z) rec (p : prog oid A) : (f = AAscii -> E OutOfRange) -> only E rec -> ponly p -> only E (runp (fmt_prims f) fl rec p).
Proof using HP.
  intros Hf Hrec H. induction H; cbn [runp].
  - apply only_ret.
  - apply only_throw. assumption.
  - apply only_undef.
  - apply only_fuel.
  - apply only_bind; [apply on_rgl, on_ar_read, Hf|assumption].
  - apply only_bind; [exact Hrec|intros r]. intros g. match goal with H : forall o, only E _ |- _ => apply H end.
  - apply only_bind; [apply on_rgl, on_ar_begin|assumption].
  - apply only_bind; [apply on_rgl, on_ar_end|assumption].
  - apply only_bind; [apply on_rgl, on_ar_skip|intros _; assumption].
Qed.
Lemma on_read_obj {Ob} f load (fl : Ob -> Z) : (f = AAscii -> E OutOfRange) -> (forall t p, load t = Some p -> ponly p) ->
  forall n, only E (read_obj (fmt_prims f) load fl n).
Proof using HP.
  intros Hf Hl. induction n as [|n IH]; cbn [read_obj]; [apply only_fuel|].
  apply only_bind; [apply on_rgl, on_ar_begin|intros [h|]]; [|apply only_ret].
  apply only_if; [|apply only_if].
  - apply only_bind; [apply on_rgl, on_ar_end|intros e]. apply only_bind; [apply only_if; [apply only_ret|apply on_rgl, on_ar_skip]|]. intros _ s x H. discriminate.
  - apply only_bind; [apply on_rgl, on_ar_skip|intros _; apply only_ret].
  - cbv zeta. apply only_bind.
    + destruct (load (type_of_class (oh_class h))) as [p|] eqn:El; [|apply only_ret].
      intros g. refine (only_bind E _ _ (on_runp f fl _ p Hf IH (Hl _ p El)) _ _). intros v s x H. discriminate.
    + intros made. apply only_bind; [apply on_rgl, on_ar_end|intros e]. apply only_bind; [apply only_if; [apply only_ret|apply on_rgl, on_ar_skip]|]. intros _. apply only_ret.
Qed.
End Formats.
Create HintDb ponly.
Ltac postep := first
  [ solve [auto 2 with ponly nocore] |
  lazymatch goal with
  | |- ponly _ (PRet _) => apply ponly_ret
  | |- ponly _ (PThrow _) => apply ponly_throw; assumption
  | |- ponly _ PUndef => apply ponly_undef
  | |- ponly _ PFuel => apply ponly_fuel
  | |- ponly _ (PRead _ _) => apply ponly_read; intros
  | |- ponly _ (PObj _) => apply ponly_obj; intros
  | |- ponly _ (PBegin _) => apply ponly_begin; intros
  | |- ponly _ (PEnd _) => apply ponly_end; intros
  | |- ponly _ (PSkip _ _) => apply ponly_skip
  | |- ponly _ (p_rd _) => apply ponly_read; intros; apply ponly_ret
  | |- ponly _ (p_raw _ _) => apply ponly_raw; solve [onlys]
  | |- ponly _ (p_rep _ _) => apply ponly_rep
  | |- ponly _ (p_map _ _) => unfold p_map
  | |- ponly _ (pbind _ _) => apply ponly_bind; [|intros]
  | |- ponly _ (match ?x with _ => _ end) => destruct x
  end ].
Ltac ponlys := repeat postep.
Section Programs.
Variable E : exn -> Prop.
Hypothesis HP : E ParserError.
Hypothesis HX : E OtherExn.
Lemma po_packed c : only E (read_packed c). Proof using. unfold read_packed. onlys. Qed.
Lemma po_p_obj t : ponly E (p_obj t). Proof using HP. unfold p_obj. ponlys. Qed.
Lemma po_p_any : ponly E p_any. Proof using. unfold p_any. ponlys. Qed.
Lemma po_skips n : ponly E (p_skips n). Proof using. induction n as [|n IH]; cbn [p_skips]; ponlys. Qed.
Lemma po_colors : forall n v s, honly E (stream_colors n v s).
Proof using.
  induction n as [|n IH]; intros v s; cbn [stream_colors]; [discriminate|].
  assert (G : forall w col rest, honly E (match rest with Some r => obind (stream_colors n w r) (fun l => Ret (col :: l)) | None => Ret [col] end)).
  { intros w col [r|]; [|apply honly_ret]. apply honly_bind; [apply IH|intros; apply honly_ret]. }
  destruct (drop_while MText.is_ws s) as [|ch s1]; [apply honly_ret|]. cbv zeta. destruct (is_digit ch).
  - destruct (stream_u32 (ch :: s1)) as [r rest]. apply G.
  - destruct (stream_rgb v s1) as [[[[r|] [g|]] [b|]] rest]; try apply honly_undef. apply G.
Qed.
Lemma po_sorted l : honly E (sorted_lib l).
Proof using. unfold sorted_lib. destruct (named l); [discriminate|]. destruct l as [|[a|] [|b l]]; discriminate. Qed.
Hint Resolve po_packed on_read_string : only.
Hint Resolve po_p_obj po_p_any po_skips : ponly.
Lemma po_sample : only E read_sample. Proof using. unfold read_sample. onlys. Qed.
Hint Resolve po_sample : only.
Lemma po_keyframes : ponly E p_keyframes. Proof using. unfold p_keyframes. ponlys. Qed.
Hint Resolve po_keyframes : ponly.
Lemma po_p_vob : ponly E (p_vob). Proof using HP HX. unfold p_vob. ponlys. Qed.
Hint Resolve po_p_vob : ponly.
Lemma po_p_visual : ponly E (p_visual). Proof using HP HX. unfold p_visual. ponlys. Qed.
Hint Resolve po_p_visual : ponly.
Lemma po_p_size : ponly E (p_size). Proof using HP HX. unfold p_size. ponlys. Qed.
Hint Resolve po_p_size : ponly.
Lemma po_p_upto : ponly E (p_upto). Proof using HP HX. unfold p_upto. ponlys. Qed.
Hint Resolve po_p_upto : ponly.
Lemma po_load_decal (c : cfg) : ponly E (load_decal c). Proof using HP HX. unfold load_decal. ponlys. Qed.
Hint Resolve po_load_decal : ponly.
Lemma po_load_body (c : cfg) : ponly E (load_body c). Proof using HP HX. unfold load_body. ponlys. Qed.
Hint Resolve po_load_body : ponly.
Lemma po_load_evman (c : cfg) : ponly E (load_evman c). Proof using HP HX. unfold load_evman. ponlys. Qed.
Hint Resolve po_load_evman : ponly.
Lemma po_load_aihuman (c : cfg) : ponly E (load_aihuman c). Proof using HP HX. unfold load_aihuman. ponlys. Qed.
Hint Resolve po_load_aihuman : ponly.
Lemma po_load_aimove (c : cfg) : ponly E (load_aimove c). Proof using HP HX. unfold load_aimove. ponlys. Qed.
Hint Resolve po_load_aimove : ponly.
Lemma po_p_if_str (b : bool) : ponly E (p_if_str b). Proof using HP HX. unfold p_if_str. ponlys. Qed.
Hint Resolve po_p_if_str : ponly.
Lemma po_load_packed (c : cfg) : ponly E (load_packed c). Proof using HP HX. unfold load_packed. ponlys. Qed.
Hint Resolve po_load_packed : ponly.
Lemma po_load_unpacked (c : cfg) : ponly E (load_unpacked c). Proof using HP HX. unfold load_unpacked. ponlys. Qed.
Hint Resolve po_load_unpacked : ponly.
Lemma po_load_vob (c : cfg) : ponly E (load_vob c). Proof using HP HX. unfold load_vob. ponlys. Qed.
Hint Resolve po_load_vob : ponly.
Lemma po_p_flag : ponly E (p_flag). Proof using HP HX. unfold p_flag. ponlys. Qed.
Hint Resolve po_p_flag : ponly.
Lemma po_load_trigger (c : cfg) : ponly E (load_trigger c). Proof using HP HX. unfold load_trigger. ponlys. Qed.
Hint Resolve po_load_trigger : ponly.
Lemma po_load_mover (c : cfg) : ponly E (load_mover c). Proof using HP HX. unfold load_mover. ponlys. Qed.
Hint Resolve po_load_mover : ponly.
Lemma po_p_target : ponly E (p_target). Proof using HP HX. unfold p_target. ponlys. Qed.
Hint Resolve po_p_target : ponly.
Lemma po_load_tlist (c : cfg) : ponly E (load_tlist c). Proof using HP HX. unfold load_tlist. ponlys. Qed.
Hint Resolve po_load_tlist : ponly.
Lemma po_load_tscript (c : cfg) : ponly E (load_tscript c). Proof using HP HX. unfold load_tscript. ponlys. Qed.
Hint Resolve po_load_tscript : ponly.
Lemma po_load_tlevel (c : cfg) : ponly E (load_tlevel c). Proof using HP HX. unfold load_tlevel. ponlys. Qed.
Hint Resolve po_load_tlevel : ponly.
Lemma po_load_tstart (c : cfg) : ponly E (load_tstart c). Proof using HP HX. unfold load_tstart. ponlys. Qed.
Hint Resolve po_load_tstart : ponly.
Lemma po_load_tuntouch (c : cfg) : ponly E (load_tuntouch c). Proof using HP HX. unfold load_tuntouch. ponlys. Qed.
Hint Resolve po_load_tuntouch : ponly.
Lemma po_load_movable (c : cfg) : ponly E (load_movable c). Proof using HP HX. unfold load_movable. ponlys. Qed.
Hint Resolve po_load_movable : ponly.
Lemma po_load_interactive (c : cfg) : ponly E (load_interactive c). Proof using HP HX. unfold load_interactive. ponlys. Qed.
Hint Resolve po_load_interactive : ponly.
Lemma po_load_container (c : cfg) : ponly E (load_container c). Proof using HP HX. unfold load_container. ponlys. Qed.
Hint Resolve po_load_container : ponly.
Lemma po_load_door (c : cfg) : ponly E (load_door c). Proof using HP HX. unfold load_door. ponlys. Qed.
Hint Resolve po_load_door : ponly.
Lemma po_load_fire (c : cfg) : ponly E (load_fire c). Proof using HP HX. unfold load_fire. ponlys. Qed.
Hint Resolve po_load_fire : ponly.
Lemma po_load_sound (c : cfg) : ponly E (load_sound c). Proof using HP HX. unfold load_sound. ponlys. Qed.
Hint Resolve po_load_sound : ponly.
Lemma po_load_daysound (c : cfg) : ponly E (load_daysound c). Proof using HP HX. unfold load_daysound. ponlys. Qed.
Hint Resolve po_load_daysound : ponly.
Lemma po_load_music (c : cfg) : ponly E (load_music c). Proof using HP HX. unfold load_music. ponlys. Qed.
Hint Resolve po_load_music : ponly.
Lemma po_load_farplane (c : cfg) : ponly E (load_farplane c). Proof using HP HX. unfold load_farplane. ponlys. Qed.
Hint Resolve po_load_farplane : ponly.
Lemma po_load_fog (c : cfg) : ponly E (load_fog c). Proof using HP HX. unfold load_fog. ponlys. Qed.
Hint Resolve po_load_fog : ponly.
Lemma po_load_camframe (c : cfg) : ponly E (load_camframe c). Proof using HP HX. unfold load_camframe. ponlys. Qed.
Hint Resolve po_load_camframe : ponly.
Lemma po_p_frames (n : Z) : ponly E (p_frames n). Proof using HP HX. unfold p_frames. ponlys. Qed.
Hint Resolve po_p_frames : ponly.
Lemma po_load_cscamera (c : cfg) : ponly E (load_cscamera c). Proof using HP HX. unfold load_cscamera. ponlys. Qed.
Hint Resolve po_load_cscamera : ponly.
Lemma po_load_dyn (c : cfg) : ponly E (load_dyn c). Proof using HP HX. unfold load_dyn. repeat first [apply ponly_lift, po_colors | postep]. Qed.
Hint Resolve po_load_dyn : ponly.
Lemma po_load_light (c : cfg) : ponly E (load_light c). Proof using HP HX. unfold load_light. ponlys. Qed.
Hint Resolve po_load_light : ponly.
Lemma po_load_animate (c : cfg) : ponly E (load_animate c). Proof using HP HX. unfold load_animate. ponlys. Qed.
Hint Resolve po_load_animate : ponly.
Lemma po_load_item (c : cfg) : ponly E (load_item c). Proof using HP HX. unfold load_item. ponlys. Qed.
Hint Resolve po_load_item : ponly.
Lemma po_load_lensflare (c : cfg) : ponly E (load_lensflare c). Proof using HP HX. unfold load_lensflare. ponlys. Qed.
Hint Resolve po_load_lensflare : ponly.
Lemma po_load_pfxctl (c : cfg) : ponly E (load_pfxctl c). Proof using HP HX. unfold load_pfxctl. ponlys. Qed.
Hint Resolve po_load_pfxctl : ponly.
Lemma po_load_msgfilter (c : cfg) : ponly E (load_msgfilter c). Proof using HP HX. unfold load_msgfilter. ponlys. Qed.
Hint Resolve po_load_msgfilter : ponly.
Lemma po_load_codemaster (c : cfg) : ponly E (load_codemaster c). Proof using HP HX. unfold load_codemaster. ponlys. Qed.
Hint Resolve po_load_codemaster : ponly.
Lemma po_load_movctl (c : cfg) : ponly E (load_movctl c). Proof using HP HX. unfold load_movctl. ponlys. Qed.
Hint Resolve po_load_movctl : ponly.
Lemma po_load_touchdmg (c : cfg) : ponly E (load_touchdmg c). Proof using HP HX. unfold load_touchdmg. ponlys. Qed.
Hint Resolve po_load_touchdmg : ponly.
Lemma po_load_quake (c : cfg) : ponly E (load_quake c). Proof using HP HX. unfold load_quake. ponlys. Qed.
Hint Resolve po_load_quake : ponly.
Lemma po_load_screenfx (c : cfg) : ponly E (load_screenfx c). Proof using HP HX. unfold load_screenfx. ponlys. Qed.
Hint Resolve po_load_screenfx : ponly.
Lemma po_load_talent (c : cfg) : ponly E (load_talent c). Proof using HP HX. unfold load_talent. ponlys. Qed.
Hint Resolve po_load_talent : ponly.
Lemma po_p_news : ponly E (p_news). Proof using HP HX. unfold p_news. ponlys. Qed.
Hint Resolve po_p_news : ponly.
Lemma po_p_slot : ponly E (p_slot). Proof using HP HX. unfold p_slot. ponlys. Qed.
Hint Resolve po_p_slot : ponly.
Lemma po_p_item : ponly E (p_item). Proof using HP HX. unfold p_item. ponlys. Qed.
Hint Resolve po_p_item : ponly.
Lemma po_p_count32 : ponly E (p_count32). Proof using HP HX. unfold p_count32. ponlys. Qed.
Hint Resolve po_p_count32 : ponly.
Lemma po_p_packed (c : cfg) : ponly E (p_packed c). Proof using HP HX. unfold p_packed. ponlys. Qed.
Hint Resolve po_p_packed : ponly.
Lemma po_p_vars (c : cfg) : ponly E (p_vars c). Proof using HP HX. unfold p_vars. ponlys. Qed.
Hint Resolve po_p_vars : ponly.
Lemma po_load_npc (c : cfg) : ponly E (load_npc c). Proof using HP HX. unfold load_npc. ponlys. Qed.
Hint Resolve po_load_npc : ponly.
Lemma po_load_message (c : cfg) : ponly E (load_message c). Proof using HP HX. unfold load_message. ponlys. Qed.
Hint Resolve po_load_message : ponly.
Lemma po_load_atomic (c : cfg) : ponly E (load_atomic c). Proof using HP HX. unfold load_atomic. ponlys. Qed.
Hint Resolve po_load_atomic : ponly.
Lemma po_p_sub : ponly E (p_sub). Proof using HP HX. unfold p_sub. ponlys. Qed.
Hint Resolve po_p_sub : ponly.
Lemma po_p_one : ponly E (p_one). Proof using HP HX. unfold p_one. ponlys. Qed.
Hint Resolve po_p_one : ponly.
Lemma po_load_cblock (c : cfg) : ponly E (load_cblock c). Proof using HP HX. unfold load_cblock. ponlys. Qed.
Hint Resolve po_load_cblock : ponly.
Lemma po_p_blk : ponly E (p_blk). Proof using HP HX. unfold p_blk. ponlys. Qed.
Hint Resolve po_p_blk : ponly.
Lemma po_load_cslib (c : cfg) : ponly E (load_cslib c). Proof using HP HX. unfold load_cslib. repeat first [apply ponly_lift, po_sorted | postep]. Qed.
Hint Resolve po_load_cslib : ponly.
Lemma po_load_csprops (c : cfg) : ponly E (load_csprops c). Proof using HP HX. unfold load_csprops. ponlys. Qed.
Hint Resolve po_load_csprops : ponly.
Lemma po_load_cscontext (c : cfg) : ponly E (load_cscontext c). Proof using HP HX. unfold load_cscontext. ponlys. Qed.
Hint Resolve po_load_cscontext : ponly.
Lemma po_load_savemeta (c : cfg) : ponly E (load_savemeta c). Proof using HP HX. unfold load_savemeta. ponlys. Qed.
Hint Resolve po_load_savemeta : ponly.
Lemma po_load_poolitem (c : cfg) : ponly E (load_poolitem c). Proof using HP HX. unfold load_poolitem. ponlys. Qed.
Hint Resolve po_load_poolitem : ponly.
Lemma po_load_csmanager (c : cfg) : ponly E (load_csmanager c). Proof using HP HX. unfold load_csmanager. ponlys. Qed.
Hint Resolve po_load_csmanager : ponly.
Lemma po_load_csplayer (c : cfg) : ponly E (load_csplayer c). Proof using HP HX. unfold load_csplayer. ponlys. Qed.
Hint Resolve po_load_csplayer : ponly.
Lemma po_load_sky (c : cfg) : ponly E (load_sky c). Proof using HP HX. unfold load_sky. ponlys. Qed.
Hint Resolve po_load_sky : ponly.
Lemma po_p_enum8 : ponly E (p_enum8). Proof using HP HX. unfold p_enum8. ponlys. Qed.
Hint Resolve po_p_enum8 : ponly.
Lemma po_load_material (c : cfg) : ponly E (load_material c). Proof using HP HX. unfold load_material. ponlys. Qed.
Hint Resolve po_load_material : ponly.
Lemma po_load_waypoint (c : cfg) : ponly E (load_waypoint c). Proof using HP HX. unfold load_waypoint. ponlys. Qed.
Hint Resolve po_load_waypoint : ponly.
Lemma po_p_point : ponly E (p_point). Proof using HP HX. unfold p_point. ponlys. Qed.
Hint Resolve po_p_point : ponly.
Lemma po_p_edge : ponly E (p_edge). Proof using HP HX. unfold p_edge. ponlys. Qed.
Hint Resolve po_p_edge : ponly.
Lemma po_load_waynet (c : cfg) : ponly E (load_waynet c). Proof using HP HX. unfold load_waynet. ponlys. Qed.
Hint Resolve po_load_waynet : ponly.
Lemma po_skip_trees : forall d n, ponly E (p_skip_trees d n).
Proof using HP HX.
  induction d as [|d IH]; [intros n; apply ponly_fuel|]. cbn [p_skip_trees]. induction n as [|n IHn]; [apply ponly_ret|].
  apply ponly_skip. apply ponly_bind; [ponlys|intros k]. destruct (k <? 0)%Z; (apply ponly_bind; [apply IH|intros _]); [apply ponly_fuel | exact IHn].
Qed.
Hint Resolve po_skip_trees : ponly.
Lemma po_tree : forall d, ponly E (p_tree d).
Proof using HP HX. induction d as [|d IH]; cbn [p_tree]; ponlys. Qed.
Hint Resolve po_tree : ponly.
Lemma po_section c n s : ponly E (p_section c n s). Proof using HP HX. unfold p_section. ponlys. Qed.
Hint Resolve po_section : ponly.
Lemma po_sections c : forall n s, ponly E (p_sections c n s).
Proof using HP HX. induction n as [|n IH]; intros s; cbn [p_sections]; ponlys. Qed.
Hint Resolve po_sections : ponly.
Lemma po_spawn : ponly E p_spawn. Proof using HP HX. unfold p_spawn. ponlys. Qed.
Hint Resolve po_spawn : ponly.
Lemma po_tail c f : ponly E (p_tail c f). Proof using HP HX. unfold p_tail. ponlys. Qed.
Hint Resolve po_tail : ponly.
Lemma po_world c : ponly E (load_world c). Proof using HP HX. unfold load_world. ponlys. Qed.
Hint Resolve po_world : ponly.
Lemma po_classes c t p : object_load c t = Some p -> ponly E p.
Proof using HP HX. destruct t; cbn [object_load]; try discriminate; intros [= <-]; unfold p_map; ponlys. Qed.

(** ** Headers *)
Section Text.
Hypothesis HO : E OutOfRange.
Lemma on_stoi {S} s : only E (S := S) (lift (stoi s)). Proof using HP HO. apply only_lift, honly_stoi; assumption. Qed.
Hint Resolve on_stoi : only.
Lemma on_head : only E head_load. Proof using HP HO. unfold head_load. cbv zeta. onlys. Qed.
Lemma on_objects l : only E l -> only E (objects_header l). Proof using HP HO. intros H. unfold objects_header. onlys. Qed.
Lemma on_table : forall f n size, only E (bs_table f n size).
Proof using. induction f as [|f IH]; intros n size; cbn [bs_table]; onlys. Qed.
Lemma on_bs_header : only E bs_header. Proof using. unfold bs_header. repeat first [apply on_table | ostep]. Qed.
Lemma on_open : only E ar_open.
Proof using HP HO.
  unfold ar_open. apply only_bind; [apply on_head|intros h]. apply only_bind; [|intros; apply only_ret].
  destruct (ah_format h); [apply on_objects, only_line_ignore|apply on_bs_header|apply on_objects, only_line_ignore].
Qed.
End Text.
End Programs.

(** ** Other files *)
Section Files.
Variable E : exn -> Prop.
Hypothesis HP : E ParserError.
Lemma on_color : only E color_load. Proof using. unfold color_load. onlys. Qed.
Hint Resolve on_color : only.
Lemma on_tex_load t : only E (tex_load t).
Proof using HP. unfold tex_load. cbv zeta. repeat first [apply only_if | ostep]. Qed.
Lemma on_font : only E font_load.
Proof using HP. unfold font_load. onlys. Qed.
End Files.
Section Never.
Variable E : exn -> Prop.
Lemma on_hnode : only E hnode_load. Proof using. unfold hnode_load. onlys. Qed.
Hint Resolve on_hnode : only.
Lemma on_hier h : only E (hier_load h).
Proof using. apply (only_left E (fun n => read_chunked n hier_chunk h)). intros n. apply only_chunked. intros ty a. unfold hier_chunk. repeat first [apply only_if | ostep]. Qed.
Lemma on_nodes g1 : forall n cap p l ns ls, only E (parse_nodes n g1 cap p l ns ls).
Proof using. induction n as [|n IH]; intros; cbn [parse_nodes]; onlys. Qed.
Lemma on_node_polygons l : forall n s, honly E (node_polygons l s n).
Proof using. induction n as [|n IH]; intros s; cbn [node_polygons]; [apply honly_ret|]. destruct (nth_N l (u32 s)); [|apply honly_undef]. apply honly_bind; [apply IH|intros; apply honly_ret]. Qed.
Lemma on_gather ps ns : forall ls, honly E (gather ps ns ls).
Proof using.
  induction ls as [|l ls IH]; cbn [gather]; [apply honly_ret|].
  repeat match goal with |- honly _ (match ?x with _ => _ end) => destruct x end; try apply honly_undef; try apply honly_ret.
  all: repeat (apply honly_bind; [first [apply on_node_polygons | apply IH] | intros]); apply honly_ret.
Qed.
Lemma on_sector : only E sector_load. Proof using. unfold sector_load. onlys. Qed.
Hint Resolve on_sector : only.
Lemma on_bsp t v : only E (bsp_load t v).
Proof using.
  apply (only_left E (fun n => read_chunked n (bsp_chunk (v =? version_g1)) t)). intros n. apply only_chunked. intros ty a. unfold bsp_chunk.
  repeat first [apply only_if | apply only_lift, on_gather | ostep]. intros s. apply on_nodes.
Qed.
Lemma on_sample po ro a b : only E (sample_load po ro a b). Proof using. unfold sample_load. onlys. Qed.
Hint Resolve on_sample : only.
Lemma on_aevent : only E aevent_load. Proof using. unfold aevent_load. onlys. Qed.
Hint Resolve on_aevent : only.
Lemma on_ani po ro a : only E (ani_load po ro a).
Proof using.
  apply (only_left E (fun n => read_chunked n (ani_chunk po ro) a)). intros n. apply only_chunked. intros ty x. unfold ani_chunk.
  repeat first [apply only_if | ostep].
Qed.
End Never.
Section Meshes.
Variable E : exn -> Prop.
Hypothesis HP : E ParserError.
Hypothesis HO : E OutOfRange.
Lemma po_mat : ponly E mat_load. Proof using HP. unfold mat_load, load_material, p_enum8. ponlys. Qed.
Lemma on_mats f n : only E (fun r => match runp (Ob := unit) (fmt_prims f) (fun _ => 0%Z) undef (p_rep n mat_load) (mkRg (mkRar r []) [] []) with
    | Ret (l, g) => Ret (l, ra_r (rg_s g)) | Throw e => Throw e | Undef => Undef | Fuel => Fuel end).
Proof using HP HO.
  intros r e H. pose proof (on_runp E HP (Ob := unit) f (fun _ => 0%Z) undef (p_rep n mat_load) (fun _ => HO) (only_undef E) (ponly_rep E n _ po_mat)) as O.
  destruct (runp _ _ _ _ _) as [[a g]|x| |] eqn:Er; try discriminate. injection H as <-. exact (O _ _ Er).
Qed.
Lemma on_mats_load : only E mats_load.
Proof using HP HO. unfold mats_load. apply only_bind; [apply on_open; assumption|intros h]. apply only_bind; [apply on_read_uint|intros n]. apply on_mats. Qed.
Lemma on_mrm_mats n : only E (mrm_mats_load n).
Proof using HP HO. unfold mrm_mats_load. apply only_bind; [apply on_open; assumption|intros h]. apply on_mats. Qed.
Hint Resolve on_mats_load on_mrm_mats : only.
Lemma on_tex : forall t, only E (tex_load t). Proof using HP. intros t. apply on_tex_load, HP. Qed.
Hint Resolve on_tex : only.

Lemma on_obb_f : forall n, only E (obb_load_f n).
Proof using. induction n as [|n IH]; cbn [obb_load_f]; onlys. Qed.
Lemma on_obb : only E obb_load. Proof using. intros s. apply on_obb_f. Qed.
Hint Resolve on_obb : only.
Lemma on_polys v w : forall old off vs fs, only E (polys_load v w old off vs fs).
Proof using.
  induction old as [|p old IH]; intros; cbn [polys_load]; [apply only_ret|]. unfold flags_load, corner_load.
  repeat first [apply only_if | apply IH | ostep].
Qed.
Hint Resolve on_polys : only.
Lemma on_lightmap b c : only E (lightmap_load b c). Proof using. unfold lightmap_load. onlys. Qed.
Lemma on_own : forall n b, only E (own_lightmaps n b). Proof using HP. induction n as [|n IH]; intros; cbn [own_lightmaps]; onlys. Qed.
Lemma on_feature : only E feature_load. Proof using. unfold feature_load. onlys. Qed.
Hint Resolve on_lightmap on_own on_feature : only.
Lemma on_mesh m w : only E (mesh_load m w).
Proof using HP HO.
  unfold mesh_load. intros s. refine (only_bind E _ _ _ _ s); [|intros; apply only_ret].
  apply only_chunked. intros ty [v x]. unfold mesh_chunk. repeat first [apply only_if | ostep].
Qed.
Hint Resolve on_mesh : only.
Lemma on_at {A} s (r : rd A) : only E r -> only E (at_section s r). Proof using. intros H. unfold at_section. onlys. Qed.
Lemma on_section o : only E (section_load o). Proof using. unfold section_load. onlys. Qed.
Hint Resolve on_section : only.
Lemma on_map o : only E (map_load o). Proof using. unfold map_load. onlys. Qed.
Lemma on_sub m mat : only E (sub_load m mat).
Proof using. unfold sub_load, short3_load, short2_load, wedge_load, mplane_load. repeat first [apply on_at | ostep]. Qed.
Lemma on_subs l : only E (subs_load l). Proof using. unfold subs_load. apply only_mapM. intros a. apply on_sub. Qed.
Hint Resolve on_map on_subs : only.
Lemma on_mrm_section m : only E (mrm_section_load m).
Proof using HP HO. unfold mrm_section_load. repeat first [apply on_at | apply only_if | ostep]. Qed.
Hint Resolve on_mrm_section : only.
Lemma on_mrm m : only E (mrm_load m).
Proof using HP HO. apply (only_left E (fun n => read_chunked n mrm_chunk m)). intros n. apply only_chunked. intros ty x. unfold mrm_chunk. onlys. Qed.
Lemma on_skin_nodes m : only E (skin_nodes_load m).
Proof using. unfold skin_nodes_load, weights_load, weight_load, wnormal_load. cbv zeta. repeat first [apply only_if | ostep]. Qed.
Hint Resolve on_skin_nodes : only.
Lemma on_skin k : only E (skin_load k).
Proof using HP HO. apply (only_left E (fun n => read_chunked n skin_chunk k)). intros n. apply only_chunked. intros ty x. unfold skin_chunk. onlys. Qed.
Hint Resolve on_skin : only.
Lemma on_mm m : only E (mm_load m).
Proof using HP HO.
  unfold mm_load. intros s. refine (only_bind E _ _ _ _ s); [|intros; apply only_ret].
  apply only_chunked_t. intros ty f [v x]. unfold mm_chunk. repeat first [apply only_if | ostep].
Qed.
Lemma on_model h m : only E (model_load h m).
Proof using HP HO. unfold model_load. apply only_bind; [apply on_hier|intros]. apply only_bind; [apply on_mm|intros; apply only_ret]. Qed.
Lemma on_morph m : only E (morph_load m).
Proof using HP HO.
  apply (only_left E (fun n => read_chunked n morph_chunk m)). intros n. apply only_chunked. intros ty x. unfold morph_chunk, msource_load, manim_load.
  repeat first [apply only_if | ostep].
Qed.
(** ** The mesh of a world *)
Lemma on_skip_chunks : forall n, only E (skip_chunks n).
Proof using. induction n as [|n IH]; cbn [skip_chunks]; onlys. Qed.
Lemma on_three l a b c : honly E (three l a b c).
Proof using. unfold three. destruct (nth_N l a); [|apply honly_undef]. destruct (nth_N l (a + b)); [|apply honly_undef]. destruct (nth_N l (a + c)); [apply honly_ret|apply honly_undef]. Qed.
Lemma on_fan vs fs p : forall n a b t, honly E (fan vs fs p n a b t).
Proof using. induction n as [|n IH]; intros; cbn [fan]; [apply honly_ret|]. apply honly_bind; [apply on_three|intros]. apply honly_bind; [apply on_three|intros]. apply IH. Qed.
Lemma on_fans vs fs l : forall ps i t, honly E (fans vs fs l ps i t).
Proof using.
  induction ps as [|p ps IH]; intros; cbn [fans]; [apply honly_ret|]. apply honly_bind; [|intros; apply IH].
  repeat match goal with |- honly _ (match ?x with _ => _ end) => destruct x end; first [apply on_fan | apply honly_ret | apply honly_undef].
Qed.
Lemma on_leaves m l w : only E (mesh_load_leaves m l w).
Proof using HP HO. unfold mesh_load_leaves. apply only_bind; [apply on_mesh|intros x]. apply only_lift. unfold triangulate. apply honly_bind; [apply on_fans|intros; apply honly_ret]. Qed.
Lemma on_mesh_bsp z m t : only E (load_mesh_bsp z m t).
Proof using HP HO.
  unfold load_mesh_bsp. repeat first [apply on_bsp | apply on_leaves | ostep]. intros s. apply on_skip_chunks.
Qed.
End Meshes.

(** ** Whole files *)
Section Whole.
Variable E : exn -> Prop.
Hypothesis HP : E ParserError.
Hypothesis HX : E OtherExn.
Lemma on_archive c n b h r : ar_open (mkR b 0) = Ret (h, r) -> (ah_format h = AAscii -> E OutOfRange) ->
  honly E (load_archive (c_load (library c)) (c_flags (library c)) n b).
Proof using HP HX.
  intros Eo Hf e H. unfold load_archive in H. rewrite Eo in H.
  pose proof (on_read_obj E HP (ah_format h) (c_load (library c)) (c_flags (library c)) Hf (po_classes E HP HX c) n) as O.
  destruct (read_obj _ _ _ n _) as [[a g]|x| |] eqn:Er; try discriminate. injection H as <-. exact (O _ _ Er).
Qed.
Hypothesis HO : E OutOfRange.
Lemma on_archive_all c n b : honly E (load_archive (c_load (library c)) (c_flags (library c)) n b).
Proof using HP HX HO.
  destruct (ar_open (mkR b 0)) as [[h r]|x| |] eqn:Eo.
  - apply (on_archive c n b h r Eo). intros _. exact HO.
  - intros e H. unfold load_archive in H. rewrite Eo in H. injection H as <-. exact (on_open E HP HO _ _ Eo).
  - intros e H. unfold load_archive in H. rewrite Eo in H. discriminate.
  - intros e H. unfold load_archive in H. rewrite Eo in H. discriminate.
Qed.
Lemma on_level_sections {Ob} f (fl : Ob -> Z) rec raw c : only E rec -> (forall m t, only E (raw m t)) ->
  forall n m t s, only E (level_sections (fmt_prims f) fl rec raw c n m t s).
Proof using HP HX HO.
  intros Hr Hw. induction n as [|n IH]; intros; cbn [level_sections]; [apply only_fuel|].
  apply only_bind; [apply on_rgl, on_ar_end|intros e]. apply only_if; [apply only_ret|].
  apply only_bind; [apply on_rgl, on_ar_begin|intros [h|]]; [|apply only_throw, HP].
  apply only_if. { apply only_bind; [apply on_rgl, on_ar_end|intros; apply only_ret]. }
  apply only_bind; [apply only_if|intros r].
  - apply only_bind; [apply on_rgl, Hw|intros; apply only_ret].
  - apply only_bind; [|intros; apply only_ret]. apply on_runp; [exact HP|intros _; exact HO|exact Hr|]. apply po_section; assumption.
  - apply only_bind; [apply on_rgl, on_ar_end|intros e']. apply only_bind; [apply only_if; [apply only_ret|apply on_rgl, on_ar_skip, HP]|intros _]. apply IH.
Qed.
Lemma on_level c n x h0 : only E (load_level c n x h0).
Proof using HP HX HO.
  intros s e H. unfold load_level in H. destruct (ar_open s) as [[h r]|y| |] eqn:Eo; try discriminate.
  2: { injection H as <-. exact (on_open E HP HO _ _ Eo). }
  cbv zeta in H. set (c' := mkCfg _ _ _ _) in H. set (raw := fun m t => rdl (load_mesh_bsp _ m t)) in H.
  assert (O : only E (load_root (fmt_prims (ah_format h)) (c_flags (library c')) (read_obj (fmt_prims (ah_format h)) (c_load (library c')) (c_flags (library c')) n) raw c' x)).
  { assert (Hr : only E (read_obj (fmt_prims (ah_format h)) (c_load (library c')) (c_flags (library c')) n)).
    { apply on_read_obj; [exact HP|intros _; exact HO|]. apply po_classes; assumption. }
    unfold load_root. apply only_bind; [apply on_rgl, on_ar_begin|intros [o|]]; [|apply only_throw, HP].
    apply only_if; [apply only_throw, HP|]. apply only_bind; [|intros y].
    - unfold load_into. apply only_bind; [apply on_level_sections; [exact Hr|]|intros q].
      + intros m t. apply on_rdl, on_mesh_bsp; assumption.
      + apply only_bind; [apply only_if; [|apply only_ret]|intros [[[a b] d] g]; apply only_ret].
        apply on_runp; [exact HP|intros _; exact HO|exact Hr|]. apply po_tail; assumption.
    - apply only_bind; [apply on_rgl, on_ar_end|intros e']. apply only_bind; [apply only_if; [apply only_ret|apply on_rgl, on_ar_skip, HP]|intros _]. apply only_ret. }
  destruct (load_root _ _ _ _ _ _ _) as [[a g]|y| |] eqn:El; try discriminate. injection H as <-. exact (O _ _ El).
Qed.
End Whole.
