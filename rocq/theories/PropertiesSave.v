(** Properties of the state of save games: C41 and C86. *)

From Coq Require Import String Lia.
From Verif Require Import MBase MStream MText MClasses MArchive SArchive MVob MCutscene SVob MLib SLib SReload MSave SSave LSave.
From Verif Require Import PropertiesVobs.
Local Open Scope N_scope.

(** ** C41 *)
(** The cutscene manager and what it refers to are objects of the library.  When every entry can
    be written as text ([top_fits]: the condition on the guild table is that no byte below 16
    follows one of 16 or more), the state comes back, with a copy of the cutscene manager. *)
Theorem C41_state_partial : forall c G dom x e1 e2,
  library_graph c G -> (forall r, G r <> None -> In r dom) ->
  (forall a b, refers (library c) G a b -> G b <> None) ->
  (forall r, st_manager x = Some r -> G r <> None) ->
  ok_state c (g_type (library c) G) x ->
  len (we_date e1) = len (we_date e2) -> len (we_user e1) = len (we_user e2) -> env_ok e2 ->
  exists n nds w wc, top_content (library c) G n (save_state c x) = Some (nds, w, wc) /\
    (len (nw_keys w) <= 2 ^ 16 -> top_fits e2 true nds (nw_idx w) ->
     exists b h ph,
       save_savedat c e1 e2 G n x = Ret b /\
       load_savedat c n st_new b = Ret (map_state ph x, h) /\
       isomorphic (library c) G (st_manager x) ph h).
Proof. exact states_come_back. Qed.
Print Assumptions C41_state_partial.
(** In Gothic 1 the three fields of Gothic 2 have to be empty. *)
Theorem C41_metadata_partial : forall c x e1 e2,
  ok_savemeta c (fun _ => oCSavegameInfo) x ->
  len (we_date e1) = len (we_date e2) -> len (we_user e1) = len (we_user e2) -> env_ok e2 ->
  exists nds w wc, top_content (library c) (fun r => if r =? 0 then Some (Osavemeta x) else None) 2 [wO "%" (Some 0)] = Some (nds, w, wc) /\
    (len (nw_keys w) <= 2 ^ 16 -> top_fits e2 false nds (nw_idx w) ->
     exists b, save_saveinfo c e1 e2 2 x = Ret b /\ load_saveinfo c 2 b = Ret x).
Proof. exact metadata_comes_back. Qed.
Print Assumptions C41_metadata_partial.

Definition guilds_of (l : bytes) : bytes := l ++ zeros (1764 - len l).
Definition demo_state (g : bytes) (symbols : list symst) : sstate :=
  mkState 3 12 30 [mkMission (lit "MIS_1") 7 true 2] (Some 0) [mkInfo (lit "DIA_DIEGO_1") true; mkInfo (lit "DIA_XARDAS") false]
    symbols [mkTopic (lit "CH1_Topic") 1 0 [lit "first"; lit "second"]; mkTopic (lit "Empty") 0 2 []] g.
Definition demo_manager : list object :=
  [Ocsmanager (mk_csmanager [Some 1; None]); Opoolitem (mk_poolitem (lit "CS_1") 2 (-1)%Z 0%Z 0%Z 5%Z)].
Definition demo_symbols : list symst := [mkSymst (lit "A") [-4; 2]%Z; mkSymst (lit "B") []; mkSymst (lit "C") [7]%Z].
(** Save the state and load it into a new one. *)
Definition resaved (c : cfg) (x : sstate) : outcome (sstate * heap object) :=
  match save_savedat c demo_env demo_env (few demo_manager) 3 x with
  | Ret b => load_savedat c 3 st_new b
  | Throw e => Throw e | Undef => Undef | Fuel => Fuel
  end.

(** A guild table in which a small number follows a large one comes back with other numbers; in
    Gothic 1 only the first value of a symbol is saved, and a symbol without values is undefined
    behavior. *)
Theorem C41_state_refuted :
  (exists x y h, len (st_guilds x) = 1764 /\ resaved s2 x = Ret (y, h) /\ st_guilds y <> st_guilds x) /\
  (exists x y h, len (st_guilds x) = 1764 /\ resaved s1 x = Ret (y, h) /\ st_guilds y <> st_guilds x /\ st_symbols y <> st_symbols x) /\
  (exists x, len (st_guilds x) = 1764 /\ resaved s1 x = Undef).
Proof.
  split; [|split].
  - exists (demo_state (guilds_of [x10; x05]) []). do 2 eexists. split; [reflexivity|].
    split; [vm_compute; reflexivity | vm_compute; discriminate].
  - exists (demo_state (guilds_of [x10; x05]) [mkSymst (lit "A") [1; 2]%Z]). do 2 eexists. split; [reflexivity|].
    split; [vm_compute; reflexivity|]. split; vm_compute; discriminate.
  - exists (demo_state (guilds_of []) [mkSymst (lit "A") []]). split; [reflexivity|]. vm_compute. reflexivity.
Qed.
Print Assumptions C41_state_refuted.
(** In Gothic 1 the fields of Gothic 2 are not saved. *)
Theorem C41_metadata_refuted : exists x y b,
  save_saveinfo s1 demo_env demo_env 2 x = Ret b /\ load_saveinfo s1 2 b = Ret y /\
  savemeta_version_app_name x <> [] /\ savemeta_version_app_name y = [].
Proof.
  exists (mk_savemeta (lit "T") (lit "WORLD") 1 2 3 (lit "1.1.2001") 1 2 3 4 5 (lit "App")). do 2 eexists.
  split; [vm_compute; reflexivity|]. split; [vm_compute; reflexivity|]. split; [discriminate | reflexivity].
Qed.
Print Assumptions C41_metadata_refuted.

Local Ltac ok :=
  hnf; lazymatch goal with
  | |- _ /\ _ => split; ok
  | |- _ \/ _ => first [left; ok | right; ok]
  | |- True => exact I
  | |- _ = _ => vm_compute; reflexivity
  | |- Forall _ _ => first [apply Forall_nil | apply Forall_cons; ok]
  | |- _ -> _ => let H := fresh in intro H; first [discriminate H | ok]
  end.
Definition demo_saved : sstate := demo_state (guilds_of [x01; x02; x03]) demo_symbols.
Example C41_example :
  library_graph s2 (few demo_manager) /\
  (forall r, few demo_manager r <> None -> In r [0; 1]) /\
  (forall a b, refers (library s2) (few demo_manager) a b -> few demo_manager b <> None) /\
  ok_state s2 (g_type (library s2) (few demo_manager)) demo_saved /\
  (exists nds w wc, top_content (library s2) (few demo_manager) 3 (save_state s2 demo_saved) = Some (nds, w, wc) /\
    len (nw_keys w) <= 2 ^ 16 /\ top_fits demo_env true nds (nw_idx w)).
Proof.
  assert (K : forall r x, few demo_manager r = Some x -> In r [0; 1]).
  { intros r x E. unfold few, nth_N in E. destruct (N.ltb_spec r (len demo_manager)); [|discriminate].
    change (len demo_manager) with 2 in H. cbn [In]. lia. }
  split; [|split; [|split; [|split]]].
  - intros r x E. pose proof (K r x E) as I. cbn [In] in I.
    destruct I as [<- | [<- | []]]; (vm_compute in E; injection E as <-; split; [ok | intros i []]).
  - intros r E. destruct (few demo_manager r) eqn:X; [eauto | congruence].
  - intros a b (x & E & H). pose proof (K a x E) as I. cbn [In] in I.
    destruct I as [<- | [<- | []]]; vm_compute in E; injection E as <-; vm_compute in H; [destruct H as [<-|[]]; discriminate | contradiction].
  - ok.
  - do 3 eexists. split; [vm_compute; reflexivity|]. split; [vm_compute; discriminate|].
    split; [vm_compute; reflexivity|]. split; vm_compute; reflexivity.
Qed.
Example C41_metadata_example :
  let x := mk_savemeta (lit "Title") (lit "WORLD") 1 2 3 (lit "1.1.2001") 1 2 3 4 5 (lit "App") in
  ok_savemeta s2 (fun _ => oCSavegameInfo) x /\
  exists b, save_saveinfo s2 demo_env demo_env 2 x = Ret b /\ load_saveinfo s2 2 b = Ret x.
Proof. split; [ok|]. eexists. split; [vm_compute; reflexivity|]. vm_compute. reflexivity. Qed.

(** ** C86 *)
(** Loading into a state gives what loading into a new one gives, with the old missions and values
    of symbols in front of the new ones. *)
Theorem C86_loading_again_partial : forall c n s b,
  load_savedat c n s b =
  match load_savedat c n st_new b with Ret (x, h) => Ret (onto s x, h) | Throw e => Throw e | Undef => Undef | Fuel => Fuel end.
Proof. exact loading_into. Qed.
Print Assumptions C86_loading_again_partial.
Theorem C86_loading_into_empty_partial : forall c n s b,
  st_missions s = [] -> Forall (fun x => sy_values x = []) (st_symbols s) ->
  load_savedat c n s b = load_savedat c n st_new b.
Proof. exact loading_fresh. Qed.
Print Assumptions C86_loading_into_empty_partial.
(** Loading the same file twice. *)
Theorem C86_loading_again_refuted : exists c n b x h,
  load_savedat c n st_new b = Ret (x, h) /\
  exists y h', load_savedat c n x b = Ret (y, h') /\ length (st_missions y) = (2 * length (st_missions x))%nat /\ st_missions x <> [] /\
    map sy_values (st_symbols y) = map (fun s => sy_values s ++ sy_values s) (st_symbols x) /\ st_symbols y <> st_symbols x.
Proof.
  destruct C41_example as (H1 & H2 & H3 & H4 & nds & w & wc & H5 & H6 & H7).
  destruct (state_comes_back s2 (few demo_manager) 3 demo_saved demo_env demo_env nds w wc H1 H4 eq_refl eq_refl) as (b & h & ph & _ & A & _);
    [split; repeat (apply Forall_cons; [repeat split; discriminate|]); apply Forall_nil | exact H5 | exact H6 | exact H7 |].
  exists s2, 3%nat, b, (map_state ph demo_saved), h. split; [exact A|].
  do 2 eexists. split; [rewrite loading_into, A; reflexivity|].
  split; [reflexivity|]. split; [discriminate|]. split; [reflexivity | discriminate].
Qed.
Print Assumptions C86_loading_again_refuted.
Example C86_example : st_missions st_new = [] /\ Forall (fun x => sy_values x = []) [mkSymst (lit "A") []].
Proof. split; [reflexivity|]. constructor; [reflexivity | constructor]. Qed.
