(** Log messages (C125) and files mapped into memory (C126). *)

From Coq Require Import String Lia Permutation.
From Verif Require Import MBase MText MLogger SLogger MMmap SMmap LLogger LMmap.
Local Open Scope N_scope.

(** ** C125: the callback gets exactly the messages of its level, as they were logged *)
(** For every history of setting levels and callbacks and logging, with callbacks that do not log themselves. *)
Theorem C125_delivery_partial : forall handler fuel ops, (forall h l n, only_looks (handler h l n)) -> texts_short ops ->
  exists s, log_run handler (S fuel) ops logger_new = Ret (delivered handler [] ops, s).
Proof. exact (fun handler fuel ops Q H => delivery handler Q fuel ops H). Qed.
Print Assumptions C125_delivery_partial.
(** Whatever threads log in whatever order: if no data race happened, each thread's callbacks saw
    what is due to the calls the thread has made, in order. *)
Theorem C125_threads_partial : forall lg calls sched s i l0, calls_short calls ->
  schedule sched (mkT lg calls [] []) = Ret s -> nth_N calls i = Some l0 ->
  exists left, nth_N (t_calls s) i = Some left /\ seen_by i (t_seen s) ++ due lg left = due lg l0 /\ exists made, l0 = made ++ left.
Proof. exact threads. Qed.
Print Assumptions C125_threads_partial.
(** No race happens if at most one thread logs messages that are shown. *)
Theorem C125_one_thread_partial : forall lg calls i, calls_short calls ->
  (forall j l0, nth_N calls j = Some l0 -> j <> i -> due lg l0 = []) ->
  forall sched, exists s, schedule sched (mkT lg calls [] []) = Ret s.
Proof. exact alone. Qed.
Print Assumptions C125_one_thread_partial.
(** The older interface sets the level INFO and gives name and text in one. *)
Theorem C125_use_logger : forall handler fuel cb s name text lvl,
  (forall h l n, only_looks (handler h l n)) -> short text -> looks (handler cb lvl name) text = 1%nat ->
  exists evs s', log handler (S fuel) lvl name text (use_logger cb s) = Ret (evs, s') /\
    map (fun v => (sn_level v, joined v)) evs = if lvl <=? INFO then [(lvl, name ++ lit ": " ++ text)] else [].
Proof. exact older. Qed.
Print Assumptions C125_use_logger.

(** Longer texts are cut: every text of more than 4094 bytes. *)
Theorem C125_long_refuted : forall handler fuel ops l n t s evs h, (forall h l n, only_looks (handler h l n)) ->
  log_run handler (S fuel) ops logger_new = Ret (evs, s) -> lg_cb s = Some h -> l <= lg_level s -> 4094 < len t ->
  take 4094 t <> t /\ exists s', log handler (S fuel) l n t s = Ret (repeat (mkSeen h l n (take 4094 t)) (looks (handler h l n) (take 4094 t)), s').
Proof. exact long_cut. Qed.
Print Assumptions C125_long_refuted.
(** A callback that logs while it handles a message, and then looks at the message, finds the text it logged itself. *)
Definition relays (other : bytes) (h l : N) (n : bytes) : act :=
  if l =? INFO then ALog ERROR n other (ASee (fun _ => ADone)) else ADone.
Theorem C125_inside_refuted : forall other h b n text fuel, short other -> short text -> (2 <= fuel)%nat ->
  exists s, log (relays other) fuel INFO n text (mkLog b (Some h) TRACE) = Ret ([mkSeen h INFO n other], s).
Proof. exact inside. Qed.
Print Assumptions C125_inside_refuted.
(** Any two threads that log messages that are shown can race. *)
Theorem C125_race_refuted : forall lg c1 r1 c2 r2 h, passes lg c1 = Some h -> passes lg c2 = Some h ->
  schedule [0; 1] (mkT lg [c1 :: r1; c2 :: r2] [] []) = Undef.
Proof. exact race. Qed.
Print Assumptions C125_race_refuted.

(** A host that sets a callback, logs at three levels, and takes the callback away. *)
Definition once (h l : N) (n : bytes) : act := ASee (fun _ => ADone).
Definition demo_log : list lop := [LLog ERROR (lit "A") (lit "early"); LSet WARNING (Some 7); LLog ERROR (lit "A") (lit "one"); LLog INFO (lit "A") (lit "two");
  LLog WARNING (lit "B") (lit "three"); LSet TRACE None; LLog ERROR (lit "B") (lit "four")].
Example C125_example : (forall h l n, only_looks (once h l n)) /\ texts_short demo_log /\
  delivered once [] demo_log = [mkSeen 7 ERROR (lit "A") (lit "one"); mkSeen 7 WARNING (lit "B") (lit "three")].
Proof.
  split; [intros; apply looks_see; intros; apply looks_done|]. split; [|reflexivity].
  unfold texts_short, demo_log. repeat (apply Forall_cons; [first [exact I | unfold short; vm_compute; discriminate]|]). apply Forall_nil.
Qed.
Definition demo_calls : list (list call) := [[mkCall ERROR (lit "A") (lit "one"); mkCall TRACE (lit "A") (lit "hidden")]; [mkCall TRACE (lit "B") (lit "hidden")]].
Definition demo_logger : logger := mkLog [] (Some 7) INFO.
Example C125_example_threads : calls_short demo_calls /\ (forall j l0, nth_N demo_calls j = Some l0 -> j <> 0 -> due demo_logger l0 = []) /\
  match schedule [0; 1; 0; 0] (mkT demo_logger demo_calls [] []) with
  | Ret s => t_seen s = [(0, mkSeen 7 ERROR (lit "A") (lit "one"))] /\ t_calls s = [[]; []]
  | _ => False
  end.
Proof.
  split; [|split].
  - unfold calls_short, demo_calls. repeat (apply Forall_cons || apply Forall_nil); unfold short; vm_compute; discriminate.
  - intros j l0 H D. destruct j as [|[p|p|]]; [congruence | | |]; try (unfold nth_N in H; destruct (_ <? _) eqn:E in H; [|discriminate]; vm_compute in E; destruct p; discriminate).
    injection H as <-. reflexivity.
  - vm_compute. split; reflexivity.
Qed.
Example C125_example_race : passes demo_logger (mkCall ERROR (lit "A") (lit "one")) = Some 7 /\ passes demo_logger (mkCall INFO (lit "B") (lit "two")) = Some 7.
Proof. split; reflexivity. Qed.

(** ** C126: a mapped file reads as the file, and nothing stays open *)
(** After every history of opening, moving and destroying, with a system that maps what is not empty: each object
    reads as its file. *)
Theorem C126_contents_partial : forall ops i m b, maps_well ops -> obj_at (map_run ops ms_new) i = Some (m, TFile b) ->
  reads_as m b (ms_os (map_run ops ms_new)).
Proof. exact contents. Qed.
Print Assumptions C126_contents_partial.
(** After every history: what is mapped is what the living objects hold, each mapping held once. *)
Theorem C126_released : forall ops,
  Permutation (map fst (os_maps (ms_os (map_run ops ms_new)))) (held (ms_objs (map_run ops ms_new))).
Proof. exact released. Qed.
Print Assumptions C126_released.
Theorem C126_descriptors_partial : forall ops, stats_well ops -> os_fds (ms_os (map_run ops ms_new)) = [].
Proof. exact no_descriptors. Qed.
Print Assumptions C126_descriptors_partial.
(** When opening throws. *)
Theorem C126_throws : forall t k s, fst (map_open t k s) = Throw OtherExn <-> t = TNothing \/ open_ok k = false \/ stat_ok k = false.
Proof. exact throws_when. Qed.
Print Assumptions C126_throws.
Theorem C126_windows_partial : forall b k s, (forall x, In x (os_maps s) -> fst x < os_next s) -> b <> [] -> len b < 2 ^ 32 ->
  open_ok k = true -> stat_ok k = true -> map_ok k = true ->
  exists m s', map_open_win (TFile b) k s = (Ret m, s') /\ reads_as m b s'.
Proof. exact win_contents. Qed.
Print Assumptions C126_windows_partial.

(** A directory, and a file that the system cannot map, are opened without an exception; reading any byte of them is undefined. *)
Theorem C126_failure_refuted : forall t k s, open_ok k = true -> stat_ok k = true ->
  (exists n, t = TDirectory n) \/ (map_ok k = false /\ exists b, t = TFile b) ->
  exists m, fst (map_open t k s) = Ret m /\ m_size m = sys_size t /\ forall s' p n, 0 < n -> map_bytes m p n s' = Undef.
Proof. exact failures. Qed.
Print Assumptions C126_failure_refuted.
(** A descriptor of which the size cannot be found stays open, whatever is done later. *)
Theorem C126_leak_refuted : forall ops1 i t k ops2, t <> TNothing -> open_ok k = true -> stat_ok k = false -> obj_at (map_run ops1 ms_new) i = None ->
  exists d, ~ In d (os_fds (ms_os (map_run ops1 ms_new))) /\ In d (os_fds (ms_os (map_run (ops1 ++ MOpen i t k :: ops2) ms_new))).
Proof. exact leak. Qed.
Print Assumptions C126_leak_refuted.
(** Windows: every file of 4 GiB or more has the wrong size; failing to map is not noticed. *)
Theorem C126_windows_refuted : (forall b k s, 2 ^ 32 <= len b -> open_ok k = true -> stat_ok k = true ->
    exists m s', map_open_win (TFile b) k s = (Ret m, s') /\ m_size m <> len b) /\
  (forall b k s, b <> [] -> open_ok k = true -> stat_ok k = true -> map_ok k = false ->
    exists m s', map_open_win (TFile b) k s = (Ret m, s') /\ forall s'' p n, 0 < n -> map_bytes m p n s'' = Undef).
Proof. exact (conj win_large win_failure). Qed.
Print Assumptions C126_windows_refuted.

(** A vector of mappings that grows while two files are open, one of them empty. *)
Definition good : luck := mkLuck true true true.
Definition demo_maps : list mop := [MOpen 0 (TFile (lit "VDFS")) good; MOpen 1 (TFile []) good; MMove 0 2; MOpen 0 TNothing good; MOpen 3 (TFile (lit "x")) good; MClose 3].
Example C126_example : maps_well demo_maps /\ stats_well demo_maps /\
  (exists m, obj_at (map_run demo_maps ms_new) 2 = Some (m, TFile (lit "VDFS")) /\ map_bytes m 1 2 (ms_os (map_run demo_maps ms_new)) = Ret (lit "DF")) /\
  len (os_maps (ms_os (map_run demo_maps ms_new))) = 1.
Proof.
  split; [|split].
  - unfold maps_well, demo_maps. repeat (apply Forall_cons; [first [exact I | split; [reflexivity | discriminate]]|]). apply Forall_nil.
  - unfold stats_well, demo_maps. repeat (apply Forall_cons; [first [exact I | reflexivity]|]). apply Forall_nil.
  - split; [eexists; split; reflexivity | reflexivity].
Qed.
Example C126_example_throws : fst (map_open TNothing good os_new) = Throw OtherExn /\ obj_at (map_run demo_maps ms_new) 0 = None.
Proof. split; reflexivity. Qed.
