(** Model: the state of a save game (src/SaveGame.cc:83-259, include/zenkit/SaveGame.hh:44-128).

    The state is not an object: its entries and the cutscene manager stand at the top of the
    archive SAVEDAT.SAV. *)

From Coq Require Import String.
From Verif Require Import MBase MStream MBoxes MText MClasses MArchive SArchive MVob MCutscene MLib.
Local Open Scope N_scope.

(** SaveGame.hh:82-87 [Mission] *)
Record mission := mkMission { mi_name : bytes; mi_id : Z; mi_available : bool; mi_status : Z }.
(** SaveGame.hh:72-75 [SaveInfoState] *)
Record sinfo := mkInfo { in_name : bytes; in_told : bool }.
(** SaveGame.hh:65-70 [SaveLogTopic]; the enumerations are 32-bit numbers. *)
Record topic := mkTopic { tp_description : bytes; tp_section : N; tp_status : N; tp_entries : list bytes }.
(** SaveGame.hh:77-80 [SaveSymbolState] *)
Record symst := mkSymst { sy_name : bytes; sy_values : list Z }.
(** SaveGame.hh:111-125 [SaveState]; the table of 42 x 42 bytes row by row. *)
Record sstate := mkState { st_day : Z; st_hour : Z; st_minute : Z; st_missions : list mission;
  st_manager : option oid; st_infos : list sinfo; st_symbols : list symst; st_log : list topic; st_guilds : bytes }.
(** SaveGame.hh:140 [SaveState state {}]: value-initialized. *)
Definition st_new : sstate := mkState 0 0 0 [] None [] [] [] (zeros 1764).

(** SaveGame.cc:91-95 *)
Definition p_info : prog oid sinfo :=
  (do told <- p_rd KBool ; do name <- p_rd KStr ; PRet (mkInfo name told))%p.
(** SaveGame.cc:101-117; the numbers of the inner list are read and forgotten. *)
Definition p_mission : prog oid mission :=
  (do name <- p_rd KStr ;
   do id <- p_rd KInt ;
   do av <- p_rd KBool ;
   do n <- p_upto ;
   do _ <- p_rep n (do _ <- p_rd KInt ; do _ <- p_rd KInt ; do _ <- p_rd KFloat ; PRet tt)%p ;
   do st <- p_rd KInt ;
   PRet (mkMission name id av st))%p.
(** SaveGame.cc:125-140 *)
Definition p_topic : prog oid topic :=
  (do d <- p_rd KStr ;
   do se <- p_rd KEnum ;
   do st <- p_rd KEnum ;
   do n <- p_size ;
   do _ <- p_rd KInt ;
   do l <- p_rep n (p_rd KStr) ;
   PRet (mkTopic d se st l))%p.
(** SaveGame.cc:150-162: the values are added to those the symbol has. *)
Definition p_symbol (c : cfg) (old : symst) : prog oid symst :=
  (do name <- p_rd KStr ;
   do l <- (if g2 c then (do n <- p_upto ; p_rep n (p_rd KInt))%p else (do v <- p_rd KInt ; PRet [v])%p) ;
   PRet (mkSymst name (sy_values old ++ l)))%p.
Fixpoint p_symbols (c : cfg) (l : list symst) : prog oid (list symst) :=
  match l with
  | [] => PRet []
  | x :: l' => (do y <- p_symbol c x ; do r <- p_symbols c l' ; PRet (y :: r))%p
  end.
(** [std::vector::resize]: what is there stays. *)
Definition resized {A} (d : A) (n : nat) (l : list A) : list A := firstn n l ++ repeat d (n - length l).
(** SaveGame.cc:83-175 [SaveState::load] into the state [s].  Missions are added to those the
    state has.  Simplification: the memory that [resize] needs is always there. *)
Definition load_state (c : cfg) (s : sstate) : prog oid sstate :=
  (do day <- p_rd KInt ;
   do hour <- p_rd KInt ;
   do minute <- p_rd KInt ;
   do infos <- (do n <- p_size ; p_rep n p_info)%p ;
   do missions <- (do n <- p_upto ; p_rep n p_mission)%p ;
   do log <- (do n <- p_size ; p_rep n p_topic)%p ;
   do manager <- p_obj oCCSManager ;
   do symbols <- (do n <- p_size ; p_symbols c (resized (mkSymst [] []) n (st_symbols s)))%p ;
   do guilds <- p_rd (KRaw 1764) ;
   PRet (mkState day hour minute (st_missions s ++ missions) manager infos symbols log (take 1764 guilds)))%p.

(** SaveGame.cc:185-190 *)
Definition save_info (x : sinfo) : list (wop oid) := [wB "Told" (in_told x); wS "InstName" (in_name x)].
(** SaveGame.cc:196-204 *)
Definition save_mission (x : mission) : list (wop oid) :=
  [wS "name" (mi_name x); wI "ID" (mi_id x); wB "Av" (mi_available x); wI "NumInList" 0; wI "StatusIndex" (mi_status x)].
(** SaveGame.cc:210-222 *)
Definition save_topic (x : topic) : list (wop oid) :=
  [wS "TOPICDESCRIPTION" (tp_description x); wE "TOPICSECTION" (tp_section x); wE "TOPICSTATUS" (tp_status x);
   wCount "LOGTOPICENTRYCOUNT" (tp_entries x); wCount "LOGMANAGERENTRYCOUNT" (tp_entries x)] ++
  map (wS "ENTRYDESCRIPTION") (tp_entries x).
(** SaveGame.cc:230-245; in Gothic 1 the first value of a symbol without values is undefined. *)
Definition save_symbol (c : cfg) (p : N * symst) : list (wop oid) :=
  let '(i, x) := p in
  WEntry (numbered "symName" i) (EStr (sy_name x)) ::
  (if g2 c then
     WEntry (numbered "symName" i ++ lit "cnt") (EInt (sint 32 (len (sy_values x)))) ::
     map (fun v => WEntry (numbered "symValue" i ++ lit "_0") (EInt v)) (sy_values x)
   else match sy_values x with
        | v :: _ => [WEntry (numbered "symValue" i) (EInt v)]
        | [] => [WUndef]
        end).
(** SaveGame.cc:177-259 [SaveState::save] *)
Definition save_state (c : cfg) (x : sstate) : list (wop oid) :=
  [wI "day" (st_day x); wI "hour" (st_hour x); wI "min" (st_minute x)] ++
  wCount "NumOfEntries" (st_infos x) :: flat_map save_info (st_infos x) ++
  wCount "NumOfEntries" (st_missions x) :: flat_map save_mission (st_missions x) ++
  wCount "LOGMANAGERTOPICCOUNT" (st_log x) :: flat_map save_topic (st_log x) ++
  wO "%" (st_manager x) ::
  wCount "numSymbols" (st_symbols x) :: flat_map (save_symbol c) (indexed 0 (st_symbols x)) ++
  [wR "guildTable" (st_guilds x)].
(** The state with its references renamed. *)
Definition map_state (ph : oid -> oid) (x : sstate) : sstate :=
  mkState (st_day x) (st_hour x) (st_minute x) (st_missions x) (option_map ph (st_manager x)) (st_infos x) (st_symbols x)
    (st_log x) (st_guilds x).

(** ** Archives with entries at the top *)
(** SaveGame.cc:367-372: make the writer, write, write the header again. *)
Definition save_top (f : fmt) (e1 e2 : wenv) (save : bool)
    (graph : oid -> option (otype * N * list (wop oid))) (fuel : nat) (ops : list (wop oid)) : outcome bytes :=
  match ar_create f e1 save w_empty with
  | Ret s =>
      match run_wops (fmt_wprims f) (write_obj (fmt_wprims f) graph fuel) ops (mkWg s []) with
      | Ret (_, g) =>
          match ar_wheader f e2 (wg_s g) with
          | Ret (_, s') => Ret (wbuf (wa_w s'))
          | Throw x => Throw x | Undef => Undef | Fuel => Fuel
          end
      | Throw x => Throw x | Undef => Undef | Fuel => Fuel
      end
  | Throw x => Throw x | Undef => Undef | Fuel => Fuel
  end.
(** SaveGame.cc:332-334: open the archive and read. *)
Definition load_top {Ob A} (load : otype -> option (prog oid Ob)) (flags_of : Ob -> Z) (fuel : nat) (p : prog oid A) (b : bytes)
    : outcome (A * heap Ob) :=
  match ar_open (mkR b 0) with
  | Ret (h, r) =>
      match runp (fmt_prims (ah_format h)) flags_of (read_obj (fmt_prims (ah_format h)) load flags_of fuel) p (mkRg (mkRar r []) [] []) with
      | Ret (a, g) => Ret (a, rg_heap g)
      | Throw x => Throw x | Undef => Undef | Fuel => Fuel
      end
  | Throw x => Throw x | Undef => Undef | Fuel => Fuel
  end.
(** The file SAVEDAT.SAV (SaveGame.cc:367-372 and 320-335): always ASCII. *)
Definition save_savedat (c : cfg) (e1 e2 : wenv) (G : oid -> option object) (fuel : nat) (x : sstate) : outcome bytes :=
  save_top AAscii e1 e2 true (g_graph (library c) G) fuel (save_state c x).
Definition load_savedat (c : cfg) (fuel : nat) (s : sstate) (b : bytes) : outcome (sstate * heap object) :=
  load_top (c_load (library c)) (c_flags (library c)) fuel (load_state c s) b.

(** The file SAVEINFO.SAV (SaveGame.cc:345-351 and 290-301): always ASCII; the metadata is the only
    object.  A null pointer is dereferenced when the archive begins with a null reference. *)
Definition save_saveinfo (c : cfg) (e1 e2 : wenv) (fuel : nat) (x : savemeta) : outcome bytes :=
  save_top AAscii e1 e2 false (g_graph (library c) (fun r => if r =? 0 then Some (Osavemeta x) else None)) fuel [wO "%" (Some 0)].
Definition load_saveinfo (c : cfg) (fuel : nat) (b : bytes) : outcome savemeta :=
  match load_top (c_load (library c)) (c_flags (library c)) fuel (p_obj oCSavegameInfo) b with
  | Ret (Some r, h) => match nth_N h r with Some (mkHobj _ _ (Some (Osavemeta x))) => Ret x | _ => Undef end
  | Ret (None, _) => Undef
  | Throw x => Throw x | Undef => Undef | Fuel => Fuel
  end.
