(** Specification: states of save games that come back. *)

From Coq Require Import String.
From Verif Require Import MBase MStream MBoxes MText MClasses MArchive SArchive MVob MCutscene MLib MSave.
Local Open Scope N_scope.

(** The counts fit into 32 bits, the table has 42 x 42 bytes, the cutscene manager is one, and
    in Gothic 1 each symbol has exactly one value. *)
Definition ok_state (c : cfg) (ty : oid -> otype) (x : sstate) : Prop :=
  len (st_infos x) < 2 ^ 31 /\ len (st_missions x) < 2 ^ 31 /\ len (st_log x) < 2 ^ 31 /\ len (st_symbols x) < 2 ^ 31 /\
  Forall (fun t => len (tp_entries t) < 2 ^ 31) (st_log x) /\
  Forall (fun s => if g2 c then len (sy_values s) < 2 ^ 31 else length (sy_values s) = 1%nat) (st_symbols x) /\
  len (st_guilds x) = 1764 /\
  match st_manager x with Some r => ty r = oCCSManager | None => True end.

(** The content of an archive with the operations [ops] at the top, as [content] of SArchive.v. *)
Definition top_content (C : classes) (G : oid -> option (c_ob C)) (fuel : nat) (ops : list (wop oid))
    : option (list node * nw * list (oid * N)) :=
  match run_wops nwprims (write_obj nwprims (g_graph C G) fuel) ops (mkWg nw_empty []) with
  | Ret (_, g) => Some (nw_cur (wg_s g), wg_s g, wg_cache g)
  | _ => None
  end.
(** It fits the ASCII format: every entry can be written as text and read back, there are less
    than 2^31 objects and bytes. *)
Definition top_fits (e : wenv) (save : bool) (nds : list node) (idx : N) : Prop :=
  forallb (node_ok AAscii) nds = true /\ idx < 2 ^ 31 /\
  len (archive_head AAscii e save idx 0 ++ encodes AAscii 0 nds) < 2 ^ 31.

(** What loading a save game into a state that is already there gives: the missions of both, and
    the values of both in the symbols at the same place. *)
Fixpoint onto_symbols (old new : list symst) : list symst :=
  match old, new with
  | o :: old', n :: new' => mkSymst (sy_name n) (sy_values o ++ sy_values n) :: onto_symbols old' new'
  | _, _ => new
  end.
Definition onto (s x : sstate) : sstate :=
  mkState (st_day x) (st_hour x) (st_minute x) (st_missions s ++ st_missions x) (st_manager x) (st_infos x)
    (onto_symbols (st_symbols s) (st_symbols x)) (st_log x) (st_guilds x).
