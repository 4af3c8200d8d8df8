(** What can be said of every object an archive reader makes, whatever the archive holds. *)

From Coq Require Import String.
From Verif Require Import MBase MStream MText MClasses MArchive SArchive MVob MVobs MCutscene MWorld MLib.
Local Open Scope N_scope.

(** The program can return [a] when the archive gives the right answers; those to [read_object]
    satisfy [Q]. *)
Fixpoint can_return {R A} (Q : option (R * otype * Z) -> Prop) (p : prog R A) (a : A) : Prop :=
  match p with
  | PRet b => b = a
  | PRead k c => exists v, can_return Q (c v) a
  | PObj c => exists o, Q o /\ can_return Q (c o) a
  | PBegin c => exists h, can_return Q (c h) a
  | PEnd c => exists b, can_return Q (c b) a
  | PSkip _ p => can_return Q p a
  | _ => False
  end.
(** An answer that fits the heap: the object exists and has the type; and what is seen of an
    object made after [r] is what it has in the end. *)
Definition answers {Ob} (flags_of : Ob -> Z) (h : heap Ob) (r : oid) (o : option (oid * otype * Z)) : Prop :=
  match o with
  | None => True
  | Some (r', t, z) => r' < len h /\ t = heap_type h r' /\ (r < r' -> z = heap_flags flags_of h r')
  end.
(** The objects of a heap were made by the load functions of their types, and are complete. *)
Definition made_by {Ob} (load : otype -> option (prog oid Ob)) (flags_of : Ob -> Z) (h : heap Ob) : Prop :=
  forall r e, nth_N h r = Some e ->
    exists x p, ho_val e = Some x /\ load (ho_type e) = Some p /\ can_return (answers flags_of h r) p x.

(** ** Cutscene libraries *)
(** The name of a block, and the blocks of a library with their names, as the loaded objects
    have them. *)
Definition block_name (h : heap object) (r : oid) : bytes :=
  match nth_N h r with
  | Some e => match ho_val e with Some (Ocblock _ b) => cblock_name b | _ => [] end
  | None => []
  end.
Definition named_blocks (h : heap object) (w : cslib) : list (bytes * oid) :=
  map (fun r => (block_name h r, r)) (somes (cslib_blocks w)).

(** ** Triggers *)
(** The trigger an object is, or is a special kind of. *)
Definition trigger_of (o : object) : option trigger :=
  match o with
  | Otrigger _ x => Some x
  | Omover x => Some (mover_base x)
  | Otlist x => Some (tlist_base x)
  | Otscript x => Some (tscript_base x)
  | Otlevel x => Some (tlevel_base x)
  | _ => None
  end.
(** The booleans are the bits of the two flag bytes. *)
Definition flags_agree (x : trigger) : Prop :=
  trigger_flags x < 256 /\ trigger_filter_flags x < 256 /\
  trigger_start_enabled x = N.testbit (trigger_flags x) 0 /\
  trigger_send_untrigger x = N.testbit (trigger_flags x) 2 /\
  trigger_react_to_on_trigger x = N.testbit (trigger_filter_flags x) 0 /\
  trigger_react_to_on_touch x = N.testbit (trigger_filter_flags x) 1 /\
  trigger_react_to_on_damage x = N.testbit (trigger_filter_flags x) 2 /\
  trigger_respond_to_object x = N.testbit (trigger_filter_flags x) 3 /\
  trigger_respond_to_pc x = N.testbit (trigger_filter_flags x) 4 /\
  trigger_respond_to_npc x = N.testbit (trigger_filter_flags x) 5.

(** ** Way nets *)
(** The points that are not null. *)
Definition listed (l : list (option oid * bool)) : list oid := somes (map fst l).
