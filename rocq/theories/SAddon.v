(** Specification vocabulary for the bundled script classes. *)

From Coq Require Import String Ascii.
From Verif Require Import MBase MStream MDaedalus MAddon SVmOps.
Local Open Scope N_scope.

(** The lookup table of a script belongs to its symbols. *)
Definition named (names : list (bytes * N)) (l : list sym) : Prop :=
  forall n i, find_by_name names n = Some i -> exists x, nth_N l i = Some x /\ s_name x = upper n.

(** The members of a class that a C++ class has fields for: the symbol that must exist as well, if
    any, the name in the script and the name of the field. *)
Definition members (k : klass_reg) : list (option string * string * string) :=
  flat_map (fun r => match r with
    | Reg s f => [(None, s, f)]
    | When g l => map (fun sf => (Some g, fst sf, snd sf)) l
    end) (k_regs k).
Definition has (names : list (bytes * N)) (s : string) : bool :=
  match find_by_name names (lit s) with Some _ => true | None => false end.
(** The script declares the class, and with it the version of the class that has the member. *)
Definition offered (names : list (bytes * N)) (k : klass_reg) (m f : string) : Prop :=
  In k script_classes /\ has names (k_sym k) = true /\
  exists g, In (g, m, f) (members k) /\ match g with Some g => has names g = true | None => True end.
Definition offered_symbol (names : list (bytes * N)) (i : N) : Prop :=
  exists k m f, offered names k m f /\ find_by_name names (lit m) = Some i.
(** The symbol [i] is a member in which field [f] of class [k] can be seen. *)
Definition declared (names : list (bytes * N)) (l : list sym) (k : klass_reg) (m f : string) : Prop :=
  exists i x off ty n p y, find_by_name names (lit m) = Some i /\ nth_N l i = Some x /\
    find_field base_size (k_fields k) f = Some (off, ty, n) /\
    is_member x = true /\ s_count x <= n /\ binds (s_type x) ty /\
    find_by_name names (lit (k_sym k)) = Some p /\ s_parent x = p /\ nth_N l p = Some y /\
    (s_reg y = None \/ s_reg y = Some (k_id k)).

(** The name of a member is the name of the field in capitals, up to underscores. *)
Definition capital (c : ascii) : ascii :=
  let n := N_of_ascii c in if (97 <=? n) && (n <=? 122) then ascii_of_N (n - 32) else c.
Fixpoint plain_name (s : string) : string :=
  match s with
  | EmptyString => EmptyString
  | String c r => if Ascii.eqb c "_" then plain_name r else String (capital c) (plain_name r)
  end.
Fixpoint after_dot (s : string) : string :=
  match s with EmptyString => EmptyString | String c r => if Ascii.eqb c "." then r else after_dot r end.
Definition same_name (m f : string) : Prop := plain_name (after_dot m) = plain_name f.
(** The four that are named otherwise. *)
Definition renamed : list (string * string) := [("C_NPC.NPCTYPE", "type"); ("C_ITEM.SCEMENAME", "scheme_name");
   ("C_SVM.DOESNTWORK", "doesnt_mork"); ("C_SVM.stolefrommage", "stole_urom_mage")]%string.
Fixpoint before_dot (s : string) : string :=
  match s with EmptyString => EmptyString | String c r => if Ascii.eqb c "." then EmptyString else String c (before_dot r) end.
(** The member belongs to the class by its name. *)
Definition of_class (m k : string) : Prop := plain_name (before_dot m) = plain_name k.
(** The script classes the library knows. *)
Definition class_names : list string := ["C_GILVALUES"; "C_NPC"; "C_MISSION"; "C_ITEM"; "C_FOCUS"; "C_INFO"; "C_ITEMREACT";
  "C_SPELL"; "C_SVM"; "C_MENU"; "C_MENU_ITEM"; "CCAMSYS"; "C_MUSICSYS_CFG"; "C_MUSICTHEME"; "C_MUSICJINGLE"; "C_PARTICLEFX";
  "CFX_BASE"; "C_PARTICLEFXEMITKEY"; "C_FIGHTAI"; "C_SFX"; "C_SNDSYS_CFG"]%string.
