(** Specification of model scripts: what a script says, how it is written as text and how it
    is laid out in a compiled file. *)

From Verif Require Import MBase MStream SStream MBoxes SBoxes SFormat MText MVfs SVfs MScript.
Local Open Scope N_scope.

(* ------------------------------------------------------------------ *)
(** * What a script says *)

(** An animation is given without events, followed by its events in order. *)
Inductive command :=
| CSkeleton (k : mds_skeleton)
| CMesh (name : bytes)
| CAni (a : mds_ani) (evs : list mevent)
| CAlias (a : mds_alias)
| CBlend (b : mds_blend)
| CComb (c : mds_comb)
| CDisable (name : bytes)
| CTag (bone : bytes).

Definition no_events (a : mds_ani) : Prop :=
  an_events a = [] /\ an_pfx a = [] /\ an_pfx_stop a = [] /\ an_sfx a = [] /\ an_sfx_ground a = [] /\ an_morph a = [] /\
  an_tremors a = [].
(** The animation with its events, each kind in a list of its own. *)
Definition ani_with (a : mds_ani) (evs : list mevent) : mds_ani :=
  mkMdsAni (an_name a) (an_layer a) (an_next a) (an_blend_in a) (an_blend_out a) (an_flags a) (an_model a) (an_backward a)
    (an_first_frame a) (an_last_frame a) (an_fps a) (an_speed a) (an_cvs a)
    (flat_map (fun e => match e with VTag x => [x] | _ => [] end) evs)
    (flat_map (fun e => match e with VPfx x => [x] | _ => [] end) evs)
    (flat_map (fun e => match e with VPfxStop x => [x] | _ => [] end) evs)
    (flat_map (fun e => match e with VSfx x => [x] | _ => [] end) evs)
    (flat_map (fun e => match e with VSfxGround x => [x] | _ => [] end) evs)
    (flat_map (fun e => match e with VMorph x => [x] | _ => [] end) evs)
    (flat_map (fun e => match e with VTremor x => [x] | _ => [] end) evs).

(** The script a list of commands describes, added to what the object holds. *)
Definition script_over (s : mscript) (cs : list command) : mscript :=
  mkMs (fold_left (fun k c => match c with CSkeleton k' => k' | _ => k end) cs (ms_skeleton s))
    (ms_meshes s ++ flat_map (fun c => match c with CMesh n => [n] | _ => [] end) cs)
    (ms_disabled s ++ flat_map (fun c => match c with CDisable n => [n] | _ => [] end) cs)
    (ms_combinations s ++ flat_map (fun c => match c with CComb x => [x] | _ => [] end) cs)
    (ms_blends s ++ flat_map (fun c => match c with CBlend x => [x] | _ => [] end) cs)
    (ms_aliases s ++ flat_map (fun c => match c with CAlias x => [x] | _ => [] end) cs)
    (ms_tags s ++ flat_map (fun c => match c with CTag x => [x] | _ => [] end) cs)
    (ms_animations s ++ flat_map (fun c => match c with CAni a l => [ani_with a l] | _ => [] end) cs).
Definition script_of (cs : list command) : mscript := script_over mscript_new cs.

(** ** Event tags *)
Definition tag_names : list (bytes * etype) :=
  [ (lit "DEF_CREATE_ITEM", E_ITEM_CREATE); (lit "DEF_INSERT_ITEM", E_ITEM_INSERT); (lit "DEF_REMOVE_ITEM", E_ITEM_REMOVE);
    (lit "DEF_DESTROY_ITEM", E_ITEM_DESTROY); (lit "DEF_PLACE_ITEM", E_ITEM_PLACE); (lit "DEF_EXCHANGE_ITEM", E_ITEM_EXCHANGE);
    (lit "DEF_FIGHTMODE", E_SET_FIGHT_MODE); (lit "DEF_PLACE_MUNITION", E_MUNITION_PLACE);
    (lit "DEF_REMOVE_MUNITION", E_MUNITION_REMOVE); (lit "DEF_DRAWSOUND", E_SOUND_DRAW); (lit "DEF_UNDRAWSOUND", E_SOUND_UNDRAW);
    (lit "DEF_SWAPMESH", E_MESH_SWAP); (lit "DEF_DRAWTORCH", E_TORCH_DRAW); (lit "DEF_INV_TORCH", E_TORCH_INVENTORY);
    (lit "DEF_DROP_TORCH", E_TORCH_DROP); (lit "DEF_HIT_LIMB", E_HIT_LIMB); (lit "HIT_LIMB", E_HIT_LIMB);
    (lit "DEF_HIT_DIR", E_HIT_DIRECTION); (lit "DEF_DIR", E_HIT_DIRECTION); (lit "DEF_DAM_MULTIPLY", E_DAMAGE_MULTIPLIER);
    (lit "DEF_PAR_FRAME", E_PARRY_FRAME); (lit "DEF_OPT_FRAME", E_OPTIMAL_FRAME); (lit "DEF_HIT_END", E_HIT_END);
    (lit "DEF_WINDOW", E_COMBO_WINDOW) ].
Definition fight_modes : list (bytes * N) :=
  [ (lit "FIST", FM_FIST); (lit "1H", FM_SINGLE_HANDED); (lit "1h", FM_SINGLE_HANDED); (lit "2H", FM_DUAL_HANDED);
    (lit "2h", FM_DUAL_HANDED); (lit "BOW", FM_BOW); (lit "CBOW", FM_CROSSBOW); (lit "MAG", FM_MAGIC) ].

(** Frame numbers, separated by single spaces. *)
Fixpoint frames_text (l : list Z) : bytes :=
  match l with
  | [] => []
  | [z] => decz z
  | z :: l' => decz z ++ x20 :: frames_text l'
  end.
Definition int32 (z : Z) : Prop := (- 2 ^ 31 <= z < 2 ^ 31)%Z.

(** How many texts belong to a tag: of items and meshes, or a number list. *)
Inductive tag_args := ANone | ASlot (a : bytes) | ASlotItem (a b : bytes) | ASlots (a b : bytes) | AMode (a : bytes) (m : N)
| AFrames (l : list Z).
Definition tag_value (frame : Z) (ty : etype) (args : tag_args) (attached : bool) : mds_tag :=
  mkMdsTag frame ty
    (match args with ASlot a | ASlotItem a _ | ASlots a _ => a | _ => [] end)
    (match args with ASlots _ b => b | _ => [] end)
    (match args with ASlotItem _ b => b | _ => [] end)
    (match args with AFrames l => l | _ => [] end)
    (match args with AMode _ m => m | _ => FM_NONE end)
    attached.
(** The texts themselves. *)
Definition arg_texts (args : tag_args) : list bytes :=
  match args with
  | ANone => []
  | ASlot a => [a]
  | ASlotItem a b | ASlots a b => [a; b]
  | AMode a _ => [a]
  | AFrames l => [frames_text l]
  end.
(** The arguments each kind of tag has. *)
Definition args_fit (ty : etype) (args : tag_args) : Prop :=
  match ty, args with
  | (E_ITEM_CREATE | E_ITEM_EXCHANGE), ASlotItem _ _ => True
  | (E_ITEM_INSERT | E_MUNITION_PLACE | E_HIT_LIMB), ASlot _ => True
  | (E_HIT_DIRECTION | E_SOUND_DRAW | E_SOUND_UNDRAW | E_MUNITION_REMOVE | E_ITEM_DESTROY | E_TORCH_INVENTORY | E_ITEM_REMOVE),
      ASlot _ => True
  | E_MESH_SWAP, ASlots _ _ => True
  | E_SET_FIGHT_MODE, AMode a m => In (a, m) fight_modes
  | (E_DAMAGE_MULTIPLIER | E_PARRY_FRAME | E_OPTIMAL_FRAME | E_HIT_END | E_COMBO_WINDOW), AFrames l =>
      l <> [] /\ Forall int32 l
  | (E_ITEM_PLACE | E_TORCH_DRAW | E_TORCH_DROP), ANone => True
  | _, _ => False
  end.
(** Those whose argument the parser of sources drops. *)
Definition args_dropped (ty : etype) : Prop :=
  match ty with
  | E_HIT_DIRECTION | E_SOUND_DRAW | E_SOUND_UNDRAW | E_MUNITION_REMOVE | E_ITEM_DESTROY | E_TORCH_INVENTORY | E_ITEM_REMOVE => True
  | _ => False
  end.

(** Animation flags: the letters present. *)
Definition flag_letters : list (byte * N) := [(x4d, 1); (x52, 2); (x45, 4); (x46, 8); (x49, 16); (x50, 32)].
Definition flags_say (s : bytes) (f : N) : Prop :=
  f < 64 /\ forall c b, In (c, b) flag_letters -> (N.land f b = b <-> In c s).

(* ------------------------------------------------------------------ *)
(** * Text *)

Definition letters : bytes := lit "ABCDEFGHIJKLMNOPQRSTUVWXYZabcdefghijklmnopqrstuvwxyz".
Definition digits : bytes := lit "0123456789".
Definition spaces : bytes := [x20; x09; x0a; x0b; x0c; x0d].
(** What may be between tokens: white space, parentheses, semicolons, comments. *)
Inductive blank : bytes -> Prop :=
| blank_nil : blank []
| blank_char c s : In c (spaces ++ lit "();") -> blank s -> blank (c :: s)
| blank_comment t s : ~ In x0a t -> blank s -> blank (lit "//" ++ t ++ x0a :: s).

Definition word_starts : bytes := letters ++ lit "*_.".
Definition word_chars : bytes := letters ++ digits ++ lit "_-.".
(** Text that follows and does not begin with one of [s]. *)
Definition stops (s : bytes) (rest : bytes) : Prop := match rest with c :: _ => ~ In c s | [] => False end.
Definition newline_next (rest : bytes) : Prop := match rest with c :: _ => c = x0a | [] => False end.
Definition sign (neg : bool) : bytes := if neg then [x2d] else [].
(** A text in quotes: no quote, no line end, and the last visible character is no [)]. *)
Definition quotable (v : bytes) : Prop :=
  ~ In x22 v /\ ~ In x0a v /\ ~ (exists a ws, v = a ++ x29 :: ws /\ forall c, In c ws -> In c spaces).

(** [lexeme k v t rest]: [t], followed by [rest], is written for a token of kind [k] with
    value [v].  The closing quote may be left out before the end of the line, also when a
    parenthesis was to follow it. *)
Inductive lexeme : token -> bytes -> bytes -> bytes -> Prop :=
| lex_word c w rest : In c word_starts -> (forall x, In x w -> In x word_chars) -> stops word_chars rest ->
    lexeme TKeyword (c :: w) (c :: w) rest
| lex_int neg ds rest : ds <> [] -> (forall x, In x ds -> In x digits) -> stops (digits ++ lit ".") rest ->
    lexeme TInteger (sign neg ++ ds) (sign neg ++ ds) rest
| lex_float neg ds fs rest : ds <> [] -> (forall x, In x ds -> In x digits) -> (forall x, In x fs -> In x digits) ->
    stops (digits ++ lit ".") rest ->
    lexeme TFloat (sign neg ++ ds ++ x2e :: fs) (sign neg ++ ds ++ x2e :: fs) rest
| lex_string v rest : quotable v -> lexeme TString v (x22 :: v ++ [x22]) rest
| lex_unclosed v rest : quotable v -> newline_next rest -> lexeme TString v (x22 :: v) rest
| lex_unquoted v rest : ~ In x22 v -> ~ In x0a v -> newline_next rest -> lexeme TString v (x22 :: v ++ [x29]) rest
| lex_lbrace rest : lexeme TLbrace [] (lit "{") rest
| lex_rbrace rest : lexeme TRbrace [] (lit "}") rest
| lex_colon rest : lexeme TColon [] (lit ":") rest.

Definition toks := list (token * bytes).
(** [f] consists of the tokens [l], with blanks between them, followed by [rest]. *)
Inductive text_of : toks -> bytes -> bytes -> Prop :=
| text_nil rest : text_of [] rest rest
| text_cons b k v t l g rest : blank b -> lexeme k v t g -> text_of l g rest -> text_of ((k, v) :: l) (b ++ t ++ g) rest.

(* ------------------------------------------------------------------ *)
(** * Grammar *)

Definition lang := toks -> Prop.
Definition cat (P Q : lang) : lang := fun l => exists a b, P a /\ Q b /\ l = a ++ b.
Infix "+>" := cat (at level 61, right associativity).
Definition nothing : lang := fun l => l = [].
Definition either (P Q : lang) : lang := fun l => P l \/ Q l.
Definition given (c : Prop) (P : lang) : lang := fun l => c /\ P l.
Definition when (b : bool) (P : lang) : lang := if b then P else nothing.
Definition tok (k : token) : lang := fun l => exists v, l = [(k, v)].

Definition word (w : bytes) : lang := fun l => exists v, l = [(TKeyword, v)] /\ same v w = true.
Definition str (s : bytes) : lang := fun l => l = [(TString, s)].
(** Numbers are converted by the C library. *)
Definition int (z : Z) : lang := fun l => exists v, l = [(TInteger, v)] /\ stoi v = Ret z.
Definition num (x : N) : lang := fun l => exists k v, l = [(k, v)] /\ (k = TInteger \/ k = TFloat) /\ stof v = Ret x.
Definition layer (n : N) : lang := fun l => exists z, int z l /\ n = uint 32 z.
Definition flags (f : N) : lang := fun l => exists v, flags_say v f /\ ((fun l => l = [(TKeyword, v)]) +> either nothing (tok TColon)) l.
(** [w:x], where leaving it out means [d]. *)
Definition named (w : bytes) (d x : N) : lang := either (given (x = d) nothing) (word w +> tok TColon +> num x).
Definition default_int (z : Z) : lang := either (given (z = 0%Z) nothing) (int z).

Definition strs (l : list bytes) : lang := fun t => t = map (fun s => (TString, s)) l.
Definition g_tag (e : mds_tag) : lang := fun l => exists name args,
  In (name, tg_type e) tag_names /\ args_fit (tg_type e) args /\ e = tag_value (tg_frame e) (tg_type e) args (tg_attached e) /\
  (word (lit "*eventTag") +> default_int (tg_frame e) +> str name +> strs (arg_texts args) +>
   when (tg_attached e) (word (lit "ATTACH"))) l.
Definition g_event (e : mevent) : lang :=
  match e with
  | VTag t => g_tag t
  | VSfx x => word (lit "*eventSFX") +> int (sx_frame x) +> str (sx_name x) +> named (lit "R") f_1000 (sx_range x) +>
              when (sx_empty_slot x) (either (word (lit "EMPTY_SLOT")) (word (lit "EMTPY_SLOT")))
  | VSfxGround x => given (sx_range x = f_1000) (word (lit "*eventSFXGrnd") +> int (sx_frame x) +> str (sx_name x) +>
                      when (sx_empty_slot x) (word (lit "EMPTY_SLOT")))
  | VPfx x => word (lit "*eventPFX") +> int (px_frame x) +> default_int (px_index x) +> str (px_name x) +> str (px_position x) +>
              when (px_attached x) (either (word (lit "ATTACH")) (tok TString))
  | VPfxStop x => word (lit "*eventPFXStop") +> int (ps_frame x) +> int (ps_index x)
  | VMorph x => word (lit "*eventMMStartAni") +> int (mp_frame x) +> str (mp_animation x) +>
                either (given (mp_node x = []) nothing) (str (mp_node x))
  | VTremor x => word (lit "*eventCamTremor") +> int (tr_frame x) +> int (tr_field1 x) +> int (tr_field2 x) +>
                 int (tr_field3 x) +> int (tr_field4 x)
  end.
Fixpoint g_events (evs : list mevent) : lang :=
  match evs with [] => nothing | e :: evs' => g_event e +> g_events evs' end.

(** What may come after a command: anything; another command; another command spelt with
    "ani" or "model" in lower case. *)
Inductive need := NAny | NMore | NLower.
Definition low_word (v : bytes) : bool := contains (lit "ani") v || contains (lit "model") v.
Definition meets (n : need) (l : toks) : Prop :=
  match n with
  | NAny => True
  | NMore => l <> []
  | NLower => match l with (TKeyword, v) :: _ => low_word v = true | _ => True end
  end.

Definition direction (back : bool) : lang := if back then word (lit "R") else word (lit "F").
(** A block whose contents are ignored. *)
Definition skipped : lang := tok TLbrace +> (fun l => Forall (fun t => fst t <> TRbrace) l) +> tok TRbrace.
Definition header (name : bytes) (lay : N) (next : bytes) (bi bo fl : N) (model : bytes) : lang :=
  str name +> layer lay +> str next +> num bi +> num bo +> flags fl +> str model.

Definition g_command (c : command) (n : need) : lang :=
  match c with
  | CSkeleton _ | CMesh _ => fun _ => False
  | CAni a evs => given (no_events a /\ an_speed a = 0)
      (word (lit "ani") +> header (an_name a) (an_layer a) (an_next a) (an_blend_in a) (an_blend_out a) (an_flags a) (an_model a) +>
       direction (an_backward a) +> int (an_first_frame a) +> int (an_last_frame a) +>
       named (lit "FPS") f_25 (an_fps a) +> named (lit "CVS") f_1 (an_cvs a) +>
       either (given (n = NAny) (tok TLbrace +> g_events evs +> tok TRbrace))
              (given (n = NMore) (either nothing (tok TLbrace) +> g_events evs)))
  | CAlias a => given (n = NAny)
      (word (lit "aniAlias") +>
       header (al_name a) (al_layer a) (al_next a) (al_blend_in a) (al_blend_out a) (al_flags a) (al_alias a) +>
       either (given (al_backward a = false) nothing) (direction (al_backward a)))
  | CBlend b =>
      word (lit "aniBlend") +> str (bl_name b) +> either nothing (fun l => exists z, int z l) +> str (bl_next b) +>
      either (given (bl_blend_in b = 0 /\ bl_blend_out b = 0) nothing)
             (either (given (bl_blend_out b = 0) (num (bl_blend_in b))) (num (bl_blend_in b) +> num (bl_blend_out b))) +>
      either (given (n = NLower) nothing)
             (given (n = NAny)
                (either skipped
                        ((fun l => exists v, l = [(TKeyword, v)] /\ low_word v = false) +> either nothing (tok TColon) +> either nothing skipped)))
  | CComb c => given (n = NAny)
      (word (lit "aniComb") +>
       header (cb_name c) (cb_layer c) (cb_next c) (cb_blend_in c) (cb_blend_out c) (cb_flags c) (cb_model c) +>
       int (cb_last_frame c) +> either nothing skipped)
  | CDisable d => given (n = NAny) (word (lit "aniDisable") +> str d)
  | CTag b => given (n = NAny) (word (lit "modelTag") +> (fun l => exists v, l = [(TString, v)] /\ same v (lit "DEF_HIT_LIMB") = true) +> str b)
  end.
Inductive g_enum : list command -> lang :=
| enum_nil : g_enum [] []
| enum_cons c cs n l1 l2 : g_command c n l1 -> g_enum cs l2 -> meets n l2 -> g_enum (c :: cs) (l1 ++ l2).

(** A [Model] block has skeletons, meshes and enumerations of animations. *)
Inductive top := TopSkeleton (k : mds_skeleton) | TopMesh (n : bytes) | TopEnum (cs : list command).
Definition top_commands (t : top) : list command :=
  match t with TopSkeleton k => [CSkeleton k] | TopMesh n => [CMesh n] | TopEnum cs => cs end.
Definition g_top (t : top) : lang :=
  match t with
  | TopSkeleton k => word (lit "meshAndTree") +> str (sk_name k) +> when (sk_disable_mesh k) (word (lit "DONT_USE_MESH"))
  | TopMesh n => word (lit "registerMesh") +> str n
  | TopEnum cs => word (lit "aniEnum") +> tok TLbrace +> g_enum cs +> tok TRbrace
  end.
Fixpoint g_tops (l : list top) : lang := match l with [] => nothing | t :: l' => g_top t +> g_tops l' end.
Definition g_script (l : list top) : lang := word (lit "Model") +> tok TString +> tok TLbrace +> g_tops l +> tok TRbrace.
(** [f] is the source of a script; anything may follow the closing brace. *)
Definition source_file (l : list top) (f : bytes) : Prop := exists ts rest, g_script l ts /\ text_of ts f rest.

(** What sources can say and the parser keeps. *)
Definition event_kept (e : mevent) : Prop :=
  match e with
  | VTag t => ~ args_dropped (tg_type t)
  | VSfxGround x => sx_empty_slot x = false
  | _ => True
  end.
Definition command_kept (c : command) : Prop := match c with CAni _ evs => Forall event_kept evs | _ => True end.

(* ------------------------------------------------------------------ *)
(** * Calling the tokenizer until the end of the file *)
Fixpoint all_tokens (fuel n : nat) (t : tks) : outcome toks :=
  match n with
  | O => Fuel
  | S n' => obind (tk_next fuel t) (fun x =>
      match fst (fst x) with
      | TEof => Ret []
      | _ => obind (all_tokens fuel n' (snd x)) (fun l => Ret (fst x :: l))
      end)
  end.
(** A loader ends: it returns or throws. *)
Definition load_ends {A} (o : outcome A) : Prop := match o with Ret _ | Throw _ => True | Undef | Fuel => False end.
