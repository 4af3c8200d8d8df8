(** Specification of compiled model scripts: the chunks a script is laid out in. *)

From Verif Require Import MBase MStream SStream MBoxes SBoxes SFormat SMorph SMrm MScript SScript.
Local Open Scope N_scope.

(** A text and the byte that ends it: NUL, CR or LF. *)
Definition ended (s : bytes) (bs : bytes) : Prop := no_eol s /\ exists t, eol t /\ bs = s ++ [t].
(** Texts at the end of a chunk, read with the white space after them skipped. *)
Inductive last_lines : list bytes -> bytes -> Prop :=
| lines_zero : last_lines [] []
| lines_one s t : no_eol s -> eol t -> last_lines [s] (s ++ [t])
| lines_cons s t s2 l bs : no_eol s -> ends_line t bs -> last_lines (s2 :: l) bs -> last_lines (s :: s2 :: l) (s ++ [t] ++ bs).
(** A stored truth value: zero or anything else. *)
Definition truth (b : bool) (n : N) : Prop := n < 2 ^ 32 /\ (b = true <-> n <> 0).
(** The letter R for backward, first in its text. *)
Definition direction_text (back : bool) (s : bytes) : Prop := back = true <-> exists s', s = x52 :: s'.

Definition header_layout (name : bytes) (lay : N) (next : bytes) (bi bo fl : N) (model : bytes) (bs : bytes) : Prop :=
  lay < 2 ^ 32 /\ f32 bi /\ f32 bo /\
  exists b1 b2 flags b3 b4, ended name b1 /\ ended next b2 /\ flags_say flags fl /\ ended flags b3 /\ ended model b4 /\
    bs = b1 ++ le_enc 4 lay ++ b2 ++ le_enc 4 bi ++ le_enc 4 bo ++ b3 ++ b4.
Definition sfx_layout (x : mds_sfx) (bs : bytes) : Prop :=
  int32 (sx_frame x) /\ f32 (sx_range x) /\
  exists b1 n, ended (sx_name x) b1 /\ truth (sx_empty_slot x) n /\
    bs = int_bytes (sx_frame x) ++ b1 ++ le_enc 4 (sx_range x) ++ le_enc 4 n.

(** The type and the contents of the chunk of an event. *)
Definition event_layout (e : mevent) (ty : N) (bs : bytes) : Prop :=
  match e with
  | VTag t => ty = 62883 /\ exists name args b1 b2,
      In (name, tg_type t) tag_names /\ args_fit (tg_type t) args /\ t = tag_value (tg_frame t) (tg_type t) args false /\
      int32 (tg_frame t) /\ ended name b1 /\ last_lines (arg_texts args) b2 /\ bs = int_bytes (tg_frame t) ++ b1 ++ b2
  | VSfx x => ty = 62881 /\ sfx_layout x bs
  | VSfxGround x => ty = 62882 /\ sfx_layout x bs
  | VPfx x => ty = 62884 /\ int32 (px_frame x) /\ int32 (px_index x) /\
      exists b1 b2 n, ended (px_name x) b1 /\ ended (px_position x) b2 /\ truth (px_attached x) n /\
        bs = int_bytes (px_frame x) ++ int_bytes (px_index x) ++ b1 ++ b2 ++ le_enc 4 n
  | VPfxStop x => ty = 62885 /\ int32 (ps_frame x) /\ int32 (ps_index x) /\ bs = int_bytes (ps_frame x) ++ int_bytes (ps_index x)
  | VMorph x => ty = 62889 /\ int32 (mp_frame x) /\
      exists b1 b2 f g, ended (mp_animation x) b1 /\ ended (mp_node x) b2 /\ f32 f /\ f32 g /\
        bs = int_bytes (mp_frame x) ++ b1 ++ b2 ++ le_enc 4 f ++ le_enc 4 g
  | VTremor x => ty = 62890 /\ int32 (tr_frame x) /\ int32 (tr_field1 x) /\ int32 (tr_field2 x) /\ int32 (tr_field3 x) /\
      int32 (tr_field4 x) /\
      bs = int_bytes (tr_frame x) ++ int_bytes (tr_field1 x) ++ int_bytes (tr_field2 x) ++ int_bytes (tr_field3 x) ++
           int_bytes (tr_field4 x)
  end.

(** The chunk of a command; the events of an animation follow in chunks of their own. *)
Definition command_layout (c : command) (ty : N) (bs : bytes) : Prop :=
  match c with
  | CSkeleton k => ty = 62208 /\ exists n b1, truth (sk_disable_mesh k) n /\ ended (sk_name k) b1 /\ bs = le_enc 4 n ++ b1
  | CMesh m => ty = 62464 /\ last_lines [m] bs
  | CAni a evs => ty = 62752 /\ no_events a /\ int32 (an_first_frame a) /\ int32 (an_last_frame a) /\ f32 (an_fps a) /\
      f32 (an_speed a) /\ f32 (an_cvs a) /\
      exists b1 dir b2, header_layout (an_name a) (an_layer a) (an_next a) (an_blend_in a) (an_blend_out a) (an_flags a) (an_model a) b1 /\
        direction_text (an_backward a) dir /\ ended dir b2 /\
        bs = b1 ++ b2 ++ int_bytes (an_first_frame a) ++ int_bytes (an_last_frame a) ++ le_enc 4 (an_fps a) ++
             le_enc 4 (an_speed a) ++ le_enc 4 (an_cvs a)
  | CAlias a => ty = 62768 /\
      exists b1 dir b2, header_layout (al_name a) (al_layer a) (al_next a) (al_blend_in a) (al_blend_out a) (al_flags a) (al_alias a) b1 /\
        direction_text (al_backward a) dir /\ ended dir b2 /\ bs = b1 ++ b2
  | CBlend b => ty = 62784 /\ f32 (bl_blend_in b) /\ f32 (bl_blend_out b) /\
      exists b1 b2, ended (bl_name b) b1 /\ ended (bl_next b) b2 /\ bs = b1 ++ b2 ++ le_enc 4 (bl_blend_in b) ++ le_enc 4 (bl_blend_out b)
  | CComb c => ty = 62832 /\ int32 (cb_last_frame c) /\
      exists b1, header_layout (cb_name c) (cb_layer c) (cb_next c) (cb_blend_in c) (cb_blend_out c) (cb_flags c) (cb_model c) b1 /\
        bs = b1 ++ int_bytes (cb_last_frame c)
  | CDisable d => ty = 62848 /\ ended d bs
  | CTag b => ty = 62864 /\ exists z s b1 b2, int32 z /\ ended s b1 /\ last_lines [b] b2 /\ bs = int_bytes z ++ b1 ++ b2
  end.

(** Chunks that say nothing about the script: the head of the file, the name of the source, the
    heads of groups of events and chunks of types that have no meaning. *)
Definition meant : list N :=
  [62208; 62464; 62752; 62768; 62784; 62832; 62848; 62864; 62881; 62882; 62883; 62884; 62885; 62889; 62890].
Definition aside (ty : N) (bs : bytes) : Prop :=
  if ty =? 61440 then exists n s b1, n < 2 ^ 32 /\ ended s b1 /\ bs = le_enc 4 n ++ b1
  else if ty =? 61696 then exists d pad s b1, date_ok d /\ pad < 2 ^ 16 /\ ended s b1 /\ bs = date_bytes d pad ++ b1
  else if ty =? 62880 then exists n, n < 2 ^ 32 /\ bs = le_enc 4 n
  else ~ In ty meant.

Inductive events_chunks : list mevent -> list chunk -> Prop :=
| events_none : events_chunks [] []
| events_aside c l cs : chunk_ok c -> aside (fst c) (snd c) -> events_chunks l cs -> events_chunks l (c :: cs)
| events_more e c l cs : chunk_ok c -> event_layout e (fst c) (snd c) -> events_chunks l cs -> events_chunks (e :: l) (c :: cs).
Inductive script_chunks : list command -> list chunk -> Prop :=
| chunks_none : script_chunks [] []
| chunks_aside c l cs : chunk_ok c -> aside (fst c) (snd c) -> script_chunks l cs -> script_chunks l (c :: cs)
| chunks_more k c evs l cs : chunk_ok c -> command_layout k (fst c) (snd c) ->
    events_chunks (match k with CAni _ l => l | _ => [] end) evs -> script_chunks l cs ->
    script_chunks (k :: l) (c :: evs ++ cs).
(** A compiled file begins with a chunk of a type from 0xF000 on; it has fewer animations than
    can be counted with 32 bits. *)
Definition compiled_file (l : list command) (f : bytes) : Prop :=
  exists c cs, script_chunks l (c :: cs) /\ 61440 <= fst c /\ f = flat_map chunk_bytes (c :: cs) /\ len l < 2 ^ 32.
